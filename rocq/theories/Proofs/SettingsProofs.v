(** Reading the configuration files. *)
From Verif Require Import Model.Base Model.Attr Model.Double Model.Verifiers Model.PathCalc Model.Enums Model.Wrapper Model.Settings.
From Verif Require Import Spec.Text Spec.EnumSpec Spec.VerifierSpec Spec.SettingsSpec.
From Verif Require Import Proofs.Tactics Proofs.StringFacts Proofs.CalcProofs Proofs.EnumProofs Proofs.PathVisit Proofs.PathRange Proofs.WrapperTables.
From Coq Require Import Sorting.Sorted.

Local Open Scope string_scope.
Local Open Scope Z_scope.

(** ** Values *)

Lemma is_digit_not_space c : is_digit c = true -> is_space c = false.
Proof. unfold is_digit, is_space. lia. Qed.

Lemma blank_head_digit w : blank w -> head_not is_digit w.
Proof.
  destruct w as [|c w]; cbn; [trivial|]. intros H. apply andb_true_iff in H as [H _].
  destruct (is_digit c) eqn:E; [|reflexivity]. apply is_digit_not_space in E. congruence.
Qed.

Lemma number_text_parts s neg ds r : number_text s = (neg, ds, r) ->
  exists w sg, s = w ++ sg ++ ds ++ r /\ blank w /\ sign_text sg neg /\ all_chars is_digit ds = true /\ head_not is_digit r.
Proof.
  unfold number_text. destruct (span is_space s) as [w s1] eqn:E1. apply span_parts in E1 as (-> & W & H1). cbn [snd].
  set (p := match s1 with
            | "" => (false, s1)
            | String c r0 => if Ascii.eqb c "-" then (true, r0) else if Ascii.eqb c "+" then (false, r0) else (false, s1)
            end).
  assert (P : exists sg, s1 = sg ++ snd p /\ sign_text sg (fst p)).
  { unfold p. destruct s1 as [|c s1]; [exists ""; split; [reflexivity|constructor]|].
    destruct (Ascii.eqb_spec c "-") as [->|]; [exists "-"; split; [reflexivity|constructor]|].
    destruct (Ascii.eqb_spec c "+") as [->|]; [exists "+"; split; [reflexivity|constructor]|].
    exists ""; split; [reflexivity|constructor]. }
  destruct p as [neg' s2] eqn:Ep. cbn [fst snd] in P. destruct P as (sg & -> & SG).
  destruct (span is_digit s2) as [ds' r'] eqn:E2. apply span_parts in E2 as (-> & D & H2). intros E. injection E as <- <- <-.
  exists w, sg. auto.
Qed.

Lemma number_text_of w sg neg ds r : blank w -> sign_text sg neg -> all_chars is_digit ds = true -> head_not is_digit r ->
  (sg <> "" \/ ds <> "" \/ match r with String c _ => is_space c = false /\ c <> "+"%char /\ c <> "-"%char | "" => True end) ->
  number_text (w ++ sg ++ ds ++ r) = (neg, ds, r).
Proof.
  intros W SG D R H. unfold number_text.
  assert (N : head_not is_space (sg ++ ds ++ r)).
  { inv SG; cbn; try reflexivity. destruct ds as [|d ds]; cbn.
    - destruct H as [H|[H|H]]; try congruence. destruct r as [|c r]; cbn; [trivial|apply H].
    - cbn in D. apply andb_true_iff in D as [D _]. now apply is_digit_not_space. }
  rewrite (span_app is_space w (sg ++ ds ++ r) W N). cbn [snd].
  assert (P : match (sg ++ ds ++ r) with
              | "" => (false, sg ++ ds ++ r)
              | String c r0 => if Ascii.eqb c "-" then (true, r0) else if Ascii.eqb c "+" then (false, r0) else (false, sg ++ ds ++ r)
              end = (neg, ds ++ r)).
  { inv SG; cbn [append]; try reflexivity. destruct ds as [|d ds]; cbn [append].
    - destruct H as [H|[H|H]]; try congruence. destruct r as [|c r]; [reflexivity|]. destruct H as (_ & H1 & H2).
      destruct (Ascii.eqb_spec c "-"); [congruence|]. destruct (Ascii.eqb_spec c "+"); [congruence|]. reflexivity.
    - cbn in D. apply andb_true_iff in D as [D _].
      destruct (Ascii.eqb_spec d "-") as [->|]; [discriminate|]. destruct (Ascii.eqb_spec d "+") as [->|]; [discriminate|]. reflexivity. }
  rewrite P. rewrite (span_app is_digit ds r D R). reflexivity.
Qed.

Lemma finished_ok {A} rest (a b : A) : finished rest a = Ok b <-> blank rest /\ a = b.
Proof. unfold finished, blank. destruct (all_chars is_space rest); split; [intros E; injection E; auto|intros [_ ->]; reflexivity|discriminate|intros [E _]; discriminate]. Qed.

Lemma eqb_empty s : negb (String.eqb s "") = true <-> s <> "".
Proof. rewrite negb_true_iff. apply String.eqb_neq. Qed.

Lemma value_int_ok s n : value_int s = Ok n <-> reads_int s n.
Proof.
  split.
  - unfold value_int. destruct (number_text s) as [[neg ds] r] eqn:E. apply number_text_parts in E as (w & sg & -> & W & SG & D & _).
    destruct (negb _ && _ && _) eqn:B; [|discriminate]. rewrite !andb_true_iff, eqb_empty in B. destruct B as [[B1 B2] B3].
    intros F. apply finished_ok in F as [R <-].
    exists w, sg, neg, ds, (digits_val ds), r. do 4 (split; [auto|]). split; [repeat split; auto|]. split; [reflexivity|lia].
  - intros (w & sg & neg & ds & m & w' & -> & W & W' & SG & (D1 & D2 & <-) & -> & I). unfold value_int.
    rewrite (number_text_of w sg neg ds w'); auto using blank_head_digit.
    replace (negb (String.eqb ds "")) with true by (symmetry; now apply eqb_empty). unfold signed in *.
    replace (_ && _ && _) with true by lia. apply finished_ok. auto.
Qed.

Lemma digits_nonneg s : all_chars is_digit s = true -> 0 <= digits_val s.
Proof.
  unfold digits_val. assert (H : forall a, 0 <= a -> all_chars is_digit s = true -> 0 <= digits_acc a s).
  { induction s as [|c s IH]; cbn; intros a A H; [exact A|]. apply andb_true_iff in H as [H1 H2]. apply IH; [|exact H2].
    unfold is_digit, digit_val in *. lia. }
  apply H. lia.
Qed.

Lemma value_uint_ok s n : value_uint s = Ok n <-> reads_uint s n.
Proof.
  split.
  - unfold value_uint. destruct (number_text s) as [[neg ds] r] eqn:E. apply number_text_parts in E as (w & sg & -> & W & SG & D & _).
    destruct (negb _ && _) eqn:B; [|discriminate]. rewrite andb_true_iff, eqb_empty in B. destruct B as [B1 B2].
    intros F. apply finished_ok in F as [R <-].
    exists w, sg, neg, ds, (digits_val ds), r. do 4 (split; [auto|]). split; [repeat split; auto|]. split; [lia|reflexivity].
  - intros (w & sg & neg & ds & m & w' & -> & W & W' & SG & (D1 & D2 & <-) & I & ->). unfold value_uint.
    rewrite (number_text_of w sg neg ds w'); auto using blank_head_digit.
    replace (negb (String.eqb ds "")) with true by (symmetry; now apply eqb_empty).
    replace (_ && _) with true by lia. apply finished_ok. auto.
Qed.

Lemma substring_tail n s t : String.length s = n -> String.substring n (String.length (s ++ t) - n) (s ++ t) = t.
Proof.
  intros <-. rewrite string_app_length. replace (_ + _ - _)%nat with (String.length t) by lia.
  induction s as [|c s IH]; cbn; [|exact IH]. induction t as [|c t IH]; cbn; congruence.
Qed.

Lemma prefix_app_true p t : String.prefix p (p ++ t) = true.
Proof. induction p as [|c p IH]; cbn; [now destruct t|]. destruct (ascii_dec c c); [exact IH|congruence]. Qed.

Lemma prefix_app_inv p s : String.prefix p s = true -> exists t, s = p ++ t.
Proof.
  revert s. induction p as [|c p IH]; intros s H; [now exists s|]. destruct s as [|d s]; [discriminate|]. cbn in H.
  destruct (ascii_dec c d) as [<-|]; [|discriminate]. destruct (IH _ H) as [t ->]. now exists t.
Qed.

Lemma span_blank_app w s : blank w -> head_not is_space s -> snd (span is_space (w ++ s)) = s.
Proof. intros W H. now rewrite (span_app is_space w s W H). Qed.

Lemma value_bool_word neg ds w1 b w' : ~ (ds <> "" /\ digits_val ds = 0) -> ~ (ds <> "" /\ digits_val ds = 1 /\ neg = false) ->
  blank w1 -> blank w' ->
  (if negb (String.eqb ds "") && (digits_val ds =? 0) then finished (w1 ++ bool_name b ++ w') false
   else if negb (String.eqb ds "") && (digits_val ds =? 1) && negb neg then finished (w1 ++ bool_name b ++ w') true
   else let r := snd (span is_space (w1 ++ bool_name b ++ w')) in
    if String.prefix "true" r then finished (String.substring 4 (String.length r - 4) r) true
    else if String.prefix "false" r then finished (String.substring 5 (String.length r - 5) r) false
    else Exc EInvalidArgument) = Ok b.
Proof.
  intros A B W1 W'.
  destruct (negb (String.eqb ds "") && (digits_val ds =? 0)) eqn:E1.
  { exfalso. apply A. rewrite andb_true_iff, eqb_empty in E1. split; [tauto|lia]. }
  destruct (_ && negb neg) eqn:E2.
  { exfalso. apply B. rewrite !andb_true_iff, eqb_empty in E2. destruct E2 as [[? ?] ?]. split; [assumption|]. split; [lia|]. now destruct neg. }
  rewrite span_blank_app; [|exact W1|destruct b; reflexivity]. cbv zeta. destruct b; cbn [bool_name].
  - rewrite prefix_app_true. rewrite substring_tail by reflexivity. now apply finished_ok.
  - replace (String.prefix "true" ("false" ++ w')) with false by reflexivity. rewrite prefix_app_true.
    rewrite substring_tail by reflexivity. now apply finished_ok.
Qed.

Lemma value_bool_ok s b : value_bool s = Ok b <-> reads_bool s b.
Proof.
  split.
  - unfold value_bool. destruct (number_text s) as [[neg ds] r] eqn:E. apply number_text_parts in E as (w & sg & -> & W & SG & D & _).
    destruct (negb (String.eqb ds "") && (digits_val ds =? 0)) eqn:E1.
    { rewrite andb_true_iff, eqb_empty in E1. intros F. apply finished_ok in F as [R <-].
      apply (reads_zero _ w sg neg ds r); auto. repeat split; [tauto|exact D|lia]. }
    destruct (_ && negb neg) eqn:E2.
    { rewrite !andb_true_iff, eqb_empty in E2. destruct E2 as [[N1 N2] N3]. destruct neg; [discriminate|]. intros F. apply finished_ok in F as [R <-].
      apply (reads_one _ w sg ds r); auto. repeat split; [exact N1|exact D|lia]. }
    destruct (span is_space r) as [w1 r1] eqn:E3. apply span_parts in E3 as (-> & W1 & _). cbn [snd].
    assert (C : ds = "" \/ exists m, denotes ds m /\ m <> 0 /\ (neg = true \/ m <> 1)).
    { destruct ds as [|c ds]; [now left|right]. exists (digits_val (String c ds)). split; [repeat split; [discriminate|exact D]|].
      set (v := digits_val (String c ds)) in *. cbn [String.eqb negb andb] in E1, E2. split; [lia|]. destruct neg; [now left|right; lia]. }
    intros F. destruct (String.prefix "true" r1) eqn:P1.
    + apply prefix_app_inv in P1 as [t ->]. rewrite substring_tail in F by reflexivity. apply finished_ok in F as [T <-].
      eapply (reads_word _ true w sg neg ds w1 t); auto.
    + destruct (String.prefix "false" r1) eqn:P2; [|discriminate].
      apply prefix_app_inv in P2 as [t ->]. rewrite substring_tail in F by reflexivity. apply finished_ok in F as [T <-].
      eapply (reads_word _ false w sg neg ds w1 t); auto.
  - intros H. inv H.
    + destruct H4 as (D1 & D2 & D3). unfold value_bool. rewrite (number_text_of w sg neg ds w'); auto using blank_head_digit.
      replace (negb (String.eqb ds "")) with true by (symmetry; now apply eqb_empty). rewrite D3. cbn. now apply finished_ok.
    + destruct H4 as (D1 & D2 & D3). unfold value_bool. rewrite (number_text_of w sg false ds w'); auto using blank_head_digit.
      replace (negb (String.eqb ds "")) with true by (symmetry; now apply eqb_empty). rewrite D3. cbn. now apply finished_ok.
    + assert (D : all_chars is_digit ds = true) by (destruct H5 as [->|(m & (_ & D & _) & _)]; [reflexivity|exact D]).
      assert (A : ~ (ds <> "" /\ digits_val ds = 0)) by (intros [A1 A2]; destruct H5 as [->|(m & (_ & _ & <-) & A3 & _)]; [now apply A1|lia]).
      assert (B : ~ (ds <> "" /\ digits_val ds = 1 /\ neg = false)).
      { intros (A1 & A2 & A3); destruct H5 as [->|(m & (_ & _ & <-) & _ & A4)]; [now apply A1|]. subst neg. destruct A4; [discriminate|lia]. }
      assert (Q : forall w0, head_not is_digit (w0 ++ bool_name b ++ w') \/ ~ blank w0).
      { intros [|c w0]; [left; now destruct b|]. destruct (is_space c) eqn:S; [left|right; unfold blank; cbn; now rewrite S].
        cbn. destruct (is_digit c) eqn:G; [|reflexivity]. apply is_digit_not_space in G. congruence. }
      unfold value_bool. destruct sg as [|g sg].
      * destruct ds as [|d ds].
        -- cbn [append]. rewrite <- string_app_assoc. inv H4.
           assert (W2 : blank (w ++ w1)) by (unfold blank in *; rewrite all_chars_app; now rewrite H1, H2).
           change ((w ++ w1) ++ bool_name b ++ w') with ((w ++ w1) ++ "" ++ "" ++ bool_name b ++ w').
           rewrite (number_text_of (w ++ w1) "" false "" (bool_name b ++ w')); auto; [|constructor|now destruct b|right; right; destruct b; repeat split; discriminate].
           now apply (value_bool_word false "" "" b w').
        -- rewrite (number_text_of w "" neg (String d ds) (w1 ++ bool_name b ++ w')); auto;
             [|destruct (Q w1); [assumption|contradiction]|right; left; discriminate].
           now apply value_bool_word.
      * rewrite (number_text_of w (String g sg) neg ds (w1 ++ bool_name b ++ w')); auto;
          [|destruct (Q w1); [assumption|contradiction]|left; discriminate].
        now apply value_bool_word.
Qed.

(** The exponent as [value_double] takes it. *)
Definition exponent_part (s2 : string) : res (Z * string) :=
  match s2 with
  | String c r =>
      if Ascii.eqb c "e" || Ascii.eqb c "E" then
        let '(eneg, r1) := match r with
                           | String d r' => if Ascii.eqb d "-" then (true, r')
                                            else if Ascii.eqb d "+" then (false, r') else (false, r)
                           | EmptyString => (false, r)
                           end in
        let '(es, r2) := span is_digit r1 in
        if String.eqb es "" then Exc EInvalidArgument
        else Ok (if eneg : bool then - digits_val es else digits_val es, r2)
      else Ok (0, s2)
  | EmptyString => Ok (0, s2)
  end.

Lemma exponent_part_ok s2 e rest : exponent_part s2 = Ok (e, rest) -> exists ex, s2 = ex ++ rest /\ exponent ex e.
Proof.
  unfold exponent_part. destruct s2 as [|c r]; [intros E; injection E as <- <-; exists ""; split; [reflexivity|constructor]|].
  destruct (Ascii.eqb c "e" || Ascii.eqb c "E") eqn:C; [|intros E; injection E as <- <-; exists ""; split; [reflexivity|constructor]].
  set (p := match r with
            | "" => (false, r)
            | String d r' => if Ascii.eqb d "-" then (true, r') else if Ascii.eqb d "+" then (false, r') else (false, r)
            end).
  assert (P : exists sg, r = sg ++ snd p /\ sign_text sg (fst p)).
  { unfold p. destruct r as [|d r]; [exists ""; split; [reflexivity|constructor]|].
    destruct (Ascii.eqb_spec d "-") as [->|]; [exists "-"; split; [reflexivity|constructor]|].
    destruct (Ascii.eqb_spec d "+") as [->|]; [exists "+"; split; [reflexivity|constructor]|].
    exists ""; split; [reflexivity|constructor]. }
  destruct p as [neg r1] eqn:Ep. cbn [fst snd] in P. destruct P as (sg & -> & SG).
  destruct (span is_digit r1) as [es r2] eqn:E2. apply span_parts in E2 as (-> & D & _).
  destruct (String.eqb_spec es "") as [|N]; [discriminate|]. intros E. injection E as <- <-.
  exists (String c (sg ++ es)). split; [cbn; now rewrite string_app_assoc|]. constructor; [|exact SG|repeat split; auto].
  apply orb_true_iff in C as [C|C]; apply Ascii.eqb_eq in C; auto.
Qed.

Lemma exponent_part_of ex e w' : exponent ex e -> blank w' -> exponent_part (ex ++ w') = Ok (e, w').
Proof.
  intros X W. destruct X as [|c sg neg es m C SG (N & D & <-)].
  - destruct w' as [|c w']; [reflexivity|]. cbn. cbn in W. apply andb_true_iff in W as [W _].
    destruct (Ascii.eqb_spec c "e") as [->|]; [discriminate|]. destruct (Ascii.eqb_spec c "E") as [->|]; [discriminate|]. reflexivity.
  - cbn [append exponent_part]. replace (Ascii.eqb c "e" || Ascii.eqb c "E") with true by (destruct C as [->| ->]; reflexivity).
    rewrite string_app_assoc.
    assert (P : match (sg ++ es ++ w') with
                | "" => (false, sg ++ es ++ w')
                | String d r' => if Ascii.eqb d "-" then (true, r') else if Ascii.eqb d "+" then (false, r') else (false, sg ++ es ++ w')
                end = (neg, es ++ w')).
    { inv SG; cbn [append]; try reflexivity. destruct es as [|d es]; [contradiction|]. cbn [append]. cbn in D. apply andb_true_iff in D as [D _].
      destruct (Ascii.eqb_spec d "-") as [->|]; [discriminate|]. destruct (Ascii.eqb_spec d "+") as [->|]; [discriminate|]. reflexivity. }
    rewrite P. rewrite (span_app is_digit es w' D (blank_head_digit _ W)). destruct (String.eqb_spec es ""); [contradiction|]. reflexivity.
Qed.

Lemma bind_ok {A B} (x : res A) (f : A -> res B) b : bind x f = Ok b <-> exists a, x = Ok a /\ f a = Ok b.
Proof. destruct x as [a|e]; cbn; split; [eauto|intros (a' & E & F); injection E as <-; exact F|discriminate|intros (a' & E & _); discriminate]. Qed.

Lemma value_double_eq s : value_double s =
  let '(neg, ip, s1) := number_text s in
  let '(fp, s2) := match s1 with
                   | String c r => if Ascii.eqb c "." then span is_digit r else ("", s1)
                   | "" => ("", s1)
                   end in
  if String.eqb (ip ++ fp) "" then Exc EInvalidArgument
  else do er <- exponent_part s2;
       let v := decimal neg (digits_val (ip ++ fp)) (fst er - Z.of_nat (String.length fp)) in
       match v with S754_infinity _ => Exc EInvalidArgument | _ => finished (snd er) v end.
Proof.
  unfold value_double. destruct (number_text s) as [[neg ip] s1]. destruct (match s1 with "" => _ | _ => _ end) as [fp s2].
  destruct (String.eqb (ip ++ fp) ""); [reflexivity|]. fold (exponent_part s2). destruct (exponent_part s2) as [[e rest]|x]; reflexivity.
Qed.

Lemma not_infinity_ok (v : dbl) rest u :
  match v with S754_infinity _ => Exc EInvalidArgument | _ => finished rest v end = Ok u <->
  (forall b, v <> S754_infinity b) /\ blank rest /\ v = u.
Proof.
  destruct v; rewrite ?finished_ok; split; try discriminate.
  all: try (intros [A B]; split; [discriminate|auto]).
  all: try tauto.
  intros [A _]. destruct (A s eq_refl).
Qed.

Lemma value_double_ok s v : value_double s = Ok v <-> reads_double s v.
Proof.
  rewrite value_double_eq. split.
  - destruct (number_text s) as [[neg ip] s1] eqn:E. apply number_text_parts in E as (w & sg & -> & W & SG & D & _).
    set (p := match s1 with
              | "" => ("", s1)
              | String c r => if Ascii.eqb c "." then span is_digit r else ("", s1)
              end).
    assert (P : exists pt, s1 = pt ++ fst p ++ snd p /\ all_chars is_digit (fst p) = true /\ (pt = "." \/ pt = "" /\ fst p = "")).
    { unfold p. destruct s1 as [|c s1]; [exists ""; repeat split; auto|].
      destruct (Ascii.eqb_spec c ".") as [->|]; [|exists ""; repeat split; auto].
      destruct (span is_digit s1) as [a b] eqn:S. apply span_parts in S as (-> & S & _). exists ".". cbn. auto. }
    destruct p as [fp s2]. cbn [fst snd] in P. destruct P as (pt & -> & F & PT).
    destruct (String.eqb_spec (ip ++ fp) "") as [|N]; [discriminate|]. rewrite bind_ok. intros ([e rest] & X & V). cbn [fst snd] in V. cbv zeta in V.
    apply exponent_part_ok in X as (ex & -> & X). apply not_infinity_ok in V as (I & R & V).
    exists w, sg, neg, ip, pt, fp, ex, e, (digits_val (ip ++ fp)), rest. rewrite V in I. do 6 (split; [auto|]). split; [exact PT|].
    split; [repeat split; auto; rewrite all_chars_app, D; exact F|]. auto.
  - intros (w & sg & neg & ip & pt & fp & ex & e & m & w' & -> & W & W' & SG & D & F & PT & (N & _ & <-) & X & V & I).
    assert (H : head_not is_digit (pt ++ fp ++ ex ++ w')).
    { destruct PT as [->|[-> ->]]; [reflexivity|]. cbn. destruct X as [|c sg' neg' es m C SG' D']; [now apply blank_head_digit|].
      cbn. destruct C as [->| ->]; reflexivity. }
    assert (HF : head_not is_digit (ex ++ w')).
    { destruct X as [|c sg' neg' es m C SG' D']; [now apply blank_head_digit|]. cbn. destruct C as [->| ->]; reflexivity. }
    rewrite (number_text_of w sg neg ip (pt ++ fp ++ ex ++ w')); auto.
    + assert (P : match pt ++ fp ++ ex ++ w' with
                  | "" => ("", pt ++ fp ++ ex ++ w')
                  | String c r => if Ascii.eqb c "." then span is_digit r else ("", pt ++ fp ++ ex ++ w')
                  end = (fp, ex ++ w')).
      { destruct PT as [->|[-> ->]]; cbn [append].
        - now rewrite (span_app is_digit fp (ex ++ w') F HF).
        - destruct (ex ++ w') as [|c r] eqn:Q; [reflexivity|]. destruct (Ascii.eqb_spec c ".") as [->|]; [|reflexivity]. exfalso.
          destruct X as [|c sg' neg' es m C SG' D']; cbn in Q; [subst w'; discriminate|]. injection Q as -> _. destruct C; discriminate. }
      rewrite P. destruct (String.eqb_spec (ip ++ fp) ""); [contradiction|]. rewrite (exponent_part_of ex e w' X W'). cbn [bind fst snd]. cbv zeta.
      rewrite <- V. apply not_infinity_ok. auto.
    + destruct ip as [|c ip]; [|right; left; discriminate]. right. right. destruct PT as [->|[-> ->]]; [repeat split; discriminate|].
      now destruct N.
Qed.

(** ** Places *)

Lemma assoc_split {A} k (l : list (string * A)) c : assoc k l = Some c <-> exists b a, l = (b ++ (k, c) :: a)%list /\ ~ In k (map fst b).
Proof.
  induction l as [|[k' c'] l IH]; cbn [assoc].
  - split; [discriminate|]. intros ([|x b] & a & E & _); discriminate.
  - destruct (String.eqb_spec k k') as [<-|N].
    + split.
      * intros E. injection E as <-. exists []%list, l. split; [reflexivity|intros []].
      * intros ([|[k2 c2] b] & a & E & N); cbn in E; injection E; intros; subst; [reflexivity|]. exfalso. apply N. now left.
    + rewrite IH. split.
      * intros (b & a & -> & I). exists ((k', c') :: b)%list, a. split; [reflexivity|]. cbn. intros [E|E]; [now apply N|now apply I].
      * intros ([|[k2 c2] b] & a & E & I); cbn in E; injection E; intros; subst; [congruence|]. exists b, a. split; [reflexivity|].
        intros J. apply I. now right.
Qed.

Lemma pt_child_ok k t c : pt_child k t = Ok c <-> child k t c.
Proof.
  unfold pt_child. destruct t as [d l]. cbn [pt_kids]. split.
  - destruct (assoc k l) as [c'|] eqn:E; [|discriminate]. intros X. injection X as <-. apply assoc_split in E as (b & a & -> & N). now constructor.
  - intros H. inv H. replace (assoc k (before ++ (k, c) :: after)%list) with (Some c); [reflexivity|]. symmetry. apply assoc_split. eauto.
Qed.

Lemma pt_get_ok {A} (value : string -> res A) (reads : string -> A -> Prop) (H : forall s v, value s = Ok v <-> reads s v) k t v :
  pt_get value k t = Ok v <-> field reads k t v.
Proof.
  unfold pt_get, field. rewrite bind_ok. split; intros (c & C & V); exists c; (split; [now apply pt_child_ok|now apply H]).
Qed.

Lemma pt_string_ok k t v : pt_string k t = Ok v <-> field reads_text k t v.
Proof. apply pt_get_ok. intros s w. unfold reads_text. split; [intros E; now injection E|now intros ->]. Qed.
Lemma pt_int_ok k t v : pt_int k t = Ok v <-> field reads_int k t v.
Proof. apply pt_get_ok, value_int_ok. Qed.
Lemma pt_uint_ok k t v : pt_uint k t = Ok v <-> field reads_uint k t v.
Proof. apply pt_get_ok, value_uint_ok. Qed.
Lemma pt_double_ok k t v : pt_double k t = Ok v <-> field reads_double k t v.
Proof. apply pt_get_ok, value_double_ok. Qed.
Lemma pt_bool_ok k t v : pt_bool k t = Ok v <-> field reads_bool k t v.
Proof. apply pt_get_ok, value_bool_ok. Qed.

Lemma pt_enum_ok {E} write (read : string -> res E) names : agree write read names -> tokens names = true ->
  forall k t v, pt_enum read k t = Ok v <-> field (reads_name names) k t v.
Proof. intros A T k t v. apply pt_get_ok. intros s e. apply (agree_setting _ _ _ A T). Qed.

Lemma pt_rotation_ok k t v : pt_enum to_rotation_dir k t = Ok v <-> field (reads_name rotation_dirs) k t v.
Proof. apply pt_get_ok. intros s e. apply (setting_accepts _ _ (proj1 rotation_dir_reads) (proj2 rotation_dir_reads) eq_refl). Qed.
