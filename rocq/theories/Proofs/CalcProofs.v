(** Proofs about macro expressions: C22, C23, C24. *)
From Verif Require Import Model.Base Model.Double Model.Macro Model.Calc Spec.CalcSpec Spec.DoubleSpec
  Proofs.Tactics Proofs.StringFacts Proofs.DoubleFacts.

Local Open Scope string_scope.
Local Open Scope Z_scope.

(** ** Text *)

Lemma span_spec p s : s = fst (span p s) ++ snd (span p s) /\ all_chars p (fst (span p s)) = true /\
  match snd (span p s) with String c _ => p c = false | EmptyString => True end.
Proof.
  induction s as [|c s IH]; cbn [span]; [now cbn|].
  destruct (p c) eqn:E.
  - destruct (span p s) as [a b]. cbn [fst snd] in *. destruct IH as (-> & A & B).
    split; [reflexivity|]. split; [cbn; now rewrite E|exact B].
  - cbn. auto.
Qed.

Definition head_not (p : ascii -> bool) (s : string) : Prop :=
  match s with String c _ => p c = false | EmptyString => True end.

Lemma span_app p a b : all_chars p a = true -> head_not p b -> span p (a ++ b) = (a, b).
Proof.
  induction a as [|c a IH]; intros A B.
  - destruct b as [|c b]; [reflexivity|]. cbn in *. now rewrite B.
  - cbn in A. apply andb_prop in A as [A1 A2]. cbn [append span]. rewrite A1, (IH A2 B). reflexivity.
Qed.

Lemma skip_app b s : blanks b -> skip (b ++ s) = skip s.
Proof.
  unfold skip, blanks. induction b as [|c b IH]; intro H; [reflexivity|].
  cbn in H. apply andb_prop in H as [H1 H2]. cbn [append span]. rewrite H1.
  specialize (IH H2). destruct (span is_blank (b ++ s)). exact IH.
Qed.

Lemma skip_head s : head_not is_blank s -> skip s = s.
Proof. unfold skip. destruct s as [|c s]; [reflexivity|]. cbn [head_not]. intro H. cbn [span]. now rewrite H. Qed.

Lemma skip_spec s : exists b, blanks b /\ s = b ++ skip s /\ head_not is_blank (skip s).
Proof.
  unfold skip. pose proof (span_spec is_blank s) as (E & A & B).
  exists (fst (span is_blank s)). auto.
Qed.

Lemma skip_length s : (String.length (skip s) <= String.length s)%nat.
Proof.
  destruct (skip_spec s) as (b & _ & E & _). rewrite E at 2. rewrite string_app_length. lia.
Qed.

Lemma strip_app p s : strip p (p ++ s) = Some s.
Proof. induction p; cbn; [now destruct s|]. now rewrite Ascii.eqb_refl. Qed.

Lemma strip_spec p : forall s r, strip p s = Some r -> s = p ++ r.
Proof.
  induction p as [|a p IH]; intros s r; cbn.
  - destruct s; intro H; now inv H.
  - destruct s as [|b s]; [discriminate|]. destruct (Ascii.eqb_spec a b); [|discriminate].
    subst. intro H. now rewrite (IH _ _ H).
Qed.

(** Checking a fact for every character. *)
Definition every_char (f : ascii -> bool) : bool :=
  forallb (fun n => f (ascii_of_nat n)) (seq 0 256).

Lemma every_char_spec f : every_char f = true -> forall c, f c = true.
Proof.
  unfold every_char. rewrite forallb_forall. intros H c.
  rewrite <- (ascii_nat_embedding c). apply H. apply in_seq.
  pose proof (nat_ascii_bounded c). lia.
Qed.

Lemma lower_iff a b : 97 <= code a <= 122 ->
  (Ascii.eqb a (lower b) = true <-> code b = code a \/ code b = code a - 32).
Proof.
  intros Ha. unfold lower. rewrite Ascii.eqb_eq.
  assert (Inj : forall x y, code x = code y -> x = y).
  { intros x y E. unfold code in E. apply Nat2Z.inj in E.
    now rewrite <- (ascii_nat_embedding x), E, ascii_nat_embedding. }
  destruct ((65 <=? code b) && (code b <=? 90)) eqn:E.
  - assert (E2 : code (ascii_of_nat (Z.to_nat (code b + 32))) = code b + 32)
      by (unfold code at 1; rewrite nat_ascii_embedding; lia).
    split; intro H.
    + right. rewrite H, E2. lia.
    + destruct H as [H|H]; [lia|]. apply Inj. rewrite E2. lia.
  - split; intro H; [left; now subst|]. destruct H as [H|H]; [now apply Inj|lia].
Qed.

Definition letters (w : string) : Prop := all_chars (fun c => (97 <=? code c) && (code c <=? 122)) w = true.

Lemma strip_nocase_app w : letters w -> forall s r, any_case w s -> strip_nocase w (s ++ r) = Some r.
Proof.
  induction w as [|a w IH]; intros L s r A; destruct s as [|b s]; cbn in A; try contradiction.
  - cbn. now destruct r.
  - destruct A as [A1 A2]. cbn [letters all_chars] in L. unfold letters in L. cbn in L.
    apply andb_prop in L as [L1 L2]. cbn [append strip_nocase].
    replace (Ascii.eqb a (lower b)) with true; [now apply IH|].
    symmetry. apply lower_iff; [lia|exact A1].
Qed.

Lemma strip_nocase_spec w : letters w -> forall s r, strip_nocase w s = Some r ->
  exists t, any_case w t /\ s = t ++ r.
Proof.
  induction w as [|a w IH]; intros L s r; cbn [strip_nocase].
  - intro H. exists "". split; [exact I|]. destruct s; now inv H.
  - destruct s as [|b s]; [discriminate|]. unfold letters in L. cbn in L.
    apply andb_prop in L as [L1 L2].
    destruct (Ascii.eqb a (lower b)) eqn:E; [|discriminate]. intro H.
    destruct (IH L2 _ _ H) as (t & A & ->). exists (String b t). split; [|reflexivity].
    cbn. split; [|exact A]. apply lower_iff; [lia|exact E].
Qed.

(** ** Literals *)

(** Characters that cannot directly follow a literal: they would be read as
    part of it. *)
Definition sticky (c : ascii) : bool :=
  is_digit c || Ascii.eqb c "." || Ascii.eqb c "e" || Ascii.eqb c "E" || Ascii.eqb c "i" || Ascii.eqb c "I"
  || Ascii.eqb c "(".
Definition follow (r : string) : Prop := head_not sticky r.

Lemma follow_not p r : (forall c, p c = true -> sticky c = true) -> follow r -> head_not p r.
Proof.
  intros H F. destruct r as [|c r]; [exact I|]. cbn in *. destruct (p c) eqn:E; [|reflexivity].
  rewrite (H c E) in F. discriminate.
Qed.

Lemma digit_sticky c : is_digit c = true -> sticky c = true.
Proof. unfold sticky. now intros ->. Qed.

Lemma exponent_app ex r : exponent_part ex -> follow r -> exponent (ex ++ r) = (ex, r).
Proof.
  intros [->|(c & sg & ds & Hc & Hs & N & D & V & ->)] F.
  - cbn. destruct r as [|c r]; [reflexivity|]. cbn [exponent].
    cbn in F. unfold sticky in F.
    repeat (apply orb_false_elim in F as [F ?]). rewrite H3, H2. reflexivity.
  - pose proof (span_app is_digit ds r D (follow_not _ _ digit_sticky F)) as S.
    assert (V2 : (digits_val ds <=? int_max) = true) by lia.
    assert (NS : forall d ds', ds = String d ds' -> Ascii.eqb d "-" = false /\ Ascii.eqb d "+" = false).
    { intros d ds' ->. cbn in D. apply andb_prop in D as [D _].
      destruct (Ascii.eqb_spec d "-"); [subst; discriminate|].
      destruct (Ascii.eqb_spec d "+"); [subst; discriminate|]. auto. }
    cbn [append exponent].
    replace (Ascii.eqb c "e" || Ascii.eqb c "E") with true
      by (destruct Hc as [-> | ->]; reflexivity).
    destruct Hs as [-> | [-> | ->]]; cbn [append].
    + destruct ds as [|d ds]; [tauto|]. destruct (NS d ds eq_refl) as [N1 N2].
      cbn [append]. rewrite N1, N2. cbn [orb]. cbn [append] in S. rewrite S, V2. reflexivity.
    + change (Ascii.eqb "-" "-" || Ascii.eqb "-" "+") with true. cbv iota. rewrite S.
      destruct ds; [tauto|]. now rewrite V2.
    + change (Ascii.eqb "+" "-" || Ascii.eqb "+" "+") with true. cbv iota. rewrite S.
      destruct ds; [tauto|]. now rewrite V2.
Qed.

Lemma exponent_spec s ex r : exponent s = (ex, r) -> exponent_part ex /\ s = ex ++ r.
Proof.
  unfold exponent. destruct s as [|c s]; [intro H; inv H; split; [now left|reflexivity]|].
  destruct (Ascii.eqb c "e" || Ascii.eqb c "E") eqn:E; [|intro H; inv H; split; [now left|reflexivity]].
  apply orb_prop in E.
  assert (Hc : c = "e"%char \/ c = "E"%char) by (destruct E as [E|E]; apply Ascii.eqb_eq in E; auto).
  set (sgn := match s with
              | "" => ("", s)
              | String d r' => if Ascii.eqb d "-" || Ascii.eqb d "+" then (String d "", r') else ("", s)
              end).
  assert (Sg : (fst sgn = "" \/ fst sgn = "-" \/ fst sgn = "+") /\ s = fst sgn ++ snd sgn).
  { subst sgn. destruct s as [|d s]; [cbn; auto|].
    destruct (Ascii.eqb_spec d "-"); [subst; cbn; auto|].
    destruct (Ascii.eqb_spec d "+"); [subst; cbn; auto|]. cbn; auto. }
  destruct sgn as [sg r1]. cbn [fst snd] in Sg. destruct Sg as [Sg ->].
  pose proof (span_spec is_digit r1) as (Sp & D & _).
  destruct (span is_digit r1) as [ds r2]. cbn [fst snd] in *. subst r1.
  destruct ds as [|d ds]; [intro H; inv H; split; [now left|reflexivity]|].
  destruct (digits_val (String d ds) <=? int_max) eqn:V; intro H; inv H; [|split; [now left|reflexivity]].
  split.
  - right. exists c, sg, (String d ds). repeat split; auto; [discriminate|lia].
  - now rewrite <- string_app_assoc.
Qed.

(** ** Binary coded decimals *)

Lemma reread_zero k from to : 0 < from -> reread k from to 0 = 0.
Proof.
  intro H. induction k as [|k IH]; cbn [reread]; [reflexivity|].
  rewrite Z.mod_0_l, Z.div_0_l, IH by lia. lia.
Qed.

Lemma to_bcd_loop_spec f : forall u sh r, 0 <= u < 10 ^ Z.of_nat (S f) ->
  to_bcd_loop (S f) u sh r = Some (r + sh * reread f 10 16 (u / 10)).
Proof.
  induction f as [|f IH]; intros u sh r H.
  - cbn [to_bcd_loop reread]. change (10 ^ Z.of_nat 1) with 10 in H.
    rewrite Z.div_small by lia. cbn. f_equal. lia.
  - remember (S f) as g. cbn [to_bcd_loop]. subst g.
    destruct (Z.eqb_spec (u / 10) 0) as [E|E].
    + rewrite E, reread_zero by lia. f_equal. lia.
    + rewrite Nat2Z.inj_succ, Z.pow_succ_r in H by lia.
      rewrite IH by (split; [apply Z.div_pos; lia|apply Z.div_lt_upper_bound; lia]).
      f_equal. cbn [reread]. lia.
Qed.

Lemma uint32_to_bcd_reread n : 0 <= n < 2 ^ 32 -> uint32_to_bcd n = Some (reread 10 10 16 n).
Proof.
  intro H. unfold uint32_to_bcd. rewrite to_bcd_loop_spec by (change (10 ^ Z.of_nat 10) with 10000000000; lia).
  reflexivity.
Qed.

Lemma of_bcd_loop_spec f : forall b p i, 0 <= b < 16 ^ Z.of_nat (S f) ->
  of_bcd_loop (S f) b p i = Some (i + 10 * p * reread f 16 10 (b / 16)).
Proof.
  induction f as [|f IH]; intros b p i H.
  - cbn [of_bcd_loop reread]. change (16 ^ Z.of_nat 1) with 16 in H.
    rewrite Z.shiftr_div_pow2 by lia. change (2 ^ 4) with 16. rewrite Z.div_small by lia. cbn. f_equal. lia.
  - remember (S f) as g. cbn [of_bcd_loop]. subst g.
    rewrite Z.shiftr_div_pow2 by lia. change (2 ^ 4) with 16.
    destruct (Z.eqb_spec (b / 16) 0) as [E|E].
    + rewrite E, reread_zero by lia. f_equal. lia.
    + rewrite Nat2Z.inj_succ, Z.pow_succ_r in H by lia.
      rewrite IH by (split; [apply Z.div_pos; lia|apply Z.div_lt_upper_bound; lia]).
      change 15 with (Z.ones 4). rewrite Z.land_ones by lia. change (2 ^ 4) with 16.
      f_equal. cbn [reread]. lia.
Qed.

Lemma bcd_to_ui32_reread b : 0 <= b < 2 ^ 64 -> bcd_to_ui32 b = Some (reread 16 16 10 b mod 2 ^ 32).
Proof.
  intro H. unfold bcd_to_ui32. rewrite of_bcd_loop_spec.
  - change 15 with (Z.ones 4). rewrite Z.land_ones by lia. reflexivity.
  - change (16 ^ Z.of_nat 16) with 18446744073709551616. lia.
Qed.

Lemma reread_digit from to k : 0 < from <= to -> forall n i, 0 <= n -> (i < k)%nat ->
  (reread k from to n / to ^ Z.of_nat i) mod to = (n / from ^ Z.of_nat i) mod from.
Proof.
  intro H. induction k as [|k IH]; intros n i Hn Hi; [lia|]. cbn [reread].
  pose proof (Z.mod_pos_bound n from ltac:(lia)) as B.
  destruct i as [|i].
  - cbn [Z.of_nat]. rewrite !Z.pow_0_r, !Z.div_1_r.
    rewrite (Z.mul_comm to), Z.mod_add, Z.mod_small by lia. reflexivity.
  - rewrite Nat2Z.inj_succ, !Z.pow_succ_r by lia.
    rewrite <- !Z.div_div by lia.
    rewrite (Z.mul_comm to), Z.div_add, (Z.div_small (n mod from)) by lia. cbn [Z.add].
    apply IH; [apply Z.div_pos; lia|lia].
Qed.

Lemma reread_bound from to k : 0 < from <= to -> forall n, 0 <= n ->
  0 <= reread k from to n < to ^ Z.of_nat k.
Proof.
  intro H. induction k as [|k IH]; intros n Hn; cbn [reread]; [cbn; lia|].
  rewrite Nat2Z.inj_succ, Z.pow_succ_r by lia.
  pose proof (Z.mod_pos_bound n from ltac:(lia)). specialize (IH (n / from) ltac:(apply Z.div_pos; lia)). nia.
Qed.

Lemma reread_back from to k : 0 < from <= to -> forall n, 0 <= n < from ^ Z.of_nat k ->
  forall j, reread (k + j) to from (reread k from to n) = n.
Proof.
  intro H. induction k as [|k IH]; intros n Hn j; cbn [reread Nat.add].
  - cbn in Hn. rewrite reread_zero by lia. lia.
  - rewrite Nat2Z.inj_succ, Z.pow_succ_r in Hn by lia.
    pose proof (Z.mod_pos_bound n from ltac:(lia)).
    rewrite (Z.mul_comm to), Z.mod_add, Z.div_add, (Z.div_small (n mod from)), (Z.mod_small (n mod from)) by lia.
    cbn [Z.add]. rewrite IH.
    + rewrite (Z.div_mod n from) at 3 by lia. lia.
    + split; [apply Z.div_pos; lia|apply Z.div_lt_upper_bound; lia].
Qed.

Lemma bcd_round_trip n : 0 <= n < 2 ^ 32 -> exists b,
  uint32_to_bcd n = Some b /\ 0 <= b < 2 ^ 40 /\
  (forall i, 0 <= i -> (b / 16 ^ i) mod 16 = (n / 10 ^ i) mod 10) /\
  bcd_to_ui32 b = Some n.
Proof.
  intro H. exists (reread 10 10 16 n).
  pose proof (reread_bound 10 16 10 ltac:(lia) n ltac:(lia)) as B.
  change (16 ^ Z.of_nat 10) with 1099511627776 in B.
  split; [now apply uint32_to_bcd_reread|]. split; [lia|]. split.
  - intros i Hi. rewrite <- (Z2Nat.id i) by lia. destruct (lt_dec (Z.to_nat i) 10) as [L|L].
    + apply reread_digit; lia.
    + rewrite Z2Nat.id by lia.
      assert (16 ^ 10 <= 16 ^ i) by (apply Z.pow_le_mono_r; lia).
      assert (10 ^ 10 <= 10 ^ i) by (apply Z.pow_le_mono_r; lia).
      rewrite !Z.div_small by lia. reflexivity.
  - rewrite bcd_to_ui32_reread by lia.
    change (reread 16 16 10) with (reread (10 + 6) 16 10).
    rewrite (reread_back 10 16 10 ltac:(lia) n).
    + rewrite Z.mod_small by lia. reflexivity.
    + change (10 ^ Z.of_nat 10) with 10000000000. lia.
Qed.

Section Calc.
Variable lit : string -> dbl.
Variable libm : string -> dbl -> dbl.

Lemma digits_head c s : is_digit c = true -> literal_value lit (String c s) = lit (String c s).
Proof.
  intro H. unfold literal_value.
  assert (forall d, d = "n"%char \/ d = "N"%char \/ d = "i"%char \/ d = "I"%char -> is_digit d = false) as N
    by (intros d [->|[->|[->| ->]]]; reflexivity).
  destruct c as [[] [] [] [] [] [] [] []]; try reflexivity; exfalso; vm_compute in H; discriminate.
Qed.

(** The part of [real] after the sign. *)
Definition unsigned_real (s1 : string) : option (dbl * string) :=
  let '(ip, s2) := span is_digit s1 in
  match ip, strip_nocase "nan" s1, strip_nocase "inf" s1 with
  | EmptyString, Some r, _ => match nan_tail r with Some r' => Some (S754_nan, r') | None => None end
  | EmptyString, None, Some r =>
      Some (S754_infinity false, match strip_nocase "inity" r with Some r' => r' | None => r end)
  | _, _, _ =>
      match s2 with
      | String c r =>
          if Ascii.eqb c "." then
            let '(fp, s3) := span is_digit r in
            match ip, fp with
            | EmptyString, EmptyString => None
            | _, _ => let '(ex, s4) := exponent s3 in Some (lit (ip ++ "." ++ fp ++ ex), s4)
            end
          else
            match ip with
            | EmptyString => None
            | _ => let '(ex, s4) := exponent s2 in Some (lit (ip ++ ex), s4)
            end
      | EmptyString =>
          match ip with EmptyString => None | _ => Some (lit ip, "") end
      end
  end.

Definition map_fst (f : dbl -> dbl) (o : option (dbl * string)) : option (dbl * string) :=
  match o with Some (v, r) => Some (f v, r) | None => None end.

Lemma real_unsigned s : real lit s =
  match s with
  | String c r => if Ascii.eqb c "-" then map_fst dopp (unsigned_real r)
                  else if Ascii.eqb c "+" then unsigned_real r else unsigned_real s
  | EmptyString => None
  end.
Proof.
  assert (U : forall (neg : bool) s1,
    (let sgn x := if neg then dopp x else x in
     let '(ip, s2) := span is_digit s1 in
     match ip, strip_nocase "nan" s1, strip_nocase "inf" s1 with
     | EmptyString, Some r, _ => match nan_tail r with Some r' => Some (S754_nan, r') | None => None end
     | EmptyString, None, Some r =>
         Some (sgn (S754_infinity false), match strip_nocase "inity" r with Some r' => r' | None => r end)
     | _, _, _ =>
         match s2 with
         | String c r =>
             if Ascii.eqb c "." then
               let '(fp, s3) := span is_digit r in
               match ip, fp with
               | EmptyString, EmptyString => None
               | _, _ => let '(ex, s4) := exponent s3 in Some (sgn (lit (ip ++ "." ++ fp ++ ex)), s4)
               end
             else
               match ip with
               | EmptyString => None
               | _ => let '(ex, s4) := exponent s2 in Some (sgn (lit (ip ++ ex)), s4)
               end
         | EmptyString =>
             match ip with EmptyString => None | _ => Some (sgn (lit ip), "") end
         end
     end) = (if neg then map_fst dopp (unsigned_real s1) else unsigned_real s1)).
  { intros neg s1. unfold unsigned_real. destruct neg; [|reflexivity]. cbv zeta.
    destruct (span is_digit s1) as [ip s2].
    destruct ip as [|i ip].
    - destruct (strip_nocase "nan" s1) as [r|]; [now destruct (nan_tail r)|].
      destruct (strip_nocase "inf" s1) as [r|]; [reflexivity|].
      destruct s2 as [|c r]; [reflexivity|]. destruct (Ascii.eqb c "."); [|reflexivity].
      destruct (span is_digit r) as [fp s3]. destruct fp; [reflexivity|]. now destruct (exponent s3).
    - destruct s2 as [|c r]; [reflexivity|]. destruct (Ascii.eqb c ".").
      + destruct (span is_digit r) as [fp s3]. now destruct (exponent s3).
      + now destruct (exponent (String c r)). }
  unfold real. destruct s as [|c r]; [reflexivity|].
  destruct (Ascii.eqb c "-"); [exact (U true r)|].
  destruct (Ascii.eqb c "+"); [exact (U false r)|exact (U false (String c r))].
Qed.

Ltac codes :=
  change (code "n") with 110 in *; change (code "N") with 78 in *;
  change (code "i") with 105 in *; change (code "I") with 73 in *.

Definition starts_literal (c : ascii) : bool :=
  is_digit c || Ascii.eqb c "." || Ascii.eqb c "n" || Ascii.eqb c "N" || Ascii.eqb c "i" || Ascii.eqb c "I".

Lemma not_word_head w a c s : w = String a s -> 97 <= code a <= 122 ->
  code c <> code a -> code c <> code a - 32 -> forall r, strip_nocase w (String c r) = None.
Proof.
  intros -> A N1 N2 r. cbn. destruct (Ascii.eqb a (lower c)) eqn:E; [|reflexivity].
  apply lower_iff in E; [|exact A]. lia.
Qed.

Lemma char_ne c d : Ascii.eqb c d = false -> code c <> code d.
Proof.
  intros E H. unfold code in H. apply Nat2Z.inj in H.
  rewrite <- (ascii_nat_embedding c), H, ascii_nat_embedding, Ascii.eqb_refl in E. discriminate.
Qed.

Lemma unsigned_real_none c r : starts_literal c = false -> unsigned_real (String c r) = None.
Proof.
  unfold starts_literal. intro H. repeat (apply orb_false_elim in H as [H ?]).
  unfold unsigned_real. cbn [span]. rewrite H.
  apply char_ne in H0, H1, H2, H3.
  rewrite (not_word_head "nan" "n" c "an" eq_refl) by (codes; lia).
  rewrite (not_word_head "inf" "i" c "nf" eq_refl) by (codes; lia).
  now rewrite H4.
Qed.

Lemma unsigned_real_empty : unsigned_real "" = None.
Proof. reflexivity. Qed.

Lemma all_digits_no_word w a s : w = String a s -> 97 <= code a <= 122 ->
  forall c r, is_digit c = true -> strip_nocase w (String c r) = None.
Proof.
  intros E A c r D. apply (not_word_head w a c s E A); unfold is_digit in D; lia.
Qed.

Lemma unsigned_real_ip c ip r : is_digit c = true ->
  unsigned_real (String c ip ++ r) =
  let '(ip, s2) := span is_digit (String c ip ++ r) in
  match s2 with
  | String c r =>
      if Ascii.eqb c "." then
        let '(fp, s3) := span is_digit r in
        match ip, fp with
        | EmptyString, EmptyString => None
        | _, _ => let '(ex, s4) := exponent s3 in Some (lit (ip ++ "." ++ fp ++ ex), s4)
        end
      else
        match ip with
        | EmptyString => None
        | _ => let '(ex, s4) := exponent s2 in Some (lit (ip ++ ex), s4)
        end
  | EmptyString =>
      match ip with EmptyString => None | _ => Some (lit ip, "") end
  end.
Proof.
  intro D. unfold unsigned_real. cbn [append].
  rewrite (all_digits_no_word "nan" "n" "an" eq_refl), (all_digits_no_word "inf" "i" "nf" eq_refl)
    by (codes; lia || exact D).
  destruct (span is_digit (String c (ip ++ r))) as [[|? ?] ?]; reflexivity.
Qed.

Lemma exponent_head ex r : exponent_part ex -> follow r ->
  head_not is_digit (ex ++ r) /\ head_not (fun c => Ascii.eqb c ".") (ex ++ r).
Proof.
  intros [->|(c & sg & ds & Hc & _ & _ & _ & _ & ->)] F.
  - cbn. split; (eapply follow_not; [|exact F]); intros c; unfold sticky;
      [intros ->|intros ->]; cbn; [reflexivity|now rewrite orb_true_r].
  - destruct Hc as [-> | ->]; cbn; auto.
Qed.

Lemma literal_value_digit c s : is_digit c = true -> literal_value lit (String c s) = lit (String c s).
Proof. apply digits_head. Qed.

Lemma literal_value_dot s : literal_value lit (String "." s) = lit (String "." s).
Proof. reflexivity. Qed.

Lemma numeral_real s r : numeral s -> follow r -> unsigned_real (s ++ r) = Some (literal_value lit s, r).
Proof.
  intros (ip & fp & ex & Di & Df & Ex & H) F.
  destruct (exponent_head ex r Ex F) as [HD HP].
  destruct H as [[N ->]|[N ->]].
  - destruct ip as [|c ip]; [tauto|]. pose proof Di as Dc. cbn in Dc. apply andb_prop in Dc as [Dc _].
    rewrite string_app_assoc, unsigned_real_ip by exact Dc.
    rewrite span_app by assumption. cbn [append]. rewrite literal_value_digit by exact Dc.
    pose proof (exponent_app ex r Ex F) as EA.
    destruct (ex ++ r) as [|d x] eqn:E.
    + destruct ex; [|discriminate]. destruct r; [|discriminate]. now rewrite string_app_nil.
    + cbn in HP. rewrite HP, EA. reflexivity.
  - rewrite !string_app_assoc.
    pose proof (exponent_app ex r Ex F) as EA.
    destruct ip as [|c ip].
    + destruct N as [N|N]; [tauto|]. cbn [append].
      unfold unsigned_real. cbn [span is_digit].
      change (is_digit ".") with false. cbv iota.
      change (strip_nocase "nan" (String "." (fp ++ ex ++ r))) with (@None string).
      change (strip_nocase "inf" (String "." (fp ++ ex ++ r))) with (@None string).
      cbv iota. change (Ascii.eqb "." ".") with true. cbv iota.
      rewrite span_app by assumption. destruct fp as [|d fp]; [tauto|]. rewrite EA. reflexivity.
    + pose proof Di as Dc. cbn in Dc. apply andb_prop in Dc as [Dc _].
      rewrite unsigned_real_ip by exact Dc. rewrite span_app; [|exact Di|reflexivity].
      cbn [append]. change (Ascii.eqb "." ".") with true. cbv iota.
      rewrite span_app by assumption. rewrite EA, literal_value_digit by exact Dc. reflexivity.
Qed.

Lemma any_case_head w s (r : string) : w <> "" -> any_case w s ->
  exists a w' c s', w = String a w' /\ s = String c s' /\ (code c = code a \/ code c = code a - 32).
Proof.
  destruct w as [|a w']; [tauto|]. destruct s as [|c s']; cbn; [tauto|].
  intros _ [H _]. eauto 10.
Qed.

Lemma code_inj x y : code x = code y -> x = y.
Proof.
  intros E. unfold code in E. apply Nat2Z.inj in E.
  now rewrite <- (ascii_nat_embedding x), E, ascii_nat_embedding.
Qed.

Lemma any_case_app w1 w2 s : any_case (w1 ++ w2) s -> exists a b, s = a ++ b /\ any_case w1 a /\ any_case w2 b.
Proof.
  revert s. induction w1 as [|x w1 IH]; intros s H; cbn in H.
  - exists "", s. cbn. auto.
  - destruct s as [|y s]; [tauto|]. destruct H as [H1 H2]. destruct (IH s H2) as (a & b & -> & A & B).
    exists (String y a), b. cbn. auto.
Qed.

Lemma any_case_length w s : any_case w s -> String.length w = String.length s.
Proof.
  revert s. induction w as [|a w IH]; intros [|c s] H; cbn in *; try tauto.
  f_equal. now apply IH.
Qed.

Lemma literal_value_nan c s : code c = 110 \/ code c = 110 - 32 -> literal_value lit (String c s) = S754_nan.
Proof.
  intros [H|H].
  - assert (c = "n"%char) by (now apply code_inj). now subst.
  - assert (c = "N"%char) by (now apply code_inj). now subst.
Qed.

Lemma literal_value_inf c s : code c = 105 \/ code c = 105 - 32 ->
  literal_value lit (String c s) = S754_infinity false.
Proof.
  intros [H|H].
  - assert (c = "i"%char) by (now apply code_inj). now subst.
  - assert (c = "I"%char) by (now apply code_inj). now subst.
Qed.

Lemma letter_not_digit c a : 97 <= code a <= 122 -> code c = code a \/ code c = code a - 32 -> is_digit c = false.
Proof. unfold is_digit. lia. Qed.

Lemma letters_nan : letters "nan". Proof. reflexivity. Qed.
Lemma letters_inf : letters "inf". Proof. reflexivity. Qed.
Lemma letters_inity : letters "inity". Proof. reflexivity. Qed.

Lemma nan_tail_close u r : all_chars (fun c => negb (Ascii.eqb c ")")) u = true ->
  nan_tail (String "(" (u ++ ")") ++ r) = Some r.
Proof.
  intro H. cbn [append nan_tail]. change (Ascii.eqb "(" "(") with true. cbv iota.
  rewrite string_app_assoc. cbn [append].
  rewrite (span_app _ u (String ")" r) H) by reflexivity. reflexivity.
Qed.

Lemma nan_tail_follow r : follow r -> nan_tail r = Some r.
Proof.
  destruct r as [|c r]; [reflexivity|]. cbn. unfold sticky. intro F. apply orb_false_elim in F as [_ F].
  now rewrite F.
Qed.

Lemma literal_real s r : literal s -> follow r -> unsigned_real (s ++ r) = Some (literal_value lit s, r).
Proof.
  intros [H|[H|[H|H]]] F.
  - now apply numeral_real.
  - destruct H as (n & t & -> & A & T). rewrite string_app_assoc.
    pose proof (strip_nocase_app "nan" letters_nan n (t ++ r) A) as E.
    destruct (any_case_head "nan" n "" ltac:(discriminate) A) as (a & w' & c & s' & W & -> & C).
    injection W as <- <-. cbn [append] in *. rewrite literal_value_nan by exact C.
    unfold unsigned_real. cbn [span]. rewrite (letter_not_digit c "n") by (codes; lia || exact C).
    rewrite E. destruct T as [->|(u & -> & U)].
    + cbn [append]. now rewrite nan_tail_follow.
    + now rewrite nan_tail_close.
  - pose proof (strip_nocase_app "inf" letters_inf s r H) as E.
    destruct (any_case_head "inf" s "" ltac:(discriminate) H) as (a & w' & c & s' & W & -> & C).
    injection W as <- <-. cbn [append] in *. rewrite literal_value_inf by exact C.
    unfold unsigned_real. cbn [span]. rewrite (letter_not_digit c "i") by (codes; lia || exact C).
    rewrite (not_word_head "nan" "n" c "an" eq_refl) by (codes; lia).
    rewrite E. destruct (strip_nocase "inity" r) as [r'|] eqn:E2; [|reflexivity].
    destruct (strip_nocase_spec "inity" letters_inity _ _ E2) as (t & A & ->).
    destruct (any_case_head "inity" t "" ltac:(discriminate) A) as (a & w' & d & s2 & W & -> & D).
    injection W as <- <-. cbn in F. exfalso.
    assert (Hd : d = "i"%char \/ d = "I"%char)
      by (destruct D as [D|D]; [left|right]; now apply code_inj).
    destruct Hd as [-> | ->]; discriminate.
  - destruct (any_case_app "inf" "inity" s H) as (s1 & s2 & -> & A1 & A2). rewrite string_app_assoc.
    pose proof (strip_nocase_app "inf" letters_inf s1 (s2 ++ r) A1) as E.
    destruct (any_case_head "inf" s1 "" ltac:(discriminate) A1) as (a & w' & c & s' & W & -> & C).
    injection W as <- <-. cbn [append] in *. rewrite literal_value_inf by exact C.
    unfold unsigned_real. cbn [span]. rewrite (letter_not_digit c "i") by (codes; lia || exact C).
    rewrite (not_word_head "nan" "n" c "an" eq_refl) by (codes; lia).
    rewrite E, (strip_nocase_app "inity" letters_inity s2 r A2). reflexivity.
Qed.

(** The first character of a literal. *)
Lemma literal_head s : literal s -> exists c s', s = String c s' /\ starts_literal c = true.
Proof.
  assert (W : forall w a w' s, w = String a w' -> (a = "n"%char \/ a = "i"%char) -> any_case w s ->
            exists c s', s = String c s' /\ starts_literal c = true).
  { intros w a w' t -> A C. destruct t as [|c t]; cbn in C; [tauto|].
    exists c, t. split; [reflexivity|]. destruct C as [C _].
    destruct A as [-> | ->]; destruct C as [C|C]; cbn in C.
    - now rewrite (code_inj c "n" C).
    - now rewrite (code_inj c "N" C).
    - now rewrite (code_inj c "i" C).
    - now rewrite (code_inj c "I" C). }
  intros [H|[H|[H|H]]].
  - destruct H as (ip & fp & ex & Di & Df & Ex & [[N ->]|[N ->]]).
    + destruct ip as [|c ip]; [tauto|]. cbn in Di. apply andb_prop in Di as [D _].
      exists c. eexists. split; [reflexivity|]. unfold starts_literal. now rewrite D.
    + destruct ip as [|c ip].
      * exists "."%char. eexists. split; reflexivity.
      * cbn in Di. apply andb_prop in Di as [D _].
        exists c. eexists. split; [reflexivity|]. unfold starts_literal. now rewrite D.
  - destruct H as (n & t & -> & A & _).
    destruct (W "nan" "n"%char "an" n eq_refl (or_introl eq_refl) A) as (c & s' & -> & C).
    exists c. eexists. split; [reflexivity|exact C].
  - exact (W "inf" "i"%char "nf" s eq_refl (or_intror eq_refl) H).
  - exact (W "infinity" "i"%char "nfinity" s eq_refl (or_intror eq_refl) H).
Qed.

(** What [real] accepts is a literal, with an optional sign directly before it. *)
Lemma unsigned_real_spec s v r : unsigned_real s = Some (v, r) ->
  exists t, s = t ++ r /\ literal t /\ literal_value lit t = v.
Proof.
  unfold unsigned_real.
  pose proof (span_spec is_digit s) as (Sp & D & _).
  destruct (span is_digit s) as [ip s2] eqn:Es. cbn [fst snd] in *.
  assert (Num : forall (fp ex : string), digits fp -> exponent_part ex -> ip <> "" \/ fp <> "" ->
            literal (ip ++ "." ++ fp ++ ex) /\
            literal_value lit (ip ++ "." ++ fp ++ ex) = lit (ip ++ "." ++ fp ++ ex)).
  { intros fp ex Df Ex N. split.
    - left. exists ip, fp, ex. repeat split; auto.
    - destruct ip as [|c ip]; [reflexivity|]. cbn in D. apply andb_prop in D as [D1 _].
      cbn [append]. now apply literal_value_digit. }
  assert (Int : forall ex, exponent_part ex -> ip <> "" ->
            literal (ip ++ ex) /\ literal_value lit (ip ++ ex) = lit (ip ++ ex)).
  { intros ex Ex N. split.
    - left. exists ip, "", ex. repeat split; auto.
    - destruct ip as [|c ip]; [tauto|]. cbn in D. apply andb_prop in D as [D1 _].
      cbn [append]. now apply literal_value_digit. }
  assert (Dot : forall c r0, s2 = String c r0 -> Ascii.eqb c "." = true ->
    (let '(fp, s3) := span is_digit r0 in
     match ip, fp with
     | EmptyString, EmptyString => None
     | _, _ => let '(ex, s4) := exponent s3 in Some (lit (ip ++ "." ++ fp ++ ex), s4)
     end) = Some (v, r) -> exists t, s = t ++ r /\ literal t /\ literal_value lit t = v).
  { intros c r0 -> C. apply Ascii.eqb_eq in C. subst c.
    pose proof (span_spec is_digit r0) as (Sp0 & D0 & _).
    destruct (span is_digit r0) as [fp s3]. cbn [fst snd] in *. intro H.
    destruct (exponent s3) as [ex s4] eqn:Ee. destruct (exponent_spec _ _ _ Ee) as [Ex ->].
    assert (N : ip <> "" \/ fp <> "").
    { destruct ip, fp; try discriminate; [right|left|left]; discriminate. }
    assert (E : Some (lit (ip ++ "." ++ fp ++ ex), s4) = Some (v, r))
      by (destruct ip, fp; try exact H; discriminate).
    inv E. destruct (Num fp ex D0 Ex N) as [L V].
    eexists. split; [|split; [exact L|exact V]]. subst; now rewrite !string_app_assoc. }
  assert (NoDot : ip <> "" -> (let '(ex, s4) := exponent s2 in Some (lit (ip ++ ex), s4)) = Some (v, r) ->
                  exists t, s = t ++ r /\ literal t /\ literal_value lit t = v).
  { intros N H. destruct (exponent s2) as [ex s4] eqn:Ee. destruct (exponent_spec _ _ _ Ee) as [Ex ->].
    inv H. destruct (Int ex Ex N) as [L V]. eexists. split; [|split; [exact L|exact V]].
    now rewrite !string_app_assoc. }
  destruct ip as [|c ip].
  - destruct (strip_nocase "nan" s) as [r0|] eqn:E1.
    + destruct (strip_nocase_spec "nan" letters_nan _ _ E1) as (n & A & ->).
      destruct (nan_tail r0) as [r'|] eqn:T; [|discriminate]. intro H. inv H.
      assert (exists t, r0 = t ++ r /\ (t = "" \/ exists u, t = String "(" (u ++ ")") /\
                 all_chars (fun c => negb (Ascii.eqb c ")")) u = true)) as (t & -> & Ht).
      { unfold nan_tail in T. destruct r0 as [|c r0]; [inv T; exists ""; auto|].
        destruct (Ascii.eqb c "(") eqn:C; [|inv T; exists ""; auto].
        apply Ascii.eqb_eq in C. subst c.
        pose proof (span_spec (fun d => negb (Ascii.eqb d ")")) r0) as (Sp0 & D0 & X0).
        destruct (span _ r0) as [u [|d x]]; cbn [fst snd] in *; [discriminate|]. inv T.
        apply negb_false_iff, Ascii.eqb_eq in X0. subst d.
        exists (String "(" (u ++ ")")). split; [|right; eauto]. cbn. now rewrite string_app_assoc. }
      exists (n ++ t). split; [now rewrite string_app_assoc|]. split.
      * right. left. exists n, t. auto.
      * destruct n as [|c n]; cbn in A; [tauto|]. destruct A as [A _]. cbn [append].
        now apply literal_value_nan.
    + destruct (strip_nocase "inf" s) as [r0|] eqn:E2.
      * destruct (strip_nocase_spec "inf" letters_inf _ _ E2) as (n & A & ->).
        intro H. destruct (strip_nocase "inity" r0) as [r'|] eqn:E3; injection H as <- <-.
        -- destruct (strip_nocase_spec "inity" letters_inity _ _ E3) as (n2 & A2 & ->).
           exists (n ++ n2). split; [now rewrite string_app_assoc|]. split.
           ++ right. right. right.
              destruct n as [|c1 [|c2 [|c3 [|c4 n]]]]; cbn in A; try tauto.
              cbn. cbn in A2. tauto.
           ++ destruct n as [|c n]; cbn in A; [tauto|]. destruct A as [A _]. cbn [append].
              now apply literal_value_inf.
        -- exists n. split; [reflexivity|]. split; [right; right; now left|].
           destruct n as [|c n]; cbn in A; [tauto|]. destruct A as [A _]. now apply literal_value_inf.
      * destruct s2 as [|c r0]; [discriminate|]. destruct (Ascii.eqb c ".") eqn:C; [|discriminate].
        now apply (Dot c r0).
  - intro H.
    assert (H' : match s2 with
      | String c0 r =>
          if Ascii.eqb c0 "." then
            let '(fp, s3) := span is_digit r in
            let '(ex, s4) := exponent s3 in Some (lit (String c ip ++ "." ++ fp ++ ex), s4)
          else let '(ex, s4) := exponent s2 in Some (lit (String c ip ++ ex), s4)
      | EmptyString => Some (lit (String c ip), "")
      end = Some (v, r)) by exact H.
    clear H. destruct s2 as [|d r0].
    + inv H'. exists (String c ip). split; [reflexivity|].
      destruct (Int "" (or_introl eq_refl) ltac:(discriminate)) as [L V].
      rewrite string_app_nil in *. auto.
    + destruct (Ascii.eqb d ".") eqn:C; [now apply (Dot d r0)|]. apply NoDot; [discriminate|exact H'].
Qed.

(** ** Functions *)

Lemma d_to_u32_range x n : d_to_u32 x = Ok n -> 0 <= n < 2 ^ 32.
Proof.
  unfold d_to_u32. destruct (d_trunc x) as [z|]; [|discriminate].
  destruct ((0 <=? z) && (z <? 4294967296)) eqn:E; [|discriminate]. intro H. inv H. lia.
Qed.

Lemma d_to_u64_range x n : d_to_u64 x = Ok n -> 0 <= n < 2 ^ 64.
Proof.
  unfold d_to_u64. destruct (d_trunc x) as [z|]; [|discriminate].
  destruct ((0 <=? z) && (z <? 18446744073709551616)) eqn:E; [|discriminate]. intro H. inv H. lia.
Qed.

Lemma half_turn_pi : half_turn = d_pi.
Proof. vm_compute. reflexivity. Qed.

(** The names in the text and the functions behind them agree. *)
Lemma functions_call k name x : In (k, name) function_names ->
  exists f, assoc k (functions libm) = Some f /\ call libm name x = f x.
Proof.
  unfold function_names. intro H. cbn [In] in H.
  repeat (destruct H as [H|H];
    [injection H as <- <-; eexists; (split; [reflexivity|]);
     try (unfold angle; rewrite half_turn_pi); try reflexivity|]); [| |tauto].
  - change (call libm "bcd" x) with
      (do n <- d_to_u64 x; match bcd_to_ui32 n with Some i => Ok (d_of_Z i) | None => Exc (EUB "fuel") end).
    cbv beta. destruct (d_to_u64 x) as [n|e] eqn:E; [|reflexivity]. cbn [bind].
    rewrite bcd_to_ui32_reread by (eapply d_to_u64_range; eassumption). reflexivity.
  - change (call libm "bin" x) with
      (do n <- d_to_u32 x; match uint32_to_bcd n with Some i => Ok (d_of_Z i) | None => Exc (EUB "fuel") end).
    cbv beta. destruct (d_to_u32 x) as [n|e] eqn:E; [|reflexivity]. cbn [bind].
    rewrite uint32_to_bcd_reread by (eapply d_to_u32_range; eassumption). reflexivity.
Qed.

Lemma functions_names k : In k (map fst (functions libm)) <-> In k (map fst function_names).
Proof. cbn. tauto. Qed.

Definition no_name (c : ascii) : bool := is_blank c || is_open c.

Lemma longest_skip {A} k (a : A) l s : strip k s = None -> longest ((k, a) :: l) s = longest l s.
Proof. intro H. cbn [longest]. now rewrite H. Qed.

Lemma longest_only {A} k (a : A) l s r : strip k s = Some r -> longest l s = None ->
  longest ((k, a) :: l) s = Some (k, a, r).
Proof. intros H1 H2. cbn [longest]. now rewrite H1, H2. Qed.

Lemma longest_take {A} k (a : A) l s r k' a' r' : strip k s = Some r -> longest l s = Some (k', a', r') ->
  (String.length k <? String.length k')%nat = false -> longest ((k, a) :: l) s = Some (k, a, r).
Proof. intros H1 H2 H3. cbn [longest]. now rewrite H1, H2, H3. Qed.

Lemma longest_later {A} k (a : A) l s r k' a' r' : strip k s = Some r -> longest l s = Some (k', a', r') ->
  (String.length k <? String.length k')%nat = true -> longest ((k, a) :: l) s = Some (k', a', r').
Proof. intros H1 H2 H3. cbn [longest]. now rewrite H1, H2, H3. Qed.

Lemma longest_name k r : In k (map fst function_names) ->
  match r with String c _ => no_name c = true | EmptyString => True end ->
  exists name, In (k, name) function_names /\ longest function_names (k ++ r) = Some (k, name, r).
Proof.
  intros H R.
  assert (S1 : strip "H" r = None).
  { destruct r as [|c r]; [reflexivity|]. cbn [strip]. destruct (Ascii.eqb_spec "H" c); [subst; discriminate|reflexivity]. }
  assert (S2 : strip "10" r = None).
  { destruct r as [|c r]; [reflexivity|]. cbn [strip]. destruct (Ascii.eqb_spec "1" c); [subst; discriminate|reflexivity]. }
  assert (S0 : forall x, strip "" x = Some x) by (intros []; reflexivity).
  assert (N : forall {A} (x : string), longest (@nil (string * A)) x = None) by reflexivity.
  cbn [function_names map fst In] in H.
  repeat (destruct H as [H|H]; [subst k|]); try tauto.
  all: eexists; split; [cbn [function_names In]; eauto 30|]; unfold function_names.
  all: repeat (etransitivity; [eapply longest_skip; first [reflexivity | exact S1 | exact S2]|]).
  all: try (eapply longest_only; [exact (S0 _)|];
            repeat (etransitivity; [eapply longest_skip; first [reflexivity | exact S1 | exact S2]|]); reflexivity).
  - eapply longest_later; [exact (S0 _)| |reflexivity].
    eapply longest_only; [exact (S0 _)|].
    repeat (etransitivity; [eapply longest_skip; reflexivity|]). reflexivity.
  - eapply longest_take; [exact (S0 _)| |].
    + eapply longest_only; [exact (S0 _)|].
      repeat (etransitivity; [eapply longest_skip; reflexivity|]). reflexivity.
    + reflexivity.
  - eapply longest_later; [exact (S0 _)| |reflexivity].
    eapply longest_only; [exact (S0 _)|].
    repeat (etransitivity; [eapply longest_skip; reflexivity|]). reflexivity.
  - eapply longest_later; [exact (S0 _)| |reflexivity].
    eapply longest_only; [exact (S0 _)|].
    repeat (etransitivity; [eapply longest_skip; reflexivity|]). reflexivity.
Qed.

Lemma longest_spec {A} (l : list (string * A)) s k a r : longest l s = Some (k, a, r) ->
  In (k, a) l /\ s = k ++ r.
Proof.
  induction l as [|[k0 a0] l IH]; cbn [longest]; [discriminate|].
  destruct (strip k0 s) as [r0|] eqn:E.
  - destruct (longest l s) as [[[k' a'] r']|].
    + destruct (String.length k0 <? String.length k')%nat; intro H; inv H.
      * destruct (IH eq_refl) as [I1 I2]. split; [now right|exact I2].
      * split; [now left|]. now apply strip_spec.
    + intro H. inv H. split; [now left|]. now apply strip_spec.
  - intro H. destruct (IH H) as [I1 I2]. split; [now right|exact I2].
Qed.

(** ** Operators *)

Lemma operator_stops ops s : (forall c x, skip s = String c x ->
    forallb (fun o => match o with String a _ => negb (Ascii.eqb a c) | EmptyString => false end) ops = true) ->
  (forall o, In o ops -> o <> "") -> operator ops s = None.
Proof.
  induction ops as [|o ops IH]; intros H N; [reflexivity|]. cbn [operator].
  destruct o as [|a o]; [destruct (N "" (or_introl eq_refl) eq_refl)|].
  destruct (skip s) as [|c x] eqn:E.
  - cbn [strip]. apply IH; [discriminate|]. intros o' Ho. apply N. now right.
  - specialize (H c x eq_refl). cbn [forallb] in H. apply andb_prop in H as [H1 H2].
    cbn [strip]. apply negb_true_iff in H1. rewrite H1.
    apply IH; [|intros o' Ho; apply N; now right]. intros c' x' E'. inv E'. exact H2.
Qed.

(** Text at which a product, or a whole expression, ends. *)
Definition ends_term (s : string) : Prop := operator mul_ops s = None.
Definition ends (s : string) : Prop := operator mul_ops s = None /\ operator add_ops s = None.

Lemma add_ops_text op : low op = true -> In (op_text op) add_ops.
Proof. destruct op; cbn; intro; try discriminate; auto 10. Qed.

Lemma op_head op : exists c s, op_text op = String c s /\ sticky c = false /\ is_blank c = false.
Proof. destruct op; cbn; eexists; eexists; (split; [reflexivity|]); split; reflexivity. Qed.

Lemma skip_op b op t : blanks b -> skip (b ++ op_text op ++ t) = op_text op ++ t.
Proof.
  intro B. rewrite skip_app by exact B. apply skip_head.
  destruct (op_head op) as (c & s & -> & _ & H). exact H.
Qed.

Lemma follow_blanks b c s : blanks b -> sticky c = false -> follow (b ++ String c s).
Proof.
  destruct b as [|d b]; [now intros|]. cbn. intros B _. apply andb_prop in B as [B _].
  unfold is_blank in B. apply orb_prop in B.
  assert (d = " "%char \/ d = "009"%char) as [-> | ->]
    by (destruct B as [B|B]; apply Z.eqb_eq in B; [left|right]; apply code_inj; exact B); reflexivity.
Qed.

Lemma follow_op b op t : blanks b -> follow (b ++ op_text op ++ t).
Proof.
  intro B. destruct (op_head op) as (c & s & -> & H & _). cbn [append]. now apply follow_blanks.
Qed.

Lemma operator_mul b op t : blanks b -> low op = false ->
  operator mul_ops (b ++ op_text op ++ t) = Some (op_text op, t).
Proof.
  intros B L. assert (S0 : forall x, strip "" x = Some x) by (intros []; reflexivity).
  unfold mul_ops. cbn [operator]. rewrite (skip_op b op t B).
  destruct op; try discriminate; cbn; rewrite ?S0; try reflexivity; now destruct t.
Qed.

Lemma operator_add b op t : blanks b -> low op = true ->
  operator add_ops (b ++ op_text op ++ t) = Some (op_text op, t).
Proof.
  intros B L. unfold add_ops. cbn [operator]. rewrite (skip_op b op t B).
  destruct op; try discriminate; cbn; now destruct t.
Qed.

Lemma low_ends_term b op t : blanks b -> low op = true -> ends_term (b ++ op_text op ++ t).
Proof.
  intros B L. unfold ends_term, mul_ops. cbn [operator]. rewrite (skip_op b op t B).
  destruct op; try discriminate; reflexivity.
Qed.

Lemma close_ends b c s : blanks b -> closing c -> ends (b ++ String c s) /\ follow (b ++ String c s).
Proof.
  intros B C. split.
  - unfold ends, mul_ops, add_ops. cbn [operator]. rewrite skip_app by exact B.
    rewrite skip_head by (destruct C as [-> | ->]; reflexivity).
    destruct C as [-> | ->]; split; reflexivity.
  - apply follow_blanks; [exact B|]. destruct C as [-> | ->]; reflexivity.
Qed.

(** ** Evaluation of an operand followed by operations *)

Fixpoint eval_ops (mv : macro_map dbl) (v : dbl) (l : list (string * operand)) : res dbl :=
  match l with
  | [] => Ok v
  | (op, o2) :: l' => do r <- eval libm mv o2; do v' <- binary op v r; eval_ops mv v' l'
  end.

Lemma eval_prog mv o l : eval libm mv (OProg o l) = do v <- eval libm mv o; eval_ops mv v l.
Proof.
  cbn [eval]. destruct (eval libm mv o) as [v|e]; [|reflexivity]. cbn [bind].
  revert v. induction l as [|[op o2] l IH]; intro v; [reflexivity|]. cbn [eval_ops].
  destruct (eval libm mv o2) as [r|e]; [|reflexivity]. cbn [bind].
  destruct (binary op v r) as [v'|e]; [|reflexivity]. cbn [bind]. apply IH.
Qed.

Lemma eval_ops_snoc mv op o2 l : forall v,
  eval_ops mv v (l ++ [(op, o2)])%list =
  do v' <- eval_ops mv v l; do r <- eval libm mv o2; binary op v' r.
Proof.
  induction l as [|[op1 o1] l IH]; intro v.
  - cbn [app eval_ops bind]. destruct (eval libm mv o2) as [r|e]; [|reflexivity]. cbn [bind].
    now destruct (binary op v r).
  - cbn [app eval_ops]. destruct (eval libm mv o1) as [r|e]; [|reflexivity]. cbn [bind].
    destruct (binary op1 v r) as [v'|e]; [|reflexivity]. cbn [bind]. apply IH.
Qed.

Lemma binary_op op x y : binary (op_text op) x y = bin_value op x y.
Proof. destruct op; reflexivity. Qed.

Lemma eval_snoc mv o acc op o2 e e2 :
  eval libm mv (OProg o (rev acc)) = value lit libm mv e -> eval libm mv o2 = value lit libm mv e2 ->
  eval libm mv (OProg o (rev ((op_text op, o2) :: acc))) = value lit libm mv (Bin op e e2).
Proof.
  intros H1 H2. cbn [rev value]. rewrite eval_prog in *. rewrite <- H1, <- H2.
  destruct (eval libm mv o) as [v|x]; [|reflexivity]. cbn [bind]. rewrite eval_ops_snoc.
  destruct (eval_ops mv v (rev acc)) as [v'|x]; [|reflexivity]. cbn [bind].
  destruct (eval libm mv o2) as [r|x]; [|reflexivity]. cbn [bind]. apply binary_op.
Qed.

(** ** Spelled text is parsed as meant *)

Lemma len_app a b : String.length (a ++ b) = (String.length a + String.length b)%nat.
Proof. apply string_app_length. Qed.

Lemma real_other c r : starts_literal c = false -> Ascii.eqb c "-" = false -> Ascii.eqb c "+" = false ->
  real lit (String c r) = None.
Proof. intros H1 H2 H3. rewrite real_unsigned, H2, H3. now apply unsigned_real_none. Qed.

Lemma real_literal s r : literal s -> follow r -> real lit (s ++ r) = Some (literal_value lit s, r).
Proof.
  intros L F. destruct (literal_head s L) as (c & s' & -> & H).
  cbn [append]. rewrite real_unsigned.
  destruct (Ascii.eqb_spec c "-"); [subst; discriminate|].
  destruct (Ascii.eqb_spec c "+"); [subst; discriminate|].
  now apply (literal_real (String c s') r).
Qed.

Lemma blank_not_literal c : is_blank c = true -> starts_literal c = false.
Proof.
  unfold is_blank. intro B. apply orb_prop in B.
  assert (c = " "%char \/ c = "009"%char) as [-> | ->]
    by (destruct B as [B|B]; apply Z.eqb_eq in B; [left|right]; apply code_inj; exact B); reflexivity.
Qed.

Lemma unsigned_blanks b s : blanks b -> b <> "" -> unsigned_real (b ++ s) = None.
Proof.
  destruct b as [|c b]; [tauto|]. intros B _. cbn in B. apply andb_prop in B as [B _].
  cbn [append]. apply unsigned_real_none. now apply blank_not_literal.
Qed.

Lemma name_head k : In k (map fst function_names) ->
  exists c s, k = String c s /\ starts_literal c = false /\ is_open c = false /\ is_blank c = false /\
    Ascii.eqb c "-" = false /\ Ascii.eqb c "+" = false /\ Ascii.eqb c "#" = false.
Proof.
  cbn [function_names map fst In]. intro H.
  repeat (destruct H as [H|H]; [subst k; eexists; eexists; split; [reflexivity|repeat split]|]); tauto.
Qed.

(** A factor either is a literal, or [qi::double_] cannot start on it. *)
Lemma factor_head e t r : spells libm LFactor e t ->
  (exists s, t = s /\ literal s /\ e = Lit s) \/ unsigned_real (t ++ r) = None.
Proof.
  intro H. inversion H; subst; clear H; rewrite ?string_app_assoc;
    (match goal with B : blanks ?b |- context [(?b ++ _)%string] => destruct b as [|d b'] end;
     [cbn [append]|right; now apply unsigned_blanks]).
  - left. eauto.
  - right. now apply unsigned_real_none.
  - right. now apply unsigned_real_none.
  - right. now apply unsigned_real_none.
  - right. match goal with K : In k _ |- _ => apply functions_names in K;
      destruct (name_head k K) as (c0 & s0 & -> & Hc & _) end.
    cbn [append]. now apply unsigned_real_none.
  - right. match goal with O : opening o |- _ => destruct O as [-> | ->] end; now apply unsigned_real_none.
Qed.

Definition parsed (f : nat) (parse : nat -> string -> pr operand) (t r : string) (e : expr) : Prop :=
  exists o, parse f (t ++ r) = POk o r /\ forall mv, eval libm mv o = value lit libm mv e.

Definition complete_at (l : level) (e : expr) (t : string) : Prop :=
  forall r f, follow r ->
  match l with
  | LFactor => (3 * String.length (t ++ r) + 1 <= f)%nat ->
      exists o, factor lit f (t ++ r) = POk o r /\ forall mv, eval libm mv o = value lit libm mv e
  | LTerm => (3 * String.length (t ++ r) + 2 <= f)%nat ->
      exists f' o acc, (3 * String.length r + 1 <= f')%nat /\
        term lit f (t ++ r) = term_rest lit f' o acc r /\
        forall mv, eval libm mv (OProg o (rev acc)) = value lit libm mv e
  | LExpr => ends_term r -> (3 * String.length (t ++ r) + 3 <= f)%nat ->
      exists f' o acc, (3 * String.length r + 1 <= f')%nat /\
        expression lit f (t ++ r) = expression_rest lit f' o acc r /\
        forall mv, eval libm mv (OProg o (rev acc)) = value lit libm mv e
  end.

Lemma complete_expr e t : complete_at LExpr e t -> forall r f, follow r -> ends r ->
  (3 * String.length (t ++ r) + 3 <= f)%nat ->
  exists o, expression lit f (t ++ r) = POk o r /\ forall mv, eval libm mv o = value lit libm mv e.
Proof.
  intros C r f F [E1 E2] Hf. destruct (C r f F E1 Hf) as (f' & o & acc & Hf' & -> & V).
  exists (OProg o (rev acc)). split; [|exact V].
  destruct f' as [|f']; [lia|]. cbn [expression_rest]. now rewrite E2.
Qed.

Lemma factor_step f s : factor lit (S f) s =
      match real lit (skip s) with
      | Some (v, r) => POk (ONum v) r
      | None =>
          match skip s with
          | String c r =>
              if is_open c then
                pbind (expected r (expression lit f r)) (fun e r1 =>
                  match skip r1 with
                  | String c2 r2 => if is_close c2 then POk e r2 else PThrow (skip r1)
                  | EmptyString => PThrow ""
                  end)
              else if Ascii.eqb c "-" || Ascii.eqb c "+" || Ascii.eqb c "#" then
                pbind (expected r (factor lit f r)) (fun o r1 => POk (OSigned c o) r1)
              else
                match longest function_names (skip s) with
                | None => PFail
                | Some (_, name, r1) =>
                    match skip r1 with
                    | String c2 r2 =>
                        if is_open c2 then
                          pbind (expected r2 (expression lit f r2)) (fun e r3 =>
                            match skip r3 with
                            | String c4 r4 => if is_close c4 then POk (OFun name e) r4 else PThrow (skip r3)
                            | EmptyString => PThrow ""
                            end)
                        else PThrow (skip r1)
                    | EmptyString => PThrow ""
                    end
                end
          | EmptyString => PFail
          end
      end.
Proof. reflexivity. Qed.

Lemma term_step f s : term lit (S f) s = pbind (factor lit f s) (fun o r => term_rest lit f o [] r).
Proof. reflexivity. Qed.

Lemma term_rest_step f o acc s : term_rest lit (S f) o acc s =
  match operator mul_ops s with
  | None => POk (OProg o (rev acc)) s
  | Some (op, r) => pbind (expected r (factor lit f r)) (fun o2 r1 => term_rest lit f o ((op, o2) :: acc) r1)
  end.
Proof. reflexivity. Qed.

Lemma expression_step f s :
  expression lit (S f) s = pbind (term lit f s) (fun o r => expression_rest lit f o [] r).
Proof. reflexivity. Qed.

Lemma expression_rest_step f o acc s : expression_rest lit (S f) o acc s =
  match operator add_ops s with
  | None => POk (OProg o (rev acc)) s
  | Some (op, r) => pbind (expected r (term lit f r)) (fun o2 r1 => expression_rest lit f o ((op, o2) :: acc) r1)
  end.
Proof. reflexivity. Qed.

Lemma opening_open o : opening o -> is_open o = true /\ is_blank o = false /\ starts_literal o = false /\
  Ascii.eqb o "-" = false /\ Ascii.eqb o "+" = false.
Proof. intros [-> | ->]; repeat split. Qed.

Lemma closing_close c : closing c -> is_close c = true /\ is_blank c = false.
Proof. intros [-> | ->]; repeat split. Qed.

Lemma sign_factor sg e t (g : expr -> expr) : (sg = "-"%char \/ sg = "+"%char \/ sg = "#"%char) ->
  (forall mv o, eval libm mv o = value lit libm mv e ->
     eval libm mv (OSigned sg o) = value lit libm mv (g e)) ->
  (forall s mv, e = Lit s -> sg <> "#"%char ->
     value lit libm mv (g e) = Ok (if Ascii.eqb sg "-" then dopp (literal_value lit s) else literal_value lit s)) ->
  spells libm LFactor e t -> complete_at LFactor e t ->
  forall b, blanks b -> complete_at LFactor (g e) (b ++ String sg t).
Proof.
  intros Hsg Hv Hl Sp C b B r f F Hf. rewrite string_app_assoc in *. cbn [append] in *.
  rewrite len_app in Hf. cbn [String.length] in Hf. destruct f as [|f]; [lia|].
  rewrite factor_step. rewrite skip_app by exact B.
  assert (Sk : skip (String sg (t ++ r)) = String sg (t ++ r))
    by (apply skip_head; destruct Hsg as [->|[-> | ->]]; reflexivity).
  rewrite Sk, real_unsigned.
  assert (Signed : unsigned_real (t ++ r) = None \/ sg = "#"%char ->
    exists o, (pbind (expected (t ++ r) (factor lit f (t ++ r))) (fun o r1 => POk (OSigned sg o) r1)) = POk o r
      /\ forall mv, eval libm mv o = value lit libm mv (g e)).
  { intros _. destruct (C r f F ltac:(cbn; lia)) as (o & E & V). rewrite E. cbn [expected pbind].
    exists (OSigned sg o). split; [reflexivity|]. intro mv. apply Hv, V. }
  assert (Not : is_open sg = false /\ Ascii.eqb sg "-" || Ascii.eqb sg "+" || Ascii.eqb sg "#" = true)
    by (destruct Hsg as [->|[-> | ->]]; split; reflexivity).
  destruct Not as [N1 N2].
  destruct (Ascii.eqb_spec sg "#") as [->|NH].
  - change (Ascii.eqb "#" "-") with false. change (Ascii.eqb "#" "+") with false. cbv iota.
    rewrite (unsigned_real_none "#") by reflexivity. rewrite N1.
    change (Ascii.eqb "#" "-" || Ascii.eqb "#" "+" || Ascii.eqb "#" "#") with true. cbv iota.
    apply Signed. now right.
  - destruct (factor_head e t r Sp) as [(s & -> & L & ->)|U].
    + rewrite (literal_real s r L F). cbn [map_fst].
      destruct Hsg as [->|[-> | ->]]; [| |tauto].
      * change (Ascii.eqb "-" "-") with true. cbv iota. eexists. split; [reflexivity|].
        intro mv. cbn [eval]. rewrite (Hl s mv eq_refl NH). reflexivity.
      * change (Ascii.eqb "+" "-") with false. change (Ascii.eqb "+" "+") with true. cbv iota.
        eexists. split; [reflexivity|].
        intro mv. cbn [eval]. rewrite (Hl s mv eq_refl NH). reflexivity.
    + rewrite U. cbn [map_fst].
      destruct Hsg as [->|[-> | ->]]; [| |tauto].
      * change (Ascii.eqb "-" "-") with true. cbv iota.
        rewrite N1. change (true || Ascii.eqb "-" "+" || Ascii.eqb "-" "#") with true. cbv iota.
        apply Signed. now left.
      * change (Ascii.eqb "+" "-") with false. change (Ascii.eqb "+" "+") with true. cbv iota.
        rewrite N1. change (false || true || Ascii.eqb "+" "#") with true. cbv iota.
        apply Signed. now left.
Qed.

Lemma complete l e t : spells libm l e t -> complete_at l e t.
Proof.
  intro H. induction H as
    [ b s B L
    | b e t B S IH | b e t B S IH | b e t B S IH
    | b k b1 o e t b2 c B K B1 O S IH B2 C
    | b o e t b2 c B O S IH B2 C
    | e t S IH
    | op e1 t1 b e2 t2 L S1 IH1 B S2 IH2
    | e t S IH
    | op e1 t1 b e2 t2 L S1 IH1 B S2 IH2 ].
  - (* literal *)
    intros r f F Hf. destruct f as [|f]; [lia|]. rewrite string_app_assoc, factor_step, skip_app by exact B.
    rewrite skip_head.
    + rewrite real_literal by assumption. eexists. split; reflexivity.
    + destruct (literal_head s L) as (c & s' & -> & Hc). cbn.
      destruct (is_blank c) eqn:Eb; [|reflexivity]. apply blank_not_literal in Eb. congruence.
  - apply (sign_factor "-" e t Neg); auto.
    + intros mv o E. cbn [eval value]. rewrite E. destruct (value lit libm mv e); reflexivity.
    + intros s mv -> _. reflexivity.
  - apply (sign_factor "+" e t Pos); auto.
    + intros mv o E. cbn [eval value]. rewrite E. destruct (value lit libm mv e); reflexivity.
    + intros s mv -> _. reflexivity.
  - apply (sign_factor "#" e t Mac); auto.
    + intros mv o E. cbn [eval value]. rewrite E. destruct (value lit libm mv e); reflexivity.
    + intros s mv -> N. tauto.
  - (* function *)
    intros r f F Hf. destruct f as [|f]; [lia|].
    rewrite !string_app_assoc in *. cbn [append] in *. rewrite !string_app_assoc in *. cbn [append] in *.
    rewrite factor_step, skip_app by exact B.
    apply functions_names in K. pose proof (name_head k K) as (c0 & s0 & Ek & Hl & Ho & Hb & Hm & Hp & Hh).
    destruct (opening_open o O) as (Oo & Ob & _).
    set (rest := b1 ++ String o (t ++ b2 ++ String c r)) in *.
    assert (R : match rest with String c _ => no_name c = true | EmptyString => True end).
    { subst rest. destruct b1 as [|d b1]; cbn [append].
      - unfold no_name. now rewrite Oo, orb_true_r.
      - cbn in B1. apply andb_prop in B1 as [B1 _]. unfold no_name. now rewrite B1. }
    destruct (longest_name k rest K R) as (name & In1 & Lg).
    assert (Sk : skip (k ++ rest) = k ++ rest) by (apply skip_head; rewrite Ek; exact Hb).
    rewrite Sk, Lg. replace (k ++ rest) with (String c0 (s0 ++ rest)) by (rewrite Ek; reflexivity).
    rewrite real_other, Ho, Hm, Hp, Hh by assumption.
    cbn [orb]. subst rest. rewrite skip_app, skip_head by (assumption || exact Ob). rewrite Oo.
    destruct (close_ends b2 c r B2 C) as [E1 E2].
    destruct (complete_expr e t IH (b2 ++ String c r) f E2 E1) as (oe & -> & V).
    { rewrite Ek, !len_app in Hf. cbn [String.length] in Hf. rewrite !len_app in Hf. rewrite !len_app.
      cbn [String.length] in *. rewrite ?len_app in *. cbn [String.length] in *. lia. }
    cbn [expected pbind]. destruct (closing_close c C) as [Cc Cb].
    rewrite skip_app, skip_head by (assumption || exact Cb). rewrite Cc.
    eexists. split; [reflexivity|]. intro mv. cbn [eval value]. rewrite V.
    destruct (value lit libm mv e) as [x|x]; [|reflexivity]. cbn [bind].
    destruct (functions_call k name x In1) as (g & -> & ->). reflexivity.
  - (* bracket *)
    intros r f F Hf. destruct f as [|f]; [lia|].
    rewrite !string_app_assoc in *. cbn [append] in *. rewrite !string_app_assoc in *. cbn [append] in *.
    destruct (opening_open o O) as (Oo & Ob & Ol & Om & Op).
    rewrite factor_step, skip_app by exact B. rewrite skip_head by exact Ob.
    rewrite real_other by assumption. rewrite Oo.
    destruct (close_ends b2 c r B2 C) as [E1 E2].
    destruct (complete_expr e t IH (b2 ++ String c r) f E2 E1) as (oe & -> & V).
    { rewrite !len_app in Hf. cbn [String.length] in Hf. rewrite !len_app in Hf. rewrite !len_app.
      cbn [String.length] in *. lia. }
    cbn [expected pbind]. destruct (closing_close c C) as [Cc Cb].
    rewrite skip_app, skip_head by (assumption || exact Cb). rewrite Cc.
    eexists. split; [reflexivity|exact V].
  - (* factor as term *)
    intros r f F Hf. destruct f as [|f]; [lia|]. rewrite term_step.
    destruct (IH r f F ltac:(cbn; lia)) as (o & -> & V). cbn [pbind].
    exists f, o, []. rewrite len_app in Hf. split; [lia|]. split; [reflexivity|].
    intro mv. cbn [rev]. rewrite eval_prog, V. now destruct (value lit libm mv e).
  - (* product *)
    intros r f F Hf. rewrite !string_app_assoc in *.
    destruct (IH1 (b ++ op_text op ++ t2 ++ r) f (follow_op _ _ _ B) Hf) as (f' & o & acc & Hf' & -> & V).
    destruct f' as [|f']; [lia|]. rewrite term_rest_step. rewrite (operator_mul b op (t2 ++ r) B L).
    assert (Lo : (1 <= String.length (op_text op))%nat) by (destruct op; cbn; lia).
    rewrite !len_app in Hf'.
    destruct (IH2 r f' F) as (o2 & -> & V2). { rewrite len_app. lia. }
    cbn [expected pbind]. exists f', o, ((op_text op, o2) :: acc). split; [lia|]. split; [reflexivity|].
    intro mv. now apply eval_snoc.
  - (* term as expression *)
    intros r f F E Hf. destruct f as [|f]; [lia|]. rewrite expression_step.
    destruct (IH r f F ltac:(cbn; lia)) as (f' & o & acc & Hf' & -> & V).
    destruct f' as [|f']; [lia|]. rewrite term_rest_step. rewrite E. cbn [pbind].
    exists f, (OProg o (rev acc)), []. rewrite len_app in Hf. split; [lia|]. split; [reflexivity|].
    intro mv. cbn [rev]. rewrite (eval_prog mv (OProg o (rev acc)) []), V. now destruct (value lit libm mv e).
  - (* sum *)
    intros r f F E Hf. rewrite !string_app_assoc in *.
    destruct (IH1 (b ++ op_text op ++ t2 ++ r) f (follow_op _ _ _ B) (low_ends_term _ _ _ B L) Hf)
      as (f' & o & acc & Hf' & -> & V).
    destruct f' as [|f']; [lia|]. rewrite expression_rest_step. rewrite (operator_add b op (t2 ++ r) B L).
    assert (Lo : (1 <= String.length (op_text op))%nat) by (destruct op; cbn; lia).
    rewrite !len_app in Hf'.
    destruct (IH2 r f' F) as (f2 & o2 & acc2 & Hf2 & -> & V2). { rewrite len_app. lia. }
    destruct f2 as [|f2]; [lia|]. rewrite term_rest_step. rewrite E. cbn [expected pbind].
    exists f', o, ((op_text op, OProg o2 (rev acc2)) :: acc). split; [lia|]. split; [reflexivity|].
    intro mv. now apply eval_snoc.
Qed.

(** ** What is parsed is spelled *)

Lemma operator_spec ops s o r : operator ops s = Some (o, r) ->
  In o ops /\ exists b, blanks b /\ s = b ++ o ++ r.
Proof.
  induction ops as [|o0 ops IH]; cbn [operator]; [discriminate|].
  destruct (strip o0 (skip s)) as [r0|] eqn:E.
  - intro H. inv H. split; [now left|]. destruct (skip_spec s) as (b & B & Es & _).
    exists b. split; [exact B|]. rewrite Es at 1. now rewrite (strip_spec _ _ _ E).
  - intro H. destruct (IH H) as [I1 I2]. split; [now right|exact I2].
Qed.

Lemma mul_op_text o : In o mul_ops -> exists op, o = op_text op /\ low op = false.
Proof.
  cbn. intros [<-|[<-|[<-|[<-|[]]]]]; [exists Mul|exists Div|exists And|exists Mod]; auto.
Qed.

Lemma add_op_text o : In o add_ops -> exists op, o = op_text op /\ low op = true.
Proof.
  cbn. intros [<-|[<-|[<-|[<-|[]]]]]; [exists Add|exists Sub|exists Or|exists Xor]; auto.
Qed.

Lemma real_spec s v r : real lit s = Some (v, r) ->
  exists t e, s = t ++ r /\ (forall b, blanks b -> spells libm LFactor e (b ++ t)) /\
    forall mv, value lit libm mv e = Ok v.
Proof.
  rewrite real_unsigned. destruct s as [|c s]; [discriminate|].
  destruct (Ascii.eqb_spec c "-") as [->|N1].
  - destruct (unsigned_real s) as [[v' r']|] eqn:E; [|discriminate]. cbn [map_fst]. intro H. inv H.
    destruct (unsigned_real_spec _ _ _ E) as (t & -> & L & <-).
    exists (String "-" t), (Neg (Lit t)). split; [reflexivity|]. split; [|reflexivity].
    intros b B. apply sp_neg; [exact B|]. exact (sp_lit libm "" t eq_refl L).
  - destruct (Ascii.eqb_spec c "+") as [->|N2].
    + intro E. destruct (unsigned_real_spec _ _ _ E) as (t & -> & L & <-).
      exists (String "+" t), (Pos (Lit t)). split; [reflexivity|]. split; [|reflexivity].
      intros b B. apply sp_pos; [exact B|]. exact (sp_lit libm "" t eq_refl L).
    + intro E. destruct (unsigned_real_spec _ _ _ E) as (t & -> & L & <-).
      exists t, (Lit t). split; [reflexivity|]. split; [|reflexivity].
      intros b B. now apply sp_lit.
Qed.

Definition sound (l : level) (s : string) (o : operand) (r : string) : Prop :=
  exists t e, s = t ++ r /\ spells libm l e t /\ forall mv, eval libm mv o = value lit libm mv e.

Lemma expected_ok {A} x (p : pr A) a r : expected x p = POk a r -> p = POk a r.
Proof. destruct p; cbn; congruence. Qed.

Lemma pbind_ok {A B} (p : pr A) (f : A -> string -> pr B) b r : pbind p f = POk b r ->
  exists a s, p = POk a s /\ f a s = POk b r.
Proof. destruct p; cbn; try discriminate. eauto. Qed.

Lemma open_opening c : is_open c = true -> opening c.
Proof. unfold is_open, opening. intro H. apply orb_prop in H as [H|H]; apply Ascii.eqb_eq in H; auto. Qed.

Lemma close_closing c : is_close c = true -> closing c.
Proof. unfold is_close, closing. intro H. apply orb_prop in H as [H|H]; apply Ascii.eqb_eq in H; auto. Qed.

Lemma parser_sound f :
  (forall s o r, factor lit f s = POk o r -> sound LFactor s o r) /\
  (forall s o r, term lit f s = POk o r -> sound LTerm s o r /\ ends_term r) /\
  (forall o0 acc s o r t0 e0, term_rest lit f o0 acc s = POk o r -> spells libm LTerm e0 t0 ->
     (forall mv, eval libm mv (OProg o0 (rev acc)) = value lit libm mv e0) ->
     sound LTerm (t0 ++ s) o r /\ ends_term r) /\
  (forall s o r, expression lit f s = POk o r -> sound LExpr s o r /\ ends r) /\
  (forall o0 acc s o r t0 e0, expression_rest lit f o0 acc s = POk o r -> spells libm LExpr e0 t0 ->
     (forall mv, eval libm mv (OProg o0 (rev acc)) = value lit libm mv e0) -> ends_term s ->
     sound LExpr (t0 ++ s) o r /\ ends r).
Proof.
  induction f as [|f (IHf & IHt & IHtr & IHe & IHer)]; [repeat split; discriminate|].
  split; [|split; [|split; [|split]]].
  - intros s o r. rewrite factor_step. destruct (skip_spec s) as (b & B & Es & Hs).
    generalize dependent (skip s). intros s' Es Hs. destruct (real lit s') as [[v r']|] eqn:Er.
    + intro H. inv H. destruct (real_spec _ _ _ Er) as (t & e & Et & Sp & V).
      exists (b ++ t), e. subst. rewrite string_app_assoc. split; [reflexivity|]. split; [now apply Sp|].
      intro mv. now rewrite V.
    + destruct s' as [|c x]; [discriminate|].
      destruct (is_open c) eqn:Oc.
      * intro H. apply pbind_ok in H as (oe & r1 & H1 & H2). apply expected_ok in H1.
        destruct (IHe _ _ _ H1) as [(t & e & -> & Sp & V) _].
        destruct (skip_spec r1) as (b2 & B2 & Er1 & _). destruct (skip r1) as [|c2 r2]; [discriminate|].
        destruct (is_close c2) eqn:Cc; [|discriminate]. inv H2.
        exists (b ++ String c (t ++ b2 ++ String c2 "")), e.
        subst. split.
        { rewrite !string_app_assoc. cbn [append]. rewrite !string_app_assoc. reflexivity. }
        split; [|exact V]. apply sp_bracket; auto using open_opening, close_closing.
      * destruct (Ascii.eqb c "-" || Ascii.eqb c "+" || Ascii.eqb c "#") eqn:Sg.
        -- intro H. apply pbind_ok in H as (o1 & r1 & H1 & H2). apply expected_ok in H1. inv H2.
           destruct (IHf _ _ _ H1) as (t & e & -> & Sp & V).
           assert (X : exists g, spells libm LFactor (g e) (b ++ String c t) /\
                    forall mv, eval libm mv (OSigned c o1) = value lit libm mv (g e)).
           { apply orb_prop in Sg as [Sg|Sg]; [apply orb_prop in Sg as [Sg|Sg]|];
               apply Ascii.eqb_eq in Sg; subst c; [exists Neg|exists Pos|exists Mac];
               (split; [now constructor|]); intro mv; cbn [eval value]; rewrite V;
               destruct (value lit libm mv e); reflexivity. }
           destruct X as (g & G1 & G2). exists (b ++ String c t), (g e).
           subst. rewrite string_app_assoc. auto.
        -- destruct (longest function_names (String c x)) as [[[k name] r1]|] eqn:Lg; [|discriminate].
           destruct (longest_spec _ _ _ _ _ Lg) as [Kn Ek].
           destruct (skip_spec r1) as (b1 & B1 & Er1 & _). destruct (skip r1) as [|c2 r2]; [discriminate|].
           destruct (is_open c2) eqn:Oc2; [|discriminate].
           intro H. apply pbind_ok in H as (oe & r3 & H1 & H2). apply expected_ok in H1.
           destruct (IHe _ _ _ H1) as [(t & e & -> & Sp & V) _].
           destruct (skip_spec r3) as (b3 & B3 & Er3 & _). destruct (skip r3) as [|c4 r4]; [discriminate|].
           destruct (is_close c4) eqn:Cc; [|discriminate]. inv H2.
           exists (b ++ k ++ b1 ++ String c2 (t ++ b3 ++ String c4 "")), (Fn k e).
           subst. rewrite Ek. split.
           { rewrite !string_app_assoc. cbn [append]. rewrite !string_app_assoc. reflexivity. }
           split.
           ++ apply sp_fn; auto using open_opening, close_closing.
              apply functions_names. apply in_map_iff. exists (k, name). auto.
           ++ intro mv. cbn [eval value]. rewrite V. destruct (value lit libm mv e) as [y|y]; [|reflexivity].
              cbn [bind]. destruct (functions_call k name y Kn) as (g & -> & ->). reflexivity.
  - intros s o r. rewrite term_step. intro H. apply pbind_ok in H as (o1 & r1 & H1 & H2).
    destruct (IHf _ _ _ H1) as (t & e & -> & Sp & V).
    apply (IHtr _ _ _ _ _ t e H2).
    + now apply sp_factor.
    + intro mv. cbn [rev]. rewrite eval_prog, V. now destruct (value lit libm mv e).
  - intros o0 acc s o r t0 e0. rewrite term_rest_step.
    destruct (operator mul_ops s) as [[op r1]|] eqn:Eo.
    + intros H Sp V. apply pbind_ok in H as (o2 & r2 & H1 & H2). apply expected_ok in H1.
      destruct (operator_spec _ _ _ _ Eo) as (I & b & B & ->).
      destruct (mul_op_text op I) as (bop & -> & L).
      destruct (IHf _ _ _ H1) as (t2 & e2 & -> & Sp2 & V2).
      destruct (IHtr _ _ _ _ _ (t0 ++ b ++ op_text bop ++ t2) (Bin bop e0 e2) H2) as [X Y].
      * now apply sp_mul.
      * intro mv. now apply eval_snoc.
      * split; [|exact Y]. rewrite !string_app_assoc in X. exact X.
    + intros H Sp V. inv H. split; [|exact Eo]. exists t0, e0. auto.
  - intros s o r. rewrite expression_step. intro H. apply pbind_ok in H as (o1 & r1 & H1 & H2).
    destruct (IHt _ _ _ H1) as [(t & e & -> & Sp & V) En].
    apply (IHer _ _ _ _ _ t e H2).
    + now apply sp_term.
    + intro mv. cbn [rev]. rewrite eval_prog, V. now destruct (value lit libm mv e).
    + exact En.
  - intros o0 acc s o r t0 e0. rewrite expression_rest_step.
    destruct (operator add_ops s) as [[op r1]|] eqn:Eo.
    + intros H Sp V _. apply pbind_ok in H as (o2 & r2 & H1 & H2). apply expected_ok in H1.
      destruct (operator_spec _ _ _ _ Eo) as (I & b & B & ->).
      destruct (add_op_text op I) as (bop & -> & L).
      destruct (IHt _ _ _ H1) as [(t2 & e2 & -> & Sp2 & V2) En].
      destruct (IHer _ _ _ _ _ (t0 ++ b ++ op_text bop ++ t2) (Bin bop e0 e2) H2) as [X Y].
      * now apply sp_add.
      * intro mv. now apply eval_snoc.
      * exact En.
      * split; [|exact Y]. rewrite !string_app_assoc in X. exact X.
    + intros H Sp V En. inv H. split; [|split; [exact En|exact Eo]]. exists t0, e0. auto.
Qed.

Lemma spells_nonempty l e t : spells libm l e t -> (1 <= String.length t)%nat.
Proof.
  intro H. induction H; rewrite ?len_app; cbn [String.length]; try lia.
  match goal with L : literal ?x |- _ => destruct (literal_head x L) as (c0 & s0 & -> & _) end.
  cbn [String.length]. lia.
Qed.

Lemma sound_shorter l s o r : sound l s o r -> (String.length r < String.length s)%nat.
Proof.
  intros (t & e & -> & Sp & _). apply spells_nonempty in Sp. rewrite len_app. lia.
Qed.

Lemma operator_shorter ops s o r : (forall x, In x ops -> x <> "") -> operator ops s = Some (o, r) ->
  (String.length r < String.length s)%nat.
Proof.
  intros N H. destruct (operator_spec _ _ _ _ H) as (I & b & _ & ->).
  specialize (N o I). rewrite !len_app. destruct o; [tauto|]. cbn [String.length]. lia.
Qed.

Lemma pbind_fuel {A B} (p : pr A) (f : A -> string -> pr B) :
  p <> PFuel -> (forall a s, p = POk a s -> f a s <> PFuel) -> pbind p f <> PFuel.
Proof. destruct p; cbn; try discriminate; auto. Qed.

Lemma expected_fuel {A} x (p : pr A) : p <> PFuel -> expected x p <> PFuel.
Proof. destruct p; cbn; congruence. Qed.

Lemma mul_nonempty x : In x mul_ops -> x <> "".
Proof. cbn. intros [<-|[<-|[<-|[<-|[]]]]]; discriminate. Qed.
Lemma add_nonempty x : In x add_ops -> x <> "".
Proof. cbn. intros [<-|[<-|[<-|[<-|[]]]]]; discriminate. Qed.

(** The fuel never runs out. *)
Lemma enough_fuel f :
  (forall s, (3 * String.length s + 1 <= f)%nat -> factor lit f s <> PFuel) /\
  (forall s, (3 * String.length s + 2 <= f)%nat -> term lit f s <> PFuel) /\
  (forall o acc s, (3 * String.length s + 1 <= f)%nat -> term_rest lit f o acc s <> PFuel) /\
  (forall s, (3 * String.length s + 3 <= f)%nat -> expression lit f s <> PFuel) /\
  (forall o acc s, (3 * String.length s + 1 <= f)%nat -> expression_rest lit f o acc s <> PFuel).
Proof.
  induction f as [|f (IHf & IHt & IHtr & IHe & IHer)]; [repeat split; intros; lia|].
  destruct (parser_sound f) as (Sf & St & _ & Se & _).
  split; [|split; [|split; [|split]]].
  - intros s Hf. rewrite factor_step. pose proof (skip_length s) as Ls.
    destruct (real lit (skip s)) as [[v r']|]; [discriminate|].
    destruct (skip s) as [|c x] eqn:Es; [discriminate|]. cbn [String.length] in Ls.
    destruct (is_open c).
    + apply pbind_fuel; [apply expected_fuel, IHe; lia|]. intros a r1 _.
      destruct (skip r1) as [|c2 r2]; [discriminate|]. destruct (is_close c2); discriminate.
    + destruct (Ascii.eqb c "-" || Ascii.eqb c "+" || Ascii.eqb c "#").
      * apply pbind_fuel; [apply expected_fuel, IHf; lia|]. discriminate.
      * destruct (longest function_names (String c x)) as [[[k name] r1]|] eqn:Lg; [|discriminate].
        destruct (longest_spec _ _ _ _ _ Lg) as [Kn Ek].
        pose proof (skip_length r1) as L1.
        destruct (skip r1) as [|c2 r2]; [discriminate|]. destruct (is_open c2); [|discriminate].
        apply pbind_fuel.
        -- apply expected_fuel, IHe. apply (f_equal String.length) in Ek. rewrite len_app in Ek.
           cbn [String.length] in *. lia.
        -- intros a r3 _. destruct (skip r3) as [|c4 r4]; [discriminate|]. destruct (is_close c4); discriminate.
  - intros s Hf. rewrite term_step. apply pbind_fuel; [apply IHf; lia|].
    intros a r1 H. apply Sf, sound_shorter in H. apply IHtr. lia.
  - intros o acc s Hf. rewrite term_rest_step.
    destruct (operator mul_ops s) as [[op r]|] eqn:E; [|discriminate].
    apply (operator_shorter _ _ _ _ mul_nonempty) in E.
    apply pbind_fuel; [apply expected_fuel, IHf; lia|]. intros a r1 H. apply expected_ok in H.
    apply Sf, sound_shorter in H. apply IHtr. lia.
  - intros s Hf. rewrite expression_step. apply pbind_fuel; [apply IHt; lia|].
    intros a r1 H. apply St in H as [H _]. apply sound_shorter in H. apply IHer. lia.
  - intros o acc s Hf. rewrite expression_rest_step.
    destruct (operator add_ops s) as [[op r]|] eqn:E; [|discriminate].
    apply (operator_shorter _ _ _ _ add_nonempty) in E.
    apply pbind_fuel; [apply expected_fuel, IHt; lia|]. intros a r1 H. apply expected_ok in H.
    apply St in H as [H _]. apply sound_shorter in H. apply IHer. lia.
Qed.

(** ** The calculator *)

Definition answer_of (v : res dbl) : res calc_answer :=
  match v with
  | Ok x => Ok (CValue x)
  | Exc (EEval m) => Ok (CRefused m)
  | Exc e => Exc e
  end.

Lemma calculator_value e t mv : spells libm LExpr e t ->
  value_calculator lit libm mv t = answer_of (value lit libm mv e).
Proof.
  intro Sp. destruct (complete_expr e t (complete _ _ _ Sp) "" (4 * String.length t + 4)%nat) as (o & E & V).
  - exact I.
  - split; reflexivity.
  - rewrite string_app_nil. lia.
  - rewrite string_app_nil in E. unfold value_calculator. rewrite E, V. reflexivity.
Qed.

(** No operator follows. *)
Definition no_operator (r : string) : Prop :=
  forall b op x, blanks b -> r <> b ++ op_text op ++ x.

Lemma ends_no_operator r : ends r -> no_operator r.
Proof.
  intros [E1 E2] b op x B ->. destruct (low op) eqn:L.
  - rewrite (operator_add b op x B L) in E2. discriminate.
  - rewrite (operator_mul b op x B L) in E1. discriminate.
Qed.

Lemma calculator_outcomes mv s :
  (exists e t r, s = t ++ r /\ spells libm LExpr e t /\ no_operator r /\
     value_calculator lit libm mv s = answer_of (value lit libm mv e)) \/
  exists m, value_calculator lit libm mv s = Ok (CRefused m).
Proof.
  unfold value_calculator. destruct (expression lit (4 * String.length s + 4) s) as [o r| |x|] eqn:E.
  - left. apply (proj1 (proj2 (proj2 (proj2 (parser_sound _))))) in E as [(t & e & -> & Sp & V) En].
    exists e, t, r. split; [reflexivity|]. split; [exact Sp|]. split; [now apply ends_no_operator|].
    rewrite V. reflexivity.
  - right. cbn [eval]. eauto.
  - right. eauto.
  - exfalso. revert E. apply (proj1 (proj2 (proj2 (proj2 (enough_fuel _))))). lia.
Qed.

(** Every spelling of a text gives the same value. *)
Lemma spells_value_unique e1 e2 t mv : spells libm LExpr e1 t -> spells libm LExpr e2 t ->
  value lit libm mv e1 = value lit libm mv e2.
Proof.
  intros H1 H2.
  destruct (complete_expr e1 t (complete _ _ _ H1) "" (4 * String.length t + 4)%nat) as (o1 & E1 & V1);
    [exact I|split; reflexivity|rewrite string_app_nil; lia|].
  destruct (complete_expr e2 t (complete _ _ _ H2) "" (4 * String.length t + 4)%nat) as (o2 & E2 & V2);
    [exact I|split; reflexivity|rewrite string_app_nil; lia|].
  rewrite E1 in E2. inv E2. now rewrite <- V1, <- V2.
Qed.

Lemma not_spelled t : (forall o, expression lit (4 * String.length t + 4) t <> POk o "") ->
  forall e, ~ spells libm LExpr e t.
Proof.
  intros N e Sp. destruct (complete_expr e t (complete _ _ _ Sp) "" (4 * String.length t + 4)%nat) as (o & E & V).
  - exact I.
  - split; reflexivity.
  - rewrite string_app_nil. lia.
  - rewrite string_app_nil in E. exact (N o E).
Qed.
End Calc.
