(** The Heidenhain line grammar: a line written out is read as its words. *)
From Verif Require Import Model.Base Model.Attr Model.Enums Model.Grammar Model.Messages Model.Heidenhain Spec.Text Spec.HeidenhainSpec.
From Verif Require Import Proofs.Tactics Proofs.TextProofs Proofs.StringFacts Proofs.GrammarLex Proofs.HeidenhainProofs.
Local Open Scope string_scope.
Local Open Scope Z_scope.

Definition tail_ok (rest : string) : Prop := rest = "" \/ exists x, rest = String " " x.

Lemma tail_head p rest : p " "%char = false -> tail_ok rest -> head_not p rest.
Proof. intros P [->|(x & ->)]; cbn; auto. Qed.

(** Blanks, the optional parts [f] of a word, and what follows. *)
Lemma fields_skip bad f rest : bad " "%char = false -> tail_ok rest -> head_not is_blank f ->
  (f = "" -> head_not bad (skip rest)) ->
  exists z, skip (" " ++ f ++ rest) = (f ++ z)%string /\ skip z = skip rest /\ head_not bad z.
Proof.
  intros Sp T F O. cbn [append]. rewrite skip_blank by reflexivity. destruct f as [|c f].
  - exists (skip rest). cbn. rewrite skip_skip. auto.
  - exists rest. split; [apply skip_none; exact F|]. split; [reflexivity|]. now apply tail_head.
Qed.

Lemma head_app_chr p o z : (forall x, o = Some x -> p x = false) -> head_not p z -> head_not p (opt_chr o ++ z).
Proof. intros A B. destruct o as [x|]; cbn; auto. Qed.

Lemma head_app_digits p o z : digits_opt o -> (forall c, is_digit c = true -> p c = false) -> head_not p z -> head_not p (opt_str o ++ z).
Proof.
  intros D A B. destruct o as [[|c ds]|]; cbn; auto. destruct D as (_ & D). cbn in D. apply andb_true_iff in D as [D _]. auto.
Qed.

Lemma read_char cs o z : (forall x, o = Some x -> in_set cs x = true) -> (o = None -> head_not (in_set cs) z) ->
  opt_char cs (opt_chr o ++ z) = (o, z).
Proof.
  intros A B. destruct o as [x|]; cbn.
  - now rewrite (A x eq_refl).
  - apply opt_char_none. exact (B eq_refl).
Qed.

Lemma read_digits o z : digits_opt o -> head_not is_digit z -> opt_run is_digit (opt_str o ++ z) = (o, z).
Proof. intros D H. destruct o as [ds|]; cbn; [apply opt_run_some; [apply D|apply D|exact H]|now apply opt_run_none]. Qed.

Lemma not_digit_in c : is_digit c = true ->
  in_set "-+" c = false /\ in_set "Q" c = false /\ in_set "." c = false /\ in_set "~" c = false /\ is_blank c = false.
Proof. destruct c as [[] [] [] [] [] [] [] []]; cbn; intro H; try discriminate H; repeat split. Qed.

Definition bad_number (c : ascii) : bool := is_digit c || Ascii.eqb c ".".

Lemma bad_number_digit z : head_not bad_number z -> head_not is_digit z.
Proof. destruct z as [|c z]; cbn; [auto|]. unfold bad_number. intro H. now apply orb_false_iff in H. Qed.
Lemma bad_number_dot z : head_not bad_number z -> head_not (in_set ".") z.
Proof. destruct z as [|c z]; cbn [head_not]; [auto|]. unfold bad_number. rewrite in_set_one. intro H. now apply orb_false_iff in H. Qed.

Lemma only_in x o : only x o -> forall y, o = Some y -> in_set (String x "") y = true.
Proof. intros [->| ->] y E; inv E. rewrite in_set_one. apply Ascii.eqb_refl. Qed.

Lemma only_out x o p : only x o -> p x = false -> forall y, o = Some y -> p y = false.
Proof. intros [->| ->] P y E; inv E. exact P. Qed.

Lemma number_written v d v2 z : digits_opt v -> fraction d v2 -> head_not bad_number z ->
  opt_run is_digit (opt_str v ++ opt_chr d ++ opt_str v2 ++ z) = (v, opt_chr d ++ opt_str v2 ++ z)%string /\
  opt_char "." (opt_chr d ++ opt_str v2 ++ z) = (d, opt_str v2 ++ z)%string /\
  opt_run is_digit (opt_str v2 ++ z) = (v2, z).
Proof.
  intros V (D & V2 & N) Z.
  assert (Q : opt_run is_digit (opt_str v2 ++ z) = (v2, z)) by (apply read_digits; auto using bad_number_digit).
  split; [|split; [|exact Q]].
  - apply read_digits; [exact V|]. destruct d as [x|].
    + destruct D as [X|X]; inv X. reflexivity.
    + rewrite (N eq_refl). cbn. now apply bad_number_digit.
  - apply read_char; [now apply only_in|]. intros ->. rewrite (N eq_refl). cbn. now apply bad_number_dot.
Qed.

Lemma sign_in o : sign_opt o -> forall y, o = Some y -> in_set "-+" y = true.
Proof. intros [->|[->| ->]] y E; inv E; reflexivity. Qed.

Lemma blank_char_sp : is_blank " " = true.
Proof. reflexivity. Qed.

(** What may stand behind a word: nothing, or a blank and a word that cannot be
    taken for more of this one. *)
Definition behind (a : hattr) (rest : string) : Prop :=
  tail_ok rest /\
  head_not (fun c => is_digit c || in_set "-+" c || Ascii.eqb c "~") (skip rest) /\
  match a with
  | HGeneral _ None None None None None None => head_not (fun c => Ascii.eqb c "Q" || Ascii.eqb c ".") (skip rest)
  | HCycle _ _ None None None => head_not (Ascii.eqb ".") (skip rest)
  | HParam _ _ _ None "" None None => head_not (Ascii.eqb ".") (skip rest)
  | HProgram _ _ _ => head_not name_char (skip rest)
  | HComment _ _ _ => rest = ""
  | _ => True
  end.

Lemma head_or p q z : head_not (fun c => p c || q c) z <-> head_not p z /\ head_not q z.
Proof. destruct z; cbn; [tauto|]. apply orb_false_iff. Qed.

Lemma not_begins c w d t : c <> d -> ~ begins (String c w) (String d t).
Proof. intros N (x & E). inv E. now apply N. Qed.

Lemma cycle_skips t : ~ begins "CYCL" t -> cycle_rule t = HFail.
Proof. intro H. unfold cycle_rule. apply lit_fail in H. now rewrite H. Qed.
Lemma param_skips rid t : ~ begins "Q" t -> param_rule rid t = HFail.
Proof. intro H. unfold param_rule. apply lit_fail in H. now rewrite H. Qed.
Lemma comment_skips t : ~ begins ";" t -> hcomment_rule t = HFail.
Proof. intro H. unfold hcomment_rule. apply lit_fail in H. now rewrite H. Qed.
Lemma program_skips t : ~ begins "BEGIN" t -> ~ begins "END" t -> program_rule t = HFail.
Proof. intros A B. unfold program_rule. assert (X : begin_word t = HFail) by (apply begin_fail; auto). now rewrite X. Qed.

Lemma cycle_plain rid w1 w2 v d v2 rest was : proper (HCycle w1 w2 v d v2) -> behind (HCycle w1 w2 v d v2) rest ->
  exists was' r, word_rule rid (plain (HCycle w1 w2 v d v2) ++ rest) was = (was', HOk (HCycle w1 w2 v d v2) r) /\ skip r = skip rest.
Proof.
  intros (-> & W & V & F) (T & H0 & H).
  destruct (fields_skip bad_number (opt_str v ++ opt_chr d ++ opt_str v2) rest) as (z & E & K & Z); auto.
  - apply head_app_digits; [exact V|apply not_digit_in|]. apply head_app_chr; [apply (only_out "."); [apply F|reflexivity]|].
    rewrite <- (string_app_nil (opt_str v2)). apply head_app_digits; [apply F|apply not_digit_in|exact I].
  - intro Y. destruct v as [x|]; [destruct V as (N & _); destruct x; [now elim N|discriminate Y]|]. destruct d; [discriminate Y|].
    rewrite (proj2 (proj2 F) eq_refl) in *. unfold bad_number. apply head_or. split.
    + apply head_or in H0 as (H0 & _). apply head_or in H0. tauto.
    + destruct (skip rest); cbn in *; [exact I|]. now rewrite eqb_flip.
  - exists true, z. split; [|exact K]. unfold word_rule. cbn [plain].
    replace (("CYCL" ++ " " ++ w2 ++ " " ++ opt_str v ++ opt_chr d ++ opt_str v2) ++ rest)%string
      with ("CYCL" ++ " " ++ w2 ++ " " ++ (opt_str v ++ opt_chr d ++ opt_str v2) ++ rest)%string
      by (repeat (cbn; rewrite ?string_app_assoc); reflexivity).
    rewrite skip_none by reflexivity. unfold cycle_rule. rewrite lit_app. cbn [andthen]. unfold must.
    rewrite run1_app; [|discriminate|reflexivity|destruct W as [->| ->]; reflexivity].
    assert (L : either (lit "DEF") (lit "CALL") (w2 ++ " " ++ (opt_str v ++ opt_chr d ++ opt_str v2) ++ rest)
                = HOk w2 (" " ++ (opt_str v ++ opt_chr d ++ opt_str v2) ++ rest)).
    { unfold either. destruct W as [->| ->]; rewrite lit_app || (replace (lit "DEF" _) with (@HFail string) by reflexivity; rewrite lit_app); reflexivity. }
    rewrite L. rewrite E, !string_app_assoc. destruct (number_written v d v2 z V F Z) as (A & B & C). now rewrite A, B, C.
Qed.

Lemma nat_digits n : 0 <= n -> nat_to_string n <> "" /\ all_chars is_digit (nat_to_string n) = true /\ digits_val (nat_to_string n) = n.
Proof. intro H. destruct (nat_to_string_spec n H) as (A & B & C & _). auto. Qed.

Lemma digits_head p s z : s <> "" -> all_chars is_digit s = true -> (forall c, is_digit c = true -> p c = false) -> head_not p (s ++ z).
Proof. intros N A P. destruct s as [|c s]; [now elim N|]. cbn in *. apply andb_true_iff in A as [A _]. auto. Qed.

Lemma param_plain rid q id e sg v d v2 rest was : proper (HParam q id e sg v d v2) -> behind (HParam q id e sg v d v2) rest ->
  0 <= id -> rid None (nat_to_string id) = Some id ->
  exists was' r, word_rule rid (plain (HParam q id e sg v d v2) ++ rest) was = (was', HOk (HParam q id e sg v d v2) r) /\ skip r = skip rest.
Proof.
  intros (-> & -> & SG & V & F) (T & H0 & H) ID R. destruct (nat_digits id ID) as (N & A & _).
  set (vo := match v with "" => None | _ => Some v end).
  assert (VO : digits_opt vo) by (unfold vo; destruct v; cbn; [exact I|split; [discriminate|exact V]]).
  assert (VE : opt_str vo = v) by (unfold vo; destruct v; reflexivity).
  clearbody vo.
  destruct (fields_skip (fun c => bad_number c || in_set "-+" c) (opt_chr sg ++ opt_str vo ++ opt_chr d ++ opt_str v2) rest) as (z & E & K & Z); auto.
  - apply head_app_chr; [destruct SG as [->|[->| ->]]; intros x X; inv X; reflexivity|].
    apply head_app_digits; [exact VO|apply not_digit_in|]. apply head_app_chr; [apply (only_out "."); [apply F|reflexivity]|].
    rewrite <- (string_app_nil (opt_str v2)). apply head_app_digits; [apply F|apply not_digit_in|exact I].
  - intro Y. destruct sg; [discriminate Y|]. rewrite VE in Y. destruct v as [|c v]; [|discriminate Y]. destruct d; [discriminate Y|].
    rewrite (proj2 (proj2 F) eq_refl) in *. apply head_or in H0 as (H0 & _). apply head_or in H0 as (H1 & H2).
    apply head_or. split; [|exact H2]. apply head_or. split; [exact H1|]. destruct (skip rest); cbn in *; [exact I|]. now rewrite eqb_flip.
  - apply head_or in Z as (Z1 & Z2). exists was, z. split; [|exact K]. unfold word_rule. cbn [plain].
    replace (("Q" ++ nat_to_string id ++ " " ++ String "=" " " ++ opt_chr sg ++ v ++ opt_chr d ++ opt_str v2) ++ rest)%string
      with ("Q" ++ nat_to_string id ++ " " ++ "=" ++ " " ++ (opt_chr sg ++ opt_str vo ++ opt_chr d ++ opt_str v2) ++ rest)%string
      by (rewrite VE; repeat (cbn; rewrite ?string_app_assoc); reflexivity).
    rewrite skip_none by reflexivity. rewrite cycle_skips by (apply not_begins; discriminate). unfold either.
    unfold param_rule. rewrite lit_app. cbn [andthen]. unfold must, int_rule.
    rewrite opt_char_none by (apply (digits_head (in_set "-+")); auto; apply not_digit_in).
    rewrite opt_run_some by (auto; reflexivity). rewrite R.
    change (skip (" " ++ "=" ++ " " ++ (opt_chr sg ++ opt_str vo ++ opt_chr d ++ opt_str v2) ++ rest))
      with ("=" ++ " " ++ (opt_chr sg ++ opt_str vo ++ opt_chr d ++ opt_str v2) ++ rest)%string.
    rewrite lit_app, E, !string_app_assoc. destruct (number_written vo d v2 z VO F Z1) as (X1 & X2 & X3).
    rewrite read_char; [|now apply sign_in|].
    + rewrite X1, X2, X3, VE. reflexivity.
    + intros ->. apply head_app_digits; [exact VO|apply not_digit_in|]. apply head_app_chr; [apply (only_out "."); [apply F|reflexivity]|].
      apply head_app_digits; [apply F|apply not_digit_in|exact Z2].
Qed.

Lemma comment_plain rid c v t was : proper (HComment c v t) ->
  exists was' r, word_rule rid (plain (HComment c v t) ++ "") was = (was', HOk (HComment c v t) r) /\ skip r = "".
Proof.
  intros (-> & A & T). exists was, "". split; [|reflexivity]. unfold word_rule. rewrite string_app_nil. cbn [plain].
  rewrite skip_none by reflexivity. rewrite cycle_skips by (apply not_begins; discriminate). unfold either.
  rewrite param_skips by (apply not_begins; discriminate). unfold hcomment_rule.
  set (x := if Ascii.eqb t zero then "" else String t ""). change ((String ";" v ++ x)%string) with (";" ++ (v ++ x))%string.
  rewrite lit_app. cbn [andthen]. destruct T as [->| ->].
  - cbn in x. subst x. rewrite span_app; auto.
  - cbn in x. subst x. rewrite span_app; auto.
Qed.

Lemma name_not_blank c : is_name_char c = true -> is_blank c = false.
Proof. destruct c as [[] [] [] [] [] [] [] []]; cbn; intro H; try discriminate H; reflexivity. Qed.
Lemma blank_not_name c : is_blank c = true -> is_name_char c = false.
Proof. intro H. destruct (is_name_char c) eqn:E; [|reflexivity]. apply name_not_blank in E. congruence. Qed.

Lemma blank_run x : exists b, run1 is_space (String " " x) = HOk b (snd (span is_space (String " " x))).
Proof. unfold run1, opt_run. cbn. destruct (span is_space x). eexists. reflexivity. Qed.

(** Behind a program header: the white space, and no name. *)
Lemma program_plain rid be name u rest was : proper (HProgram be name u) -> behind (HProgram be name u) rest ->
  (forall c x, skip rest = String c x -> is_space c = false) ->
  exists was' r, word_rule rid (plain (HProgram be name u) ++ rest) was = (was', HOk (HProgram be name u) r) /\ skip r = skip rest.
Proof.
  intros (N & A) (T & _ & H) SP. exists was, (skip rest). split; [|apply skip_skip]. unfold word_rule. cbn [plain].
  replace ((begin_text be ++ " PGM " ++ name ++ " " ++ unit_text u) ++ rest)%string
    with (begin_text be ++ " " ++ "PGM" ++ " " ++ name ++ " " ++ unit_text u ++ rest)%string
    by (repeat (cbn; rewrite ?string_app_assoc); reflexivity).
  set (body := (" " ++ "PGM" ++ " " ++ name ++ " " ++ unit_text u ++ rest)%string).
  rewrite skip_none by (destruct be; reflexivity). rewrite cycle_skips by (destruct be; apply not_begins; discriminate). unfold either at 1.
  rewrite param_skips by (destruct be; apply not_begins; discriminate). unfold either at 1.
  rewrite comment_skips by (destruct be; apply not_begins; discriminate). unfold either at 1.
  unfold program_rule.
  assert (B : begin_word (begin_text be ++ body) = HOk be body).
  { unfold begin_word. destruct be; cbn [begin_text].
    - assert (X : sym_match ["BEGIN"; "END"] ("BEGIN" ++ body) = Some "BEGIN").
      { apply sym_match_some. split; [cbn; auto|]. split; [apply prefix_app|]. intros w [<-|[<-|[]]] _; cbn; lia. }
      rewrite X. now rewrite (drop_app "BEGIN").
    - assert (X : sym_match ["BEGIN"; "END"] ("END" ++ body) = Some "END").
      { apply sym_match_some. split; [cbn; auto|]. split; [apply prefix_app|]. intros w [<-|[<-|[]]] P; cbn; try lia. discriminate P. }
      rewrite X. now rewrite (drop_app "END"). }
  rewrite B. cbn [andthen]. unfold body, must. rewrite run1_app; [|discriminate|reflexivity|reflexivity]. rewrite lit_app.
  rewrite run1_app; [|discriminate|reflexivity|].
  2:{ destruct name as [|c name]; [now elim N|]. cbn in A |- *. apply andb_true_iff in A as [A _]. now apply name_not_blank. }
  rewrite span_app; [|exact A|reflexivity]. rewrite run1_app; [|discriminate|reflexivity|destruct u; reflexivity].
  assert (U : unit_word (unit_text u ++ rest) = HOk u rest).
  { unfold unit_word. destruct u; cbn [unit_text].
    - assert (X : sym_match ["MM"; "INCH"] ("MM" ++ rest) = Some "MM").
      { apply sym_match_some. split; [cbn; auto|]. split; [apply prefix_app|]. intros w [<-|[<-|[]]] P; cbn; try lia. discriminate P. }
      rewrite X. now rewrite (drop_app "MM").
    - assert (X : sym_match ["MM"; "INCH"] ("INCH" ++ rest) = Some "INCH").
      { apply sym_match_some. split; [cbn; auto|]. split; [apply prefix_app|]. intros w [<-|[<-|[]]] P; cbn; lia. }
      rewrite X. now rewrite (drop_app "INCH"). }
  rewrite U. destruct T as [->|(x & ->)].
  - cbn. reflexivity.
  - assert (Q : exists b, either (run1 is_space) eoi (String " " x) = HOk b (skip (String " " x))).
    { unfold either. destruct (blank_run x) as (b & ->). exists b. f_equal.
      assert (W : forall y, (forall c z, skip y = String c z -> is_space c = false) -> snd (span is_space y) = skip y).
      { clear. induction y as [|c y IH]; intro P; [reflexivity|]. unfold skip in *. cbn in *. destruct (is_blank c) eqn:Bc.
        - assert (Sc : is_space c = true) by (destruct (is_space c) eqn:S; [reflexivity|apply space_blank in S; congruence]).
          rewrite Sc. destruct (span is_space y) as [a b]. destruct (span is_blank y) as [a' b']. cbn in *. auto.
        - cbn in P. rewrite (P c y eq_refl). reflexivity. }
      apply W. exact SP. }
    destruct Q as (b & ->). destruct (skip (String " " x)) as [|c y]; cbn; [reflexivity|]. cbn in H. rewrite <- name_char_is in H. now rewrite H.
Qed.

Lemma sym_letters w x : all_chars is_word_char w = true -> head_not is_alnum x -> head_not is_word_char x -> sym_match operations (w ++ x) = None.
Proof.
  intros A X Y. apply sym_match_none. intros o I. destruct (prefix o (w ++ x)) eqn:P; [|reflexivity]. exfalso.
  apply prefix_iff in P as (b & E). destruct (app_prefix_cases w x o b E) as [(y & -> & _)|(y & E2 & E3)].
  - rewrite all_chars_app in A. apply andb_true_iff in A as [A _]. revert A. repeat (destruct I as [<-|I]; [discriminate|]). destruct I.
  - destruct y as [|c y].
    + rewrite string_app_nil in E2. subst o. revert A. repeat (destruct I as [<-|I]; [discriminate|]). destruct I.
    + subst x. cbn in X.
      assert (Q : forall o, In o operations -> all_chars is_alnum o = true).
      { clear. intros o I. repeat (destruct I as [<-|I]; [reflexivity|]). destruct I. }
      apply Q in I. rewrite E2 in I. rewrite all_chars_app in I. apply andb_true_iff in I as [_ I]. cbn in I. rewrite X in I. discriminate.
Qed.

Lemma no_symbol c t : ~ In c ["K"; "P"]%char -> sym_match operations (String c t) = None.
Proof.
  intro N. apply sym_match_none. intros o I. destruct (prefix o (String c t)) eqn:P; [|reflexivity]. exfalso. apply N.
  apply prefix_iff in P as (b & E). repeat (destruct I as [<-|I]; [inv E; cbn; auto|]). destruct I.
Qed.

Lemma not_blank c : c <> " "%char -> c <> "009"%char -> is_blank c = false.
Proof. destruct c as [[] [] [] [] [] [] [] []]; cbn; intros A B; try reflexivity; now elim A || now elim B. Qed.

(** No other rule takes an entry, and the word is read as it is. *)
Lemma entry_plain rid w x was : entry_word w ->
  general_word (w ++ " " ++ x) = HOk w (" " ++ x) /\ skip (w ++ " " ++ x) = (w ++ " " ++ x)%string /\
  word_rule rid (w ++ " " ++ x) was = (was, general_rule (w ++ " " ++ x)).
Proof.
  intro W.
  assert (Base : forall c r, w = String c r -> ~ In c [";"; "C"; "Q"; "B"; "E"; " "; "009"]%char ->
    skip (w ++ " " ++ x) = (w ++ " " ++ x)%string /\ word_rule rid (w ++ " " ++ x) was = (was, general_rule (w ++ " " ++ x))).
  { intros c r -> N. assert (K : skip (String c r ++ " " ++ x) = (String c r ++ " " ++ x)%string).
    { apply skip_none. cbn. apply not_blank; intros ->; apply N; cbn; tauto. }
    split; [exact K|]. unfold word_rule. rewrite K. cbn in N. cbn [append].
    rewrite cycle_skips by (apply not_begins; intros <-; tauto). unfold either. rewrite param_skips by (apply not_begins; intros <-; tauto).
    rewrite comment_skips by (apply not_begins; intros <-; tauto).
    rewrite program_skips by (apply not_begins; intros <-; tauto). reflexivity. }
  destruct W as [I|[(N & A & R)|[->|[->|(v & N & A & ->)]]]].
  - split.
    + unfold general_word. assert (M : sym_match operations (w ++ " " ++ x) = Some w).
      { apply sym_match_some. split; [exact I|]. split; [apply prefix_app|]. intros u U _.
        assert (L : forall o, In o operations -> String.length o = 3%nat).
        { clear. intros o I. repeat (destruct I as [<-|I]; [reflexivity|]). destruct I. }
        rewrite (L u U), (L w I). lia. }
      rewrite M. now rewrite drop_app.
    + destruct w as [|c r]; [cbn in I; intuition discriminate|]. apply (Base c r eq_refl).
      intro J. repeat (destruct I as [I|I]; [inv I; cbn in J; intuition discriminate|]). destruct I.
  - rewrite (all_chars_ext word_char is_word_char) in A by (intro; now rewrite word_char_is).
    split.
    + unfold general_word. rewrite sym_letters; [|exact A|reflexivity|reflexivity]. unfold either. rewrite run1_app; auto. reflexivity.
    + assert (K : skip (w ++ " " ++ x) = (w ++ " " ++ x)%string).
      { apply skip_none. destruct w as [|c w]; [now elim N|]. cbn in A |- *. apply andb_true_iff in A as [A _]. revert A. clear.
        destruct c as [[] [] [] [] [] [] [] []]; cbn; intro H; try discriminate H; reflexivity. }
      split; [exact K|]. unfold word_rule. rewrite K.
      assert (B : forall k, all_chars is_word_char k = true -> begins k (w ++ " " ++ x) -> begins k w).
      { intros k Ak (y & E). destruct (app_prefix_cases w _ k y E) as [(z & -> & _)|(z & E2 & E3)]; [eexists; reflexivity|].
        destruct z as [|c z]; [exists ""; rewrite E2, !string_app_nil; reflexivity|]. inv E3. rewrite all_chars_app in Ak.
        apply andb_true_iff in Ak as [_ Ak]. discriminate Ak. }
      rewrite cycle_skips by (intro J; apply R; left; apply B; auto).
      unfold either. rewrite param_skips by (intro J; apply R; right; left; apply B; auto).
      rewrite comment_skips.
      2:{ intros (y & E). destruct w as [|c w]; [now elim N|]. inv E. discriminate A. }
      rewrite program_skips; [reflexivity|intro J; apply R; right; right; left; apply B; auto|intro J; apply R; right; right; right; apply B; auto].
  - split.
    { unfold general_word. cbn [append]. rewrite no_symbol by (cbn; intuition discriminate). unfold either.
      rewrite run1_fail by reflexivity. change (String "#" (String " " x)) with ("#" ++ String " " x)%string. now rewrite lit_app. }
    apply (Base "#"%char "" eq_refl). cbn. intuition discriminate.
  - split.
    { unfold general_word. cbn [append]. rewrite no_symbol by (cbn; intuition discriminate). unfold either.
      rewrite run1_fail by reflexivity. replace (lit "#" _) with (@HFail string) by reflexivity.
      change (String "=" (String " " x)) with ("=" ++ String " " x)%string. now rewrite lit_app. }
    apply (Base "="%char "" eq_refl). cbn. intuition discriminate.
  - split.
    + replace ((("""" ++ v ++ """") ++ " " ++ x)%string) with ("""" ++ (v ++ """" ++ " " ++ x))%string by (repeat (cbn; rewrite ?string_app_assoc); reflexivity).
      unfold general_word. cbn [append]. rewrite no_symbol by (cbn; intuition discriminate). unfold either.
      rewrite run1_fail by reflexivity. replace (lit "#" _) with (@HFail string) by reflexivity. replace (lit "=" _) with (@HFail string) by reflexivity.
      unfold quoted. change (String """" (v ++ String """" (String " " x))) with ("""" ++ (v ++ """" ++ String " " x))%string.
      rewrite lit_app. cbn [andthen]. unfold must. rewrite run1_app; [|exact N|exact A|reflexivity]. rewrite lit_app. reflexivity.
    + apply (Base """"%char (v ++ """")%string eq_refl). cbn. intuition discriminate.
Qed.

Lemma general_plain rid w sg nm v d v2 tl rest was : proper (HGeneral w sg nm v d v2 tl) -> behind (HGeneral w sg nm v d v2 tl) rest ->
  exists was' r, word_rule rid (plain (HGeneral w sg nm v d v2 tl) ++ rest) was = (was', HOk (HGeneral w sg nm v d v2 tl) r) /\ skip r = skip rest.
Proof.
  intros (W & SG & NM & V & F & TL) (T & H0 & H).
  set (f := (opt_chr sg ++ opt_chr nm ++ opt_str v ++ opt_chr d ++ opt_str v2 ++ opt_chr tl)%string).
  assert (Ef : f = (opt_chr sg ++ opt_chr nm ++ opt_str v ++ opt_chr d ++ opt_str v2 ++ opt_chr tl)%string) by reflexivity. clearbody f.
  destruct (fields_skip (fun c => bad_number c || in_set "-+" c || in_set "Q" c || in_set "~" c) f rest) as (z & E & K & Z); auto.
  - rewrite Ef. apply head_app_chr; [destruct SG as [->|[->| ->]]; intros x X; inv X; reflexivity|].
    apply head_app_chr; [apply (only_out "Q"); auto|].
    apply head_app_digits; [exact V|apply not_digit_in|]. apply head_app_chr; [apply (only_out "."); [apply F|reflexivity]|].
    apply head_app_digits; [apply F|apply not_digit_in|]. rewrite <- (string_app_nil (opt_chr tl)). apply head_app_chr; [apply (only_out "~"); auto|exact I].
  - intro Y. rewrite Ef in Y. destruct sg; [discriminate Y|]. destruct nm; [discriminate Y|].
    destruct v as [x|]; [destruct V as (N & _); destruct x; [now elim N|discriminate Y]|]. destruct d; [discriminate Y|].
    rewrite (proj2 (proj2 F) eq_refl) in *. destruct tl; [discriminate Y|].
    apply head_or in H0 as (H0 & H3). apply head_or in H0 as (H1 & H2). apply head_or in H as (HQ & HD).
    apply head_or. split; [apply head_or; split; [apply head_or; split; [|exact H2]|]|].
    + apply head_or. split; [exact H1|exact HD].
    + destruct (skip rest); [exact I|]. cbn [head_not] in *. now rewrite in_set_one.
    + destruct (skip rest); [exact I|]. cbn [head_not] in *. now rewrite in_set_one.
  - apply head_or in Z as (Z & Z4). apply head_or in Z as (Z & Z3). apply head_or in Z as (Z1 & Z2).
    destruct (entry_plain rid w (f ++ rest) was W) as (G & Sk & WR).
    exists was, z. split; [|exact K]. cbn [plain]. rewrite <- Ef.
    replace ((w ++ " " ++ f) ++ rest)%string with (w ++ " " ++ f ++ rest)%string by (repeat (cbn; rewrite ?string_app_assoc); reflexivity).
    rewrite WR. f_equal. unfold general_rule. rewrite G. cbn [andthen]. rewrite E, Ef, !string_app_assoc.
    set (z' := (opt_chr tl ++ z)%string).
    assert (Zn : head_not bad_number z').
    { unfold z'. apply head_app_chr; [apply (only_out "~"); auto|exact Z1]. }
    destruct (number_written v d v2 z' V F Zn) as (X1 & X2 & X3).
    rewrite read_char; [|now apply sign_in|].
    + rewrite read_char; [|now apply only_in|].
      * rewrite X1, X2, X3. unfold z'. rewrite read_char; [reflexivity|now apply only_in|auto].
      * intros ->. apply head_app_digits; [exact V|apply not_digit_in|]. apply head_app_chr; [apply (only_out "."); [apply F|reflexivity]|].
        apply head_app_digits; [apply F|apply not_digit_in|]. apply head_app_chr; [apply (only_out "~"); auto|exact Z3].
    + intros ->. apply head_app_chr; [apply (only_out "Q"); auto|]. apply head_app_digits; [exact V|apply not_digit_in|].
      apply head_app_chr; [apply (only_out "."); [apply F|reflexivity]|].
      apply head_app_digits; [apply F|apply not_digit_in|]. apply head_app_chr; [apply (only_out "~"); auto|exact Z2].
Qed.

(** ** Lines *)

Lemma plain_front b : ~ is_number b -> exists x, plain b = (front b ++ x)%string.
Proof.
  destruct b; cbn; intro H; try tauto; try (eexists; reflexivity).
Qed.

Definition head_fine (c : ascii) : bool := negb (is_space c || is_blank c || is_digit c || in_set "-+" c || Ascii.eqb c "~").

Lemma word_head_fine c : is_word_char c = true -> head_fine c = true.
Proof. destruct c as [[] [] [] [] [] [] [] []]; cbn; intro H; try discriminate H; reflexivity. Qed.

Lemma front_fine b : proper b -> ~ is_number b -> exists c x, front b = String c x /\ head_fine c = true.
Proof.
  destruct b; cbn [proper is_number front]; intros P N; try tauto.
  - destruct P as (-> & _). eauto.
  - destruct be; cbn; eauto.
  - destruct P as (W & _). destruct W as [I|[(E & A & _)|[->|[->|(v & _ & _ & ->)]]]]; try (cbn; eauto; fail).
    + repeat (destruct I as [<-|I]; [cbn; eauto|]). destruct I.
    + destruct word as [|c w]; [now elim E|]. exists c, w. split; [reflexivity|]. cbn in A. apply andb_true_iff in A as [A _].
      apply word_head_fine. now rewrite word_char_is.
  - destruct P as (-> & _). cbn. eauto.
  - destruct P as (-> & _). cbn. eauto.
Qed.

Lemma plain_line_cons a b vs : plain_line (a :: b :: vs) = (plain a ++ " " ++ plain_line (b :: vs))%string.
Proof. reflexivity. Qed.

Lemma plain_head b vs : proper b -> ~ is_number b ->
  exists c x y, plain_line (b :: vs) = String c x /\ front b = String c y /\ head_fine c = true.
Proof.
  intros P N. destruct (front_fine b P N) as (c & y & F & H). destruct (plain_front b N) as (z & E).
  destruct vs as [|b' vs].
  - exists c, (y ++ z)%string, y. unfold plain_line. cbn. rewrite E, F. auto.
  - rewrite plain_line_cons, E, F. exists c. eexists. exists y. cbn. eauto.
Qed.

Lemma head_fine_parts c : head_fine c = true ->
  is_space c = false /\ is_blank c = false /\ is_digit c = false /\ in_set "-+" c = false /\ Ascii.eqb c "~" = false.
Proof. unfold head_fine. intro H. apply negb_true_iff in H. do 4 (apply orb_false_iff in H as [H ?]). repeat split; assumption. Qed.

Lemma behind_next a b vs : proper b -> ~ is_number b -> ~ clash a b ->
  behind a (" " ++ plain_line (b :: vs)) /\ skip (" " ++ plain_line (b :: vs)) = plain_line (b :: vs) /\
  (forall c x, skip (" " ++ plain_line (b :: vs)) = String c x -> is_space c = false).
Proof.
  intros P N C. destruct (plain_head b vs P N) as (c & x & y & E & F & H). apply head_fine_parts in H as (Sp & Bl & Dg & Sg & Tl).
  assert (K : skip (" " ++ plain_line (b :: vs)) = String c x).
  { cbn [append]. rewrite skip_blank by reflexivity. rewrite E. now apply skip_none. }
  unfold behind. rewrite K. split; [|split; [now rewrite E|intros c' x' Q; inv Q; exact Sp]].
  split; [right; eexists; reflexivity|]. split; [cbn [head_not]; now rewrite Dg, Sg, Tl|].
  unfold clash in C. rewrite F in C. cbn [head_not]. destruct a; try exact I.
  - tauto.
  - cbn [starts] in C. destruct (name_char c); [tauto|reflexivity].
  - destruct sign, name, value, dot, value2, tilde; try exact I. cbn [starts] in C. destruct (_ || _); [tauto|reflexivity].
  - destruct value, dot, value2; try exact I. cbn [starts] in C. destruct (Ascii.eqb "." c); [tauto|reflexivity].
  - destruct sign; [exact I|]. destruct value; [|exact I]. destruct dot; [exact I|]. destruct value2; [exact I|]. cbn [starts] in C.
    destruct (Ascii.eqb "." c); [tauto|reflexivity].
Qed.

Lemma behind_end a : behind a "".
Proof.
  unfold behind. split; [left; reflexivity|]. split; [exact I|]. destruct a; try exact I; try reflexivity.
  - destruct sign, name, value, dot, value2, tilde; exact I.
  - destruct value, dot, value2; exact I.
  - destruct sign; [exact I|]. destruct value; [|exact I]. destruct dot; [exact I|]. destruct value2; exact I.
Qed.

Lemma word_plain rid a rest was : proper a -> ~ is_number a -> behind a rest -> ids_fit rid [a] ->
  (forall c x, skip rest = String c x -> is_space c = false) ->
  exists was' r, word_rule rid (plain a ++ rest) was = (was', HOk a r) /\ skip r = skip rest.
Proof.
  intros P N B F S. destruct a.
  - elim N. exact I.
  - destruct B as (_ & _ & ->). now apply comment_plain.
  - now apply program_plain.
  - now apply general_plain.
  - now apply cycle_plain.
  - destruct (F name id assign sign value dot value2) as (A & R); [left; reflexivity|]. now apply param_plain.
Qed.

Lemma word_skip rid t u was : skip t = skip u -> word_rule rid t was = word_rule rid u was.
Proof. unfold word_rule. now intros ->. Qed.

Lemma words_plain rid ps body : forall fuel first t v was,
  (forall a, In a body -> proper a) -> (forall a, In a body -> ~ is_number a) -> no_clash body -> ids_fit rid body ->
  (first = true -> body <> []) -> skip t = skip (plain_line body) -> (String.length t < fuel)%nat ->
  exists was', words rid ps fuel first t v was = (was', (v ++ body)%list, HTrue).
Proof.
  induction body as [|a body IH]; intros fuel first t v was P N C F Fi K L; (destruct fuel as [|f]; [lia|]); cbn [words].
  - destruct first; [now elim (Fi eq_refl)|]. rewrite (word_skip rid t "" was K). rewrite K, app_nil_r. cbn. eauto.
  - assert (X : exists rest, plain_line (a :: body) = (plain a ++ rest)%string /\ behind a rest /\ skip rest = skip (plain_line body) /\
              (forall c x, skip rest = String c x -> is_space c = false)).
    { destruct body as [|b body].
      - exists "". unfold plain_line. cbn. rewrite string_app_nil. split; [reflexivity|]. split; [apply behind_end|]. split; [reflexivity|discriminate].
      - exists (" " ++ plain_line (b :: body))%string. split; [apply plain_line_cons|].
        destruct (behind_next a b body) as (B1 & B2 & B3); [apply P; cbn; auto|apply N; cbn; auto|apply C|].
        split; [exact B1|]. split; [|exact B3]. cbn [append]. now rewrite skip_blank. }
    destruct X as (rest & E & B & R & S). rewrite (word_skip rid t _ was K).
    destruct (word_plain rid a rest was) as (was1 & r & W & Kr); auto.
    { apply P. cbn. auto. } { apply N. cbn. auto. }
    { intros q id e sg v' d v2 [Q|[]]. apply (F q id e sg v' d v2). left. exact Q. }
    rewrite E, W.
    assert (Lr : (String.length r < f)%nat).
    { rewrite <- E, <- (word_skip rid t _ was K) in W. destruct (word_ok _ _ _ _ _ _ W) as (b & s & _ & -> & G).
      apply good_nonempty in G. rewrite !string_app_length in L. destruct s; [now elim G|]. cbn in L. lia. }
    destruct (IH f false r (v ++ [a])%list was1) as (was' & H); auto.
    + intros x I. apply P. cbn. auto.
    + intros x I. apply N. cbn. auto.
    + destruct body; [exact I|apply C].
    + intros q id e sg v' d v2 I. apply (F q id e sg v' d v2). cbn. auto.
    + discriminate.
    + now rewrite Kr.
    + exists was'. rewrite H. now rewrite <- app_assoc.
Qed.

Lemma line_plain rid ps vs was : line_words vs -> ids_fit rid vs ->
  exists was', line_rule rid ps (plain_line vs) was = (was', vs, HTrue).
Proof.
  intros (num & body & -> & Num & NE & NN & P & C) F. destruct body as [|b body]; [now elim NE|].
  assert (Pb : forall a, In a (b :: body) -> proper a) by (intros a I; apply P, in_or_app; auto).
  assert (Fb : ids_fit rid (b :: body)).
  { intros q id e sg v d v2 I. apply (F q id e sg v d v2). apply in_or_app. auto. }
  destruct (plain_head b body) as (c & x & y & E & _ & H); [apply Pb; cbn; auto|apply NN; cbn; auto|].
  apply head_fine_parts in H as (_ & Bl & Dg & _ & _). unfold line_rule. destruct Num as [->|(n & ->)].
  - cbn [app]. assert (K : skip (plain_line (b :: body)) = plain_line (b :: body)) by (rewrite E; now apply skip_none).
    rewrite K. unfold number_rule. rewrite opt_run_none by (now rewrite E).
    destruct (words_plain rid ps (b :: body) (S (String.length (plain_line (b :: body)))) true (plain_line (b :: body)) [] was) as (was' & W); auto.
    exists was'. exact W.
  - assert (Rg : 0 <= n <= 4294967295) by (apply (P (HNumber n)); cbn; auto). destruct (nat_digits n) as (N1 & N2 & N3); [lia|].
    cbn [app]. rewrite plain_line_cons. cbn [plain].
    rewrite skip_none by (apply (digits_head is_blank); auto; apply not_digit_in).
    unfold number_rule. rewrite opt_run_some by (auto; reflexivity). rewrite N3.
    assert (U : n <=? u32_max = true) by (unfold u32_max; lia). rewrite U. cbn [append is_blank].
    replace (is_blank " ") with true by reflexivity.
    destruct (words_plain rid ps (b :: body) (S (String.length (plain_line (b :: body)))) true (plain_line (b :: body)) [HNumber n] was) as (was' & W); auto.
    exists was'. exact W.
Qed.
