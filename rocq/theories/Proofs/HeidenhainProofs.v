(** The Heidenhain line grammar: what an accepted word was written as. *)
From Verif Require Import Model.Base Model.Attr Model.Grammar Model.Heidenhain Spec.Text Spec.HeidenhainSpec.
From Verif Require Import Proofs.Tactics Proofs.TextProofs Proofs.StringFacts Proofs.GrammarLex.
Local Open Scope string_scope.
Local Open Scope Z_scope.

Definition head_not (p : ascii -> bool) (t : string) : Prop := match t with String c _ => p c = false | EmptyString => True end.

Lemma head_not_starts p t : head_not p t <-> ~ starts p t.
Proof. destruct t as [|c t]; cbn; [tauto|]. destruct (p c); intuition congruence. Qed.

Lemma lit_ok w t a r : lit w t = HOk a r -> a = w /\ t = (w ++ r)%string.
Proof.
  unfold lit. destruct (prefix w t) eqn:P; intro H; inv H. apply prefix_iff in P as (b & ->). split; [reflexivity|].
  now rewrite drop_app.
Qed.

Lemma lit_app w r : lit w (w ++ r) = HOk w r.
Proof. unfold lit. now rewrite prefix_app, drop_app. Qed.

Lemma lit_fail w t : lit w t = HFail <-> ~ begins w t.
Proof.
  unfold lit, begins. destruct (prefix w t) eqn:P.
  - apply prefix_iff in P. split; [discriminate|tauto].
  - split; [|reflexivity]. intros _ H. apply prefix_iff in H. congruence.
Qed.

Lemma run1_ok p t a r : run1 p t = HOk a r -> t = (a ++ r)%string /\ a <> "" /\ all_chars p a = true /\ head_not p r.
Proof.
  unfold run1. destruct (opt_run p t) as [[x|] t'] eqn:E; intro H; inv H. apply opt_run_spec in E as (-> & (N & A) & B). auto.
Qed.

Lemma run1_app p a r : a <> "" -> all_chars p a = true -> head_not p r -> run1 p (a ++ r) = HOk a r.
Proof. intros N A B. unfold run1. now rewrite opt_run_some. Qed.

Lemma run1_fail p t : head_not p t -> run1 p t = HFail.
Proof. intro H. unfold run1. now rewrite opt_run_none. Qed.

Lemma must_ok {A B} (p : string -> hres A) t (f : A -> string -> hres B) b r :
  must p t f = HOk b r -> exists a t', p t = HOk a t' /\ f a t' = HOk b r.
Proof. unfold must. destruct (p t) as [|a t'|]; intro H; try discriminate. eauto. Qed.

Lemma must_not_fail {A B} (p : string -> hres A) t (f : A -> string -> hres B) :
  (forall a t', f a t' <> HFail) -> must p t f <> HFail.
Proof. unfold must. destruct (p t); intro H; try discriminate. auto. Qed.

Lemma andthen_ok {A B} (x : hres A) (f : A -> string -> hres B) b r :
  andthen x f = HOk b r -> exists a t', x = HOk a t' /\ f a t' = HOk b r.
Proof. destruct x as [|a t'|]; cbn; intro H; try discriminate. eauto. Qed.

Lemma andthen_fail {A B} (x : hres A) (f : A -> string -> hres B) :
  (forall a t', f a t' <> HFail) -> andthen x f = HFail -> x = HFail.
Proof. destruct x; cbn; intros H E; [reflexivity|now apply H in E|discriminate]. Qed.

Lemma letter_is c : is_alpha c = letter c.
Proof. reflexivity. Qed.

Lemma name_char_is c : is_name_char c = name_char c.
Proof. reflexivity. Qed.

Lemma in_set_one x c : in_set (String x "") c = Ascii.eqb c x.
Proof.
  unfold in_set. cbn. destruct (ascii_dec c x) as [->|N]; [now rewrite Ascii.eqb_refl|].
  symmetry. now apply Ascii.eqb_neq.
Qed.

Lemma in_set_two x y c : in_set (String x (String y "")) c = Ascii.eqb c x || Ascii.eqb c y.
Proof.
  unfold in_set. cbn. destruct (ascii_dec c x) as [->|N]; [now rewrite Ascii.eqb_refl|].
  apply Ascii.eqb_neq in N. rewrite N. cbn. destruct (ascii_dec c y) as [->|M]; [now rewrite Ascii.eqb_refl|].
  symmetry. now apply Ascii.eqb_neq.
Qed.

Lemma word_char_is c : is_word_char c = word_char c.
Proof.
  unfold is_word_char, word_char. rewrite letter_is, <- !orb_assoc. f_equal.
  unfold in_set. cbn. repeat match goal with |- context [ascii_dec c ?x] => destruct (ascii_dec c x) as [->|?N] end; try reflexivity.
  apply Ascii.eqb_neq in N, N0, N1. now rewrite N, N0, N1.
Qed.

Lemma all_chars_ext p q s : (forall c, p c = q c) -> all_chars p s = all_chars q s.
Proof. intro H. induction s as [|c s IH]; cbn; [reflexivity|]. now rewrite H, IH. Qed.

Lemma opt_sign cs : in_set "-+" cs = Ascii.eqb cs "-" || Ascii.eqb cs "+".
Proof. apply in_set_two. Qed.

Lemma sign_read t o r : opt_char "-+" t = (o, r) -> t = (opt_chr o ++ r)%string /\ sign_opt o /\ (o = None -> r = t).
Proof.
  intro H. apply opt_char_spec in H as (-> & H). split; [reflexivity|]. split.
  - unfold sign_opt. destruct o as [x|]; [|auto]. rewrite opt_sign in H. apply orb_true_iff in H as [E|E];
      apply Ascii.eqb_eq in E; subst; auto.
  - intros ->. reflexivity.
Qed.

Lemma only_read x t o r : opt_char (String x "") t = (o, r) ->
  t = (opt_chr o ++ r)%string /\ only x o /\ (o = None -> r = t /\ head_not (fun c => Ascii.eqb c x) t).
Proof.
  intro H. apply opt_char_spec in H as (-> & H). split; [reflexivity|]. split.
  - unfold only. destruct o as [y|]; [|auto]. rewrite in_set_one in H. apply Ascii.eqb_eq in H. subst. auto.
  - intros ->. split; [reflexivity|]. cbn. destruct r as [|y r]; cbn; [exact I|]. now rewrite in_set_one in H.
Qed.

Lemma digits_read t o r : opt_run is_digit t = (o, r) ->
  t = (opt_str o ++ r)%string /\ digits_opt o /\ head_not is_digit r /\ (o = None -> r = t).
Proof.
  intro H. apply opt_run_spec in H as (-> & A & B). split; [reflexivity|]. split; [destruct o; exact A|]. split; [exact B|].
  intros ->. reflexivity.
Qed.

(** Digits, a point and digits. *)
Lemma number_read t v t1 d t2 v2 r :
  opt_run is_digit t = (v, t1) -> opt_char "." t1 = (d, t2) -> opt_run is_digit t2 = (v2, r) ->
  t = (opt_str v ++ opt_chr d ++ opt_str v2 ++ r)%string /\ digits_opt v /\ fraction d v2 /\
  (v = None -> d = None -> v2 = None /\ r = t /\ head_not (fun c => Ascii.eqb c ".") t).
Proof.
  intros A B C. apply digits_read in A as (-> & V & H1 & N1). apply only_read in B as (-> & D & N2).
  apply digits_read in C as (-> & V2 & H2 & N3).
  assert (X : d = None -> v2 = None).
  { intros ->. destruct v2 as [x|]; [|reflexivity]. cbn in H1. destruct V2 as (N & A). destruct x as [|c x]; [now elim N|].
    cbn in H1, A. rewrite H1 in A. discriminate. }
  split; [reflexivity|]. split; [exact V|]. split; [repeat split; auto|].
  intros -> ->. rewrite (X eq_refl). split; [reflexivity|]. split; [reflexivity|]. cbn. rewrite (X eq_refl) in N2. cbn in N2. now apply N2.
Qed.

(** What stands behind a word that could have gone on. *)
Definition follows (a : hattr) (r : string) : Prop :=
  match a with
  | HGeneral _ None None None None None None => skip r = r /\ head_not (fun c => Ascii.eqb c "Q" || Ascii.eqb c ".") r
  | HCycle _ _ None None None => skip r = r /\ head_not (Ascii.eqb ".") r
  | HParam _ _ _ None "" None None => skip r = r /\ head_not (Ascii.eqb ".") r
  | HProgram _ _ _ => skip r = r /\ head_not name_char r
  | HComment _ _ _ => r = ""
  | _ => True
  end.

Definition good (read_id : option ascii -> string -> option Z) (a : hattr) (s r : string) : Prop :=
  written read_id a s r /\ proper a /\ ~ is_number a /\ follows a r /\ begins (front a) s /\ front a <> "".

Lemma eqb_flip c d : Ascii.eqb c d = Ascii.eqb d c.
Proof. apply Ascii.eqb_sym. Qed.

Lemma head_not_flip x t : head_not (fun c => Ascii.eqb c x) t -> head_not (Ascii.eqb x) t.
Proof. destruct t as [|c t]; cbn; [auto|]. now rewrite eqb_flip. Qed.

Lemma blanks_skip t : exists b, blanks b /\ t = (b ++ skip t)%string.
Proof. destruct (skip_spec t) as (b & E & A & _). eauto. Qed.

Lemma cycle_ok rid t a r : cycle_rule t = HOk a r -> exists s, t = (s ++ r)%string /\ good rid a s r.
Proof.
  unfold cycle_rule. intro H. apply andthen_ok in H as (x & t1 & E & H). apply lit_ok in E as (-> & ->).
  apply must_ok in H as (b1 & t2 & E & H). apply run1_ok in E as (-> & N1 & B1 & _).
  apply must_ok in H as (w & t3 & E & H).
  assert (W : (w = "DEF" \/ w = "CALL") /\ t2 = (w ++ t3)%string).
  { unfold either in E. destruct (lit "DEF" t2) as [|y z|] eqn:L; [apply lit_ok in E as (-> & ->); auto| |discriminate].
    inv E. apply lit_ok in L as (-> & ->). auto. }
  destruct W as (W & ->). destruct (blanks_skip t3) as (b2 & B2 & T). set (t4 := skip t3) in *.
  destruct (opt_run is_digit t4) as [v t5] eqn:E1. destruct (opt_char "." t5) as [d t6] eqn:E2.
  destruct (opt_run is_digit t6) as [v2 t7] eqn:E3. injection H as <- <-.
  destruct (number_read _ _ _ _ _ _ _ E1 E2 E3) as (T4 & V & F & O).
  exists ("CYCL" ++ b1 ++ w ++ b2 ++ opt_str v ++ opt_chr d ++ opt_str v2)%string. split.
  - rewrite T, T4. now rewrite !string_app_assoc.
  - split; [exists b1, b2; repeat split; auto|]. split; [cbn; auto|]. split; [cbn; tauto|]. split.
    + unfold follows. destruct v, d; try exact I. destruct v2; [exact I|]. destruct (O eq_refl eq_refl) as (_ & R & D).
      rewrite R. split; [unfold t4; apply skip_skip|]. now apply head_not_flip.
    + split; [eexists; reflexivity|discriminate].
Qed.

Lemma param_ok rid t a r : param_rule rid t = HOk a r -> exists s, t = (s ++ r)%string /\ good rid a s r.
Proof.
  unfold param_rule. intro H. apply andthen_ok in H as (x & t1 & E & H). apply lit_ok in E as (-> & ->).
  apply must_ok in H as (id & t2 & E & H).
  unfold int_rule in E. destruct (opt_char "-+" t1) as [isg t1'] eqn:S. apply sign_read in S as (-> & IS & _).
  destruct (opt_run is_digit t1') as [[ds|] t1''] eqn:D; [|discriminate]. destruct (rid isg ds) as [n|] eqn:RD; [|discriminate].
  injection E as -> ->. apply digits_read in D as (-> & (N & A) & _ & _).
  apply must_ok in H as (e & t3 & E & H). destruct (blanks_skip t2) as (b1 & B1 & T2). apply lit_ok in E as (-> & E).
  destruct (blanks_skip t3) as (b2 & B2 & T3). set (t4 := skip t3) in *.
  destruct (opt_char "-+" t4) as [sg t5] eqn:E0. destruct (opt_run is_digit t5) as [v t6] eqn:E1.
  destruct (opt_char "." t6) as [d t7] eqn:E2. destruct (opt_run is_digit t7) as [v2 t8] eqn:E3. injection H as <- <-.
  apply sign_read in E0 as (T4 & SG & N0).
  destruct (number_read _ _ _ _ _ _ _ E1 E2 E3) as (T5 & V & F & O).
  exists ("Q" ++ opt_chr isg ++ ds ++ b1 ++ String "=" "" ++ b2 ++ opt_chr sg ++ opt_str v ++ opt_chr d ++ opt_str v2)%string. split.
  - rewrite T2, E, T3, T4, T5. repeat (cbn; rewrite ?string_app_assoc). reflexivity.
  - split.
    + exists isg, ds, b1, b2. repeat (split; [assumption|]). reflexivity.
    + split.
      { cbn. split; [reflexivity|]. split; [reflexivity|]. split; [exact SG|]. split; [|exact F].
        destruct v as [x|]; cbn in *; [tauto|reflexivity]. }
      split; [cbn; tauto|]. split.
      * unfold follows. destruct sg; [exact I|]. destruct v as [x|]; cbn.
        { destruct x; [now elim (proj1 V)|exact I]. }
        destruct d; [exact I|]. destruct v2; [exact I|]. destruct (O eq_refl eq_refl) as (_ & R & D).
        rewrite R, (N0 eq_refl). split; [unfold t4; apply skip_skip|]. apply head_not_flip. now rewrite <- (N0 eq_refl).
      * split; [eexists; reflexivity|discriminate].
Qed.

Lemma comment_ok rid t a r : hcomment_rule t = HOk a r -> exists s, t = (s ++ r)%string /\ good rid a s r.
Proof.
  unfold hcomment_rule. intro H. apply andthen_ok in H as (x & t1 & E & H). apply lit_ok in E as (-> & ->).
  pose proof (span_spec (fun c => negb (Ascii.eqb c "~")) t1) as S. destruct (span _ t1) as [v t2]. destruct S as (-> & A & B).
  destruct t2 as [|c [|]]; inv H.
  - exists (";" ++ v)%string. split; [cbn; now rewrite !string_app_nil|].
    split; [split; [reflexivity|cbn; now rewrite string_app_nil]|]. split; [cbn; auto|]. split; [cbn; tauto|]. split; [reflexivity|].
    split; [eexists; reflexivity|discriminate].
  - apply negb_false_iff, Ascii.eqb_eq in B. subst c.
    exists (";" ++ v ++ "~")%string. split; [cbn; now rewrite !string_app_nil|].
    split; [split; reflexivity|]. split; [cbn; auto|]. split; [cbn; tauto|]. split; [reflexivity|].
    split; [eexists; reflexivity|discriminate].
Qed.

Lemma begin_ok t be r : begin_word t = HOk be r -> t = (begin_text be ++ r)%string.
Proof.
  unfold begin_word. destruct (sym_match ["BEGIN"; "END"] t) as [w|] eqn:E; [|discriminate].
  apply sym_match_some in E as (I & P & _). apply prefix_iff in P as (x & ->).
  destruct I as [<-|[<-|[]]]; intro H; inv H; cbn [begin_text]; f_equal; symmetry; [apply (drop_app "BEGIN")|apply (drop_app "END")].
Qed.

Lemma unit_ok t u r : unit_word t = HOk u r -> t = (unit_text u ++ r)%string.
Proof.
  unfold unit_word. destruct (sym_match ["MM"; "INCH"] t) as [w|] eqn:E; [|discriminate].
  apply sym_match_some in E as (I & P & _). apply prefix_iff in P as (x & ->).
  destruct I as [<-|[<-|[]]]; intro H; inv H; cbn [unit_text]; f_equal; symmetry; [apply (drop_app "MM")|apply (drop_app "INCH")].
Qed.

Lemma space_blank c : is_space c = false -> is_blank c = false.
Proof. unfold is_space, is_blank. intro H. destruct (Ascii.eqb c " ") eqn:E; [apply Ascii.eqb_eq in E; subst; discriminate H|].
  destruct (Ascii.eqb c "009") eqn:E2; [apply Ascii.eqb_eq in E2; subst; discriminate H|]. cbn.
  revert H E E2. destruct c as [[] [] [] [] [] [] [] []]; cbn; intros; congruence || reflexivity. Qed.

Lemma program_ok rid t a r : program_rule t = HOk a r -> exists s, t = (s ++ r)%string /\ good rid a s r.
Proof.
  unfold program_rule. intro H. apply andthen_ok in H as (be & t1 & E & H). apply begin_ok in E as ->.
  apply must_ok in H as (b1 & t2 & E & H). apply run1_ok in E as (-> & N1 & B1 & _).
  apply must_ok in H as (x & t3 & E & H). apply lit_ok in E as (-> & ->).
  apply must_ok in H as (b2 & t4 & E & H). apply run1_ok in E as (-> & N2 & B2 & H4).
  pose proof (span_spec is_name_char t4) as S. destruct (span is_name_char t4) as [name t5]. destruct S as (-> & A & _).
  apply must_ok in H as (b3 & t6 & E & H). apply run1_ok in E as (-> & N3 & B3 & _).
  apply must_ok in H as (u & t7 & E & H). apply unit_ok in E as ->.
  apply must_ok in H as (e & t8 & E & H).
  apply must_ok in H as (y & t9 & N & H). injection H as <- <-.
  assert (Q : t9 = t8 /\ head_not is_name_char t8).
  { destruct t8 as [|c t8]; cbn in N; [inv N; cbn; auto|]. destruct (is_name_char c) eqn:C; inv N. auto. }
  destruct Q as (-> & Q).
  assert (X : t7 = (e ++ t8)%string /\ all_chars is_space e = true /\ (e = "" -> t8 = "") /\ skip t8 = t8).
  { unfold either in E. destruct (run1 is_space t7) as [|e' t8'|] eqn:R.
    - destruct t7; inv E. auto.
    - inv E. apply run1_ok in R as (-> & Ne & Ae & He). repeat split; auto; [intro X; contradiction|].
      apply skip_none. destruct t8; cbn in *; [exact I|]. now apply space_blank.
    - discriminate. }
  destruct X as (-> & Ae & Ne & K).
  exists (begin_text be ++ b1 ++ "PGM" ++ b2 ++ name ++ b3 ++ unit_text u ++ e)%string. split.
  { now rewrite !string_app_assoc. }
  split; [exists b1, b2, b3, e; unfold blanks1; repeat (split; [auto|]); auto|].
  split.
  { cbn. split; [|exact A]. intro Z. subst name. cbn in H4. destruct b3 as [|c b3]; [now elim N3|].
    cbn in H4, B3. rewrite H4 in B3. discriminate. }
  split; [cbn; tauto|]. split; [cbn; auto|]. split; [eexists; reflexivity|]. destruct be; discriminate.
Qed.

Lemma quoted_ok t w r : quoted t = HOk w r -> t = (w ++ r)%string /\
  exists v, v <> "" /\ all_chars (fun c => letter c || is_digit c) v = true /\ w = ("""" ++ v ++ """")%string.
Proof.
  unfold quoted. intro H. apply andthen_ok in H as (x & t1 & E & H). apply lit_ok in E as (-> & ->).
  apply must_ok in H as (v & t2 & E & H). apply run1_ok in E as (-> & N & A & _).
  apply must_ok in H as (y & t3 & E & H). apply lit_ok in E as (-> & ->). injection H as <- <-.
  split; [cbn; now rewrite !string_app_assoc|]. exists v. repeat split; auto.
Qed.

Lemma general_word_ok t w r : general_word t = HOk w r ->
  ~ begins "CYCL" t -> ~ begins "Q" t -> ~ begins "BEGIN" t -> ~ begins "END" t ->
  t = (w ++ r)%string /\ entry_word w /\ w <> "".
Proof.
  unfold general_word, entry_word. intros H R1 R2 R3 R4. destruct (sym_match operations t) as [o|] eqn:E.
  - inv H. apply sym_match_some in E as (I & P & _). apply prefix_iff in P as (x & ->). rewrite drop_app. split; [reflexivity|].
    split; [left; exact I|]. intros ->. cbn in I. intuition discriminate.
  - unfold either in H. destruct (run1 is_word_char t) as [|w' r'|] eqn:R; [|inv H|discriminate].
    + destruct (lit "#" t) as [|w' r'|] eqn:L; [|inv H; apply lit_ok in L as (-> & ->); split; [reflexivity|]; split; [tauto|discriminate]|discriminate].
      destruct (lit "=" t) as [|w' r'|] eqn:L2; [|inv H; apply lit_ok in L2 as (-> & ->); split; [reflexivity|]; split; [tauto|discriminate]|discriminate].
      apply quoted_ok in H as (-> & v & N & A & ->). split; [reflexivity|]. split; [|discriminate]. right. right. right. right. eauto.
    + apply run1_ok in R as (-> & N & A & _). split; [reflexivity|]. split; [|exact N]. right. left. split; [exact N|].
      split; [rewrite <- A; apply all_chars_ext; intro; now rewrite word_char_is|].
      intros [(x & ->)|[(x & ->)|[(x & ->)|(x & ->)]]]; [apply R1|apply R2|apply R3|apply R4]; eexists; rewrite string_app_assoc; reflexivity.
Qed.

Lemma general_ok rid t a r : general_rule t = HOk a r ->
  ~ begins "CYCL" t -> ~ begins "Q" t -> ~ begins "BEGIN" t -> ~ begins "END" t ->
  exists s, t = (s ++ r)%string /\ good rid a s r.
Proof.
  unfold general_rule. intros H R1 R2 R3 R4. apply andthen_ok in H as (w & t1 & E & H).
  apply general_word_ok in E as (-> & W & NW); auto. destruct (blanks_skip t1) as (b & B & T). set (t2 := skip t1) in *.
  destruct (opt_char "-+" t2) as [sg t3] eqn:E0. destruct (opt_char "Q" t3) as [nm t4] eqn:EQ.
  destruct (opt_run is_digit t4) as [v t5] eqn:E1. destruct (opt_char "." t5) as [d t6] eqn:E2.
  destruct (opt_run is_digit t6) as [v2 t7] eqn:E3. destruct (opt_char "~" t7) as [tl t8] eqn:E4. injection H as <- <-.
  apply sign_read in E0 as (T2 & SG & N0). apply only_read in EQ as (T3 & NM & NQ).
  destruct (number_read _ _ _ _ _ _ _ E1 E2 E3) as (T4 & V & F & O). apply only_read in E4 as (T7 & TL & NT).
  exists (w ++ b ++ opt_chr sg ++ opt_chr nm ++ opt_str v ++ opt_chr d ++ opt_str v2 ++ opt_chr tl)%string. split.
  - rewrite T, T2, T3, T4, T7. now rewrite !string_app_assoc.
  - split; [exists b; auto|]. split; [cbn; repeat (split; [auto|]); auto|].
    split; [cbn; tauto|]. split.
    + unfold follows. destruct sg; [exact I|]. destruct nm; [exact I|]. destruct v; [exact I|]. destruct d; [exact I|].
      destruct v2; [exact I|]. destruct tl; [exact I|].
      destruct (O eq_refl eq_refl) as (_ & R & D). destruct (NT eq_refl) as (R8 & _). destruct (NQ eq_refl) as (R4' & HQ).
      rewrite R8, R, R4', (N0 eq_refl). split; [unfold t2; apply skip_skip|]. rewrite (N0 eq_refl) in *. rewrite R4' in D.
      destruct t2 as [|c t2']; cbn in *; [exact I|]. now rewrite HQ, D.
    + split; [eexists; reflexivity|exact NW].
Qed.

Lemma cycle_fail t : cycle_rule t = HFail -> ~ begins "CYCL" t.
Proof.
  intro H. apply lit_fail. apply andthen_fail in H; [exact H|]. intros a t'. apply must_not_fail. intros ? ?. apply must_not_fail.
  intros ? t3. destruct (opt_run is_digit (skip t3)) as [v t5]. destruct (opt_char "." t5) as [d t6].
  destruct (opt_run is_digit t6). discriminate.
Qed.

Lemma param_fail rid t : param_rule rid t = HFail -> ~ begins "Q" t.
Proof.
  intro H. apply lit_fail. apply andthen_fail in H; [exact H|]. intros a t'. apply must_not_fail. intros ? ?. apply must_not_fail.
  intros ? t3. destruct (opt_char "-+" (skip t3)) as [? t4]. destruct (opt_run is_digit t4) as [v t5]. destruct (opt_char "." t5) as [d t6].
  destruct (opt_run is_digit t6). discriminate.
Qed.

Lemma begin_fail t : begin_word t = HFail <-> ~ begins "BEGIN" t /\ ~ begins "END" t.
Proof.
  unfold begin_word. destruct (sym_match ["BEGIN"; "END"] t) as [w|] eqn:E.
  - apply sym_match_some in E as (I & P & _). apply prefix_iff in P. destruct I as [<-|[<-|[]]]; split; try discriminate; unfold begins; tauto.
  - split; [|reflexivity]. intros _. rewrite sym_match_none in E. split; intros (x & ->).
    + specialize (E "BEGIN" ltac:(cbn; auto)). rewrite prefix_app in E. discriminate.
    + specialize (E "END" ltac:(cbn; auto)). rewrite prefix_app in E. discriminate.
Qed.

Lemma program_fail t : program_rule t = HFail -> ~ begins "BEGIN" t /\ ~ begins "END" t.
Proof.
  intro H. apply begin_fail. apply andthen_fail in H; [exact H|]. intros a t'. apply must_not_fail. intros ? ?. apply must_not_fail.
  intros ? ?. apply must_not_fail. intros ? t3. destruct (span is_name_char t3). apply must_not_fail. intros ? ?. apply must_not_fail.
  intros ? ?. apply must_not_fail. intros ? ?. apply must_not_fail. discriminate.
Qed.

Lemma word_ok rid t was was' a r : word_rule rid t was = (was', HOk a r) ->
  exists b s, blanks b /\ t = (b ++ s ++ r)%string /\ good rid a s r.
Proof.
  unfold word_rule. intro H. destruct (blanks_skip t) as (b & B & T). set (t' := skip t) in *.
  cut (exists s, t' = (s ++ r)%string /\ good rid a s r).
  { intros (s & E & G). exists b, s. rewrite <- E. auto. }
  destruct (cycle_rule t') as [|a' r'|] eqn:C; [|injection H as _ <- <-; eapply cycle_ok; eassumption|discriminate].
  injection H as _ H. unfold either in H. destruct (param_rule rid t') as [|a' r'|] eqn:P; [|injection H as <- <-; eapply param_ok; eassumption|discriminate].
  destruct (hcomment_rule t') as [|a' r'|] eqn:M; [|injection H as <- <-; eapply comment_ok; eassumption|discriminate].
  destruct (program_rule t') as [|a' r'|] eqn:G; [|injection H as <- <-; eapply program_ok; eassumption|discriminate].
  apply cycle_fail in C. apply param_fail in P. apply program_fail in G as (G1 & G2). eapply general_ok; eauto.
Qed.

(** ** Lines *)

Fixpoint good_all rid (vs : list hattr) (s rest : string) : Prop :=
  match vs with
  | [] => s = ""
  | a :: vs' => exists b s1 s2, blanks b /\ s = (b ++ s1 ++ s2)%string /\ good rid a s1 (s2 ++ rest)%string /\ good_all rid vs' s2 rest
  end.

Lemma good_written rid vs : forall s rest, good_all rid vs s rest -> written_all rid vs s rest.
Proof.
  induction vs as [|a vs IH]; cbn; intros s rest H; [exact H|]. destruct H as (b & s1 & s2 & B & E & G & H).
  exists b, s1, s2. split; [exact B|]. split; [exact E|]. split; [apply G|auto].
Qed.

Lemma good_proper rid vs : forall s rest, good_all rid vs s rest -> forall a, In a vs -> proper a /\ ~ is_number a.
Proof.
  induction vs as [|a vs IH]; cbn; intros s rest H; [tauto|]. destruct H as (b & s1 & s2 & _ & _ & G & H).
  intros x [<-|I]; [split; apply G|eauto].
Qed.

Lemma blanks_front b s t : blanks b -> skip (b ++ s) = (b ++ s)%string -> s <> "" -> (b ++ s)%string = (s ++ t)%string -> b = "".
Proof.
  intros B K N _. destruct b as [|c b]; [reflexivity|]. exfalso. unfold blanks in B. cbn in B. apply andb_true_iff in B as [C _].
  destruct (skip_spec ((String c b) ++ s)) as (x & _ & _ & H). rewrite K in H. cbn in H. congruence.
Qed.

Lemma starts_front p f s t : f <> "" -> s = (f ++ t)%string -> starts p f -> starts p s.
Proof. intros N ->. destruct f; [now elim N|]. auto. Qed.

Lemma follows_no_clash rid a b bl s1 x : follows a (bl ++ s1 ++ x)%string -> blanks bl -> good rid b s1 x -> ~ clash a b.
Proof.
  intros F B G. destruct G as (_ & _ & _ & _ & (y & E) & N).
  assert (K : skip (bl ++ s1 ++ x)%string = (bl ++ s1 ++ x)%string -> bl = "").
  { intro K. apply (blanks_front bl (s1 ++ x) ""); auto.
    - intro Z. apply N. destruct (front b); [reflexivity|]. subst s1. discriminate Z.
    - destruct bl as [|c bl]; [cbn; now rewrite string_app_nil|]. exfalso. unfold blanks in B. cbn in B. apply andb_true_iff in B as [C _].
      destruct (skip_spec (String c bl ++ s1 ++ x)) as (z & _ & _ & H). rewrite K in H. cbn in H. congruence. }
  assert (S : forall p, head_not p (bl ++ s1 ++ x)%string -> skip (bl ++ s1 ++ x)%string = (bl ++ s1 ++ x)%string -> ~ starts p (front b)).
  { intros p H K' St. rewrite (K K') in H. cbn in H. apply head_not_starts in H. apply H.
    apply (starts_front p (front b) _ (y ++ x)); auto. subst s1. now rewrite string_app_assoc. }
  destruct a; cbn in F |- *; try tauto.
  - exfalso. destruct bl; [|discriminate F]. destruct s1; [|discriminate F]. apply N. destruct (front b); [reflexivity|discriminate E].
  - apply S; tauto.
  - destruct sign, name, value, dot, value2, tilde; try tauto. apply S; tauto.
  - destruct value, dot, value2; try tauto. apply S; tauto.
  - destruct sign; [tauto|]. destruct value; [|tauto]. destruct dot; [tauto|]. destruct value2; [tauto|]. apply S; tauto.
Qed.

Lemma good_no_clash rid vs : forall s rest, good_all rid vs s rest -> no_clash vs.
Proof.
  induction vs as [|a vs IH]; intros s rest H; [exact I|]. destruct H as (b & s1 & s2 & B & E & G & H).
  destruct vs as [|a' vs]; [exact I|]. split; [|eapply IH; exact H].
  destruct H as (b' & s1' & s2' & B' & E' & G' & _). subst s2. destruct G as (_ & _ & _ & F & _).
  eapply follows_no_clash; [|exact B'|exact G']. rewrite !string_app_assoc in F. exact F.
Qed.

Definition suffix (r t : string) : Prop := exists x, t = (x ++ r)%string.

Lemma suffix_refl t : suffix t t.
Proof. exists "". reflexivity. Qed.
Lemma suffix_trans a b c : suffix a b -> suffix b c -> suffix a c.
Proof. intros (x & ->) (y & ->). exists (y ++ x)%string. now rewrite string_app_assoc. Qed.
Lemma suffix_skip t : suffix (skip t) t.
Proof. destruct (skip_spec t) as (b & E & _). exists b. exact E. Qed.

(** A rule goes on from, or throws at, a place in its text. *)
Definition inside {A} (p : string -> hres A) : Prop :=
  forall t, match p t with HOk _ r | HThrow r => suffix r t | HFail => True end.

Lemma inside_lit w : inside (lit w).
Proof. intro t. destruct (lit w t) eqn:E; [exact I|apply lit_ok in E as (_ & ->); eexists; reflexivity|]. unfold lit in E. destruct (prefix w t); discriminate. Qed.

Lemma inside_run1 p : inside (run1 p).
Proof. intro t. destruct (run1 p t) eqn:E; [exact I|apply run1_ok in E as (-> & _); eexists; reflexivity|]. unfold run1 in E. destruct (opt_run p t) as [[]]; discriminate. Qed.

Lemma inside_either {A} (p q : string -> hres A) : inside p -> inside q -> inside (either p q).
Proof. intros P Q t. unfold either. specialize (P t). specialize (Q t). destruct (p t); auto. Qed.

Lemma inside_must {A B} (p : string -> hres A) (f : A -> string -> hres B) t0 t :
  inside p -> suffix t t0 -> (forall a, inside (f a)) -> match must p t f with HOk _ r | HThrow r => suffix r t0 | HFail => True end.
Proof.
  intros P S F. unfold must. specialize (P t). destruct (p t) as [|a r|r]; [exact S| |eapply suffix_trans; eauto].
  specialize (F a r). destruct (f a r); [exact I| |]; repeat (eapply suffix_trans; eauto).
Qed.

Lemma inside_then {A B} (p : string -> hres A) (f : A -> string -> hres B) :
  inside p -> (forall a, inside (f a)) -> inside (fun t => andthen (p t) f).
Proof.
  intros P F t. specialize (P t). destruct (p t) as [|a r|r]; cbn; [exact I| |exact P].
  specialize (F a r). destruct (f a r); [exact I| |]; eapply suffix_trans; eauto.
Qed.

Lemma opt_char_suffix cs t o r : opt_char cs t = (o, r) -> suffix r t.
Proof. intro H. apply opt_char_spec in H as (-> & _). eexists. reflexivity. Qed.
Lemma opt_run_suffix p t o r : opt_run p t = (o, r) -> suffix r t.
Proof. intro H. apply opt_run_spec in H as (-> & _). eexists. reflexivity. Qed.

Lemma inside_cycle : inside cycle_rule.
Proof.
  intro t. destruct (cycle_rule t) as [|a r|r] eqn:E; [exact I|apply (cycle_ok (fun _ _ => None)) in E as (s & -> & _); eexists; reflexivity|].
  assert (X : inside cycle_rule); [|specialize (X t); now rewrite E in X].
  apply inside_then; [apply inside_lit|]. intros ? u. apply inside_must; [apply inside_run1|apply suffix_refl|].
  intros ? v. apply inside_must; [apply inside_either; apply inside_lit|apply suffix_refl|]. intros ? w.
  destruct (opt_run is_digit (skip w)) as [x1 w1] eqn:E1. destruct (opt_char "." w1) as [x2 w2] eqn:E2. destruct (opt_run is_digit w2) as [x3 w3] eqn:E3.
  apply opt_run_suffix in E1, E3. apply opt_char_suffix in E2. repeat (eapply suffix_trans; [eassumption|]). apply suffix_skip.
Qed.

Lemma inside_int rid : inside (int_rule rid).
Proof.
  intro t. unfold int_rule. destruct (opt_char "-+" t) as [o r] eqn:E. apply opt_char_suffix in E.
  destruct (opt_run is_digit r) as [[ds|] r'] eqn:E2; [|exact I]. apply opt_run_suffix in E2. destruct (rid o ds); [|exact I].
  eapply suffix_trans; eassumption.
Qed.

Lemma inside_param rid : inside (param_rule rid).
Proof.
  apply inside_then; [apply inside_lit|]. intros ? u. apply inside_must; [apply inside_int|apply suffix_refl|].
  intros ? v. apply inside_must; [apply inside_lit|apply suffix_skip|]. intros ? w.
  destruct (opt_char "-+" (skip w)) as [x0 w0] eqn:E0.
  destruct (opt_run is_digit w0) as [x1 w1] eqn:E1. destruct (opt_char "." w1) as [x2 w2] eqn:E2. destruct (opt_run is_digit w2) as [x3 w3] eqn:E3.
  apply opt_run_suffix in E1, E3. apply opt_char_suffix in E0, E2. repeat (eapply suffix_trans; [eassumption|]). apply suffix_skip.
Qed.

Lemma inside_comment : inside hcomment_rule.
Proof.
  apply inside_then; [apply inside_lit|]. intros ? u.
  pose proof (span_spec (fun c => negb (Ascii.eqb c "~")) u) as S. destruct (span _ u) as [v t]. destruct S as (-> & _ & _).
  destruct t as [|c [|c' t]]; cbn; [exists (v)| exists (v ++ String c "")%string|exists v]; cbn; now rewrite ?string_app_nil.
Qed.

Lemma inside_begin : inside begin_word.
Proof. intro t. destruct (begin_word t) eqn:E; [exact I|apply begin_ok in E as ->; eexists; reflexivity|].
  unfold begin_word in E. destruct (sym_match _ t) eqn:M; [|discriminate]. apply sym_match_some in M as ([<-|[<-|[]]] & _); discriminate. Qed.
Lemma inside_unit : inside unit_word.
Proof. intro t. destruct (unit_word t) eqn:E; [exact I|apply unit_ok in E as ->; eexists; reflexivity|].
  unfold unit_word in E. destruct (sym_match _ t) eqn:M; [|discriminate]. apply sym_match_some in M as ([<-|[<-|[]]] & _); discriminate. Qed.
Lemma inside_eoi : inside eoi.
Proof. intros [|c t]; cbn; [apply suffix_refl|exact I]. Qed.
Lemma inside_not p : inside (not_char p).
Proof. intros [|c t]; cbn; [apply suffix_refl|]. destruct (p c); [exact I|apply suffix_refl]. Qed.

Lemma inside_program : inside program_rule.
Proof.
  apply inside_then; [apply inside_begin|]. intros ? u. apply inside_must; [apply inside_run1|apply suffix_refl|].
  intros ? v. apply inside_must; [apply inside_lit|apply suffix_refl|]. intros ? w. apply inside_must; [apply inside_run1|apply suffix_refl|].
  intros ? x. pose proof (span_spec is_name_char x) as S. destruct (span is_name_char x) as [n y]. destruct S as (-> & _ & _).
  apply inside_must; [apply inside_run1|eexists; reflexivity|]. intros ? z. apply inside_must; [apply inside_unit|apply suffix_refl|].
  intros ? z1. apply inside_must; [apply inside_either; [apply inside_run1|apply inside_eoi]|apply suffix_refl|].
  intros ? z2. apply inside_must; [apply inside_not|apply suffix_refl|]. intros ? z3. apply suffix_refl.
Qed.

Lemma inside_general : inside general_rule.
Proof.
  apply inside_then.
  - intro t. unfold general_word. destruct (sym_match operations t) as [w|] eqn:M.
    + apply sym_match_some in M as (_ & P & _). apply prefix_iff in P as (x & ->). rewrite drop_app. eexists. reflexivity.
    + apply inside_either; [apply inside_run1|]. apply inside_either; [apply inside_lit|]. apply inside_either; [apply inside_lit|].
      apply inside_then; [apply inside_lit|]. intros ? u. apply inside_must; [apply inside_run1|apply suffix_refl|].
      intros ? v. apply inside_must; [apply inside_lit|apply suffix_refl|]. intros ? z. apply suffix_refl.
  - intros ? w. destruct (opt_char "-+" (skip w)) as [x0 w0] eqn:E0. destruct (opt_char "Q" w0) as [x0' w0'] eqn:E0'.
    destruct (opt_run is_digit w0') as [x1 w1] eqn:E1. destruct (opt_char "." w1) as [x2 w2] eqn:E2. destruct (opt_run is_digit w2) as [x3 w3] eqn:E3.
    destruct (opt_char "~" w3) as [x4 w4] eqn:E4.
    apply opt_run_suffix in E1, E3. apply opt_char_suffix in E0, E0', E2, E4. repeat (eapply suffix_trans; [eassumption|]). apply suffix_skip.
Qed.

Lemma inside_word rid was : inside (fun t => snd (word_rule rid t was)).
Proof.
  intro t. unfold word_rule. pose proof (inside_cycle (skip t)) as C. destruct (cycle_rule (skip t)) as [|a r|r]; cbn.
  - assert (X : inside (either (param_rule rid) (either hcomment_rule (either program_rule general_rule)))).
    { apply inside_either; [apply inside_param|]. apply inside_either; [apply inside_comment|].
      apply inside_either; [apply inside_program|apply inside_general]. }
    specialize (X (skip t)). destruct (either _ _ (skip t)); [exact I| |]; (eapply suffix_trans; [exact X|apply suffix_skip]).
  - eapply suffix_trans; [exact C|apply suffix_skip].
  - eapply suffix_trans; [exact C|apply suffix_skip].
Qed.

Lemma good_nonempty rid a s r : good rid a s r -> s <> "".
Proof. intros (_ & _ & _ & _ & (x & ->) & N) E. apply N. destruct (front a); [reflexivity|discriminate]. Qed.

Lemma words_ok rid ps fuel : forall first t v was was' vs res,
  words rid ps fuel first t v was = (was', vs, res) -> (String.length t < fuel)%nat ->
  exists body s rest, vs = (v ++ body)%list /\ t = (s ++ rest)%string /\ good_all rid body s rest /\
    match res with
    | HTrue => blanks rest /\ (first = true -> body <> [])
    | HThrown r => suffix r rest
    end.
Proof.
  induction fuel as [|f IH]; intros first t v was was' vs res H L; [lia|]. cbn [words] in H.
  pose proof (inside_word rid was t) as In'. destruct (word_rule rid t was) as [was1 [|a r|r]] eqn:W; cbn in In'.
  - exists [], "", t. destruct first.
    + inv H. split; [now rewrite app_nil_r|]. split; [reflexivity|]. split; [reflexivity|].
      destruct ps; [apply suffix_skip|apply suffix_refl].
    + destruct (blanks_skip t) as (b & B & E). destruct (skip t) as [|c r] eqn:K; inv H; (split; [now rewrite app_nil_r|]); (split; [reflexivity|]); (split; [reflexivity|]).
      * rewrite string_app_nil. split; [exact B|discriminate].
      * exists b. reflexivity.
  - destruct (word_ok _ _ _ _ _ _ W) as (b & s & B & -> & G). pose proof (good_nonempty _ _ _ _ G) as N.
    apply IH in H; [|rewrite !string_app_length in L; destruct s; [now elim N|cbn in L; lia]].
    destruct H as (body & s2 & rest & -> & -> & GA & R). exists (a :: body), (b ++ s ++ s2)%string, rest.
    split; [now rewrite <- app_assoc|]. split; [now rewrite !string_app_assoc|]. split.
    + exists b, s, s2. auto.
    + destruct res; [|exact R]. split; [apply R|discriminate].
  - inv H. exists [], "", t. split; [now rewrite app_nil_r|]. split; [reflexivity|]. split; [reflexivity|]. rewrite W in In'. exact In'.
Qed.

Lemma number_ok t n r : number_rule t = HOk n r ->
  exists ds c, t = (ds ++ String c r)%string /\ denotes ds n /\ is_blank c = true /\ 0 <= n <= 4294967295.
Proof.
  unfold number_rule. destruct (opt_run is_digit t) as [[ds|] t'] eqn:E; [|discriminate]. apply digits_read in E as (-> & (N & A) & _).
  destruct (digits_val ds <=? u32_max) eqn:U; [|discriminate]. destruct t' as [|c t']; [discriminate|]. destruct (is_blank c) eqn:B; [|discriminate].
  intro H. inv H. exists ds, c. repeat split; auto; [now apply digits_val_nonneg|]. unfold u32_max in U. lia.
Qed.

Lemma inside_number : inside number_rule.
Proof.
  intro t. unfold number_rule. destruct (opt_run is_digit t) as [[ds|] t'] eqn:E; [|exact I]. apply opt_run_suffix in E.
  destruct (_ <=? _); [|exact I]. destruct t' as [|c t']; [exact E|]. destruct (is_blank c); [|exact E].
  eapply suffix_trans; [|exact E]. exists (String c ""). reflexivity.
Qed.

(** What a line amounts to, accepted or not. *)
Lemma line_ok rid ps t was was' vs res : line_rule rid ps t was = (was', vs, res) ->
  exists num body s rest, vs = (num ++ body)%list /\ (num = [] \/ exists n, num = [HNumber n]) /\
    t = (s ++ rest)%string /\ written_all rid vs s rest /\
    (forall a, In a vs -> proper a) /\ (forall a, In a body -> ~ is_number a) /\ no_clash body /\
    match res with
    | HTrue => blanks rest /\ body <> []
    | HThrown r => suffix r rest
    end.
Proof.
  unfold line_rule. intro H. destruct (blanks_skip t) as (b & B & E). set (u := skip t) in *. clearbody u.
  pose proof (inside_number u) as IN. destruct (number_rule u) as [|n r|r] eqn:Nu.
  - apply words_ok in H; [|lia]. destruct H as (body & s & rest & -> & -> & G & R). cbn [app] in *.
    pose proof (good_proper _ _ _ _ G) as P. pose proof (good_no_clash _ _ _ _ G) as C.
    destruct body as [|a body].
    + cbn in G. subst s. cbn in E. exists [], [], "", t. split; [reflexivity|]. split; [auto|]. split; [reflexivity|]. split; [reflexivity|].
      split; [intros ? []|]. split; [intros ? []|]. split; [exact I|]. subst t. destruct res.
      * exfalso. now apply R.
      * eapply suffix_trans; [exact R|]. eexists. reflexivity.
    + exists [], (a :: body), (b ++ s)%string, rest. split; [reflexivity|]. split; [auto|]. split; [rewrite string_app_assoc; exact E|].
      split.
      * destruct G as (b' & s1 & s2 & B' & -> & G' & GA). exists (b ++ b')%string, s1, s2. split; [unfold blanks in *; now rewrite all_chars_app, B, B'|].
        split; [now rewrite !string_app_assoc|]. split; [apply G'|]. now apply good_written.
      * split; [intros x I; now apply P|]. split; [intros x I; now apply P|]. split; [exact C|]. destruct res; [split; [apply R|discriminate]|exact R].
  - apply words_ok in H; [|lia]. destruct H as (body & s & rest & -> & -> & G & R).
    destruct (number_ok _ _ _ Nu) as (ds & c & Eu & D & Bc & Rg). subst u.
    exists [HNumber n], body, (b ++ (ds ++ String c "") ++ s)%string, rest. split; [reflexivity|]. split; [eauto|].
    split; [rewrite E, !string_app_assoc; reflexivity|]. split.
    + cbn [app written_all]. exists b, (ds ++ String c "")%string, s. split; [exact B|]. split; [reflexivity|]. split.
      * exists ds, c. auto.
      * now apply good_written.
    + split; [|split; [intros a I; eapply good_proper; eauto|split; [eapply good_no_clash; eauto|]]].
      * intros a [<-|I]; [exact Rg|eapply good_proper; eauto].
      * destruct res; [split; [apply R|apply R; reflexivity]|exact R].
  - inv H. exists [], [], "", (b ++ u)%string. split; [reflexivity|]. split; [auto|]. split; [reflexivity|]. split; [reflexivity|].
    split; [intros ? []|]. split; [intros ? []|]. split; [exact I|]. eapply suffix_trans; [exact IN|]. eexists. reflexivity.
Qed.
