(** Proofs about texts of codes and formatted lines. *)
From Verif Require Import Model.Base Model.Blocks Spec.Text Spec.BlocksSpec Proofs.Tactics Proofs.StringFacts Proofs.TextProofs Proofs.GrammarLex.
From Coq Require Import Lia.
Local Open Scope string_scope.
Local Open Scope list_scope.
Local Open Scope Z_scope.

(** ** Codes *)

Lemma digit_not_space c : is_digit c = true -> is_space c = false.
Proof. unfold is_digit, is_space. rewrite !andb_true_iff, orb_false_iff, andb_false_iff, !Z.leb_le, Z.eqb_neq, !Z.leb_gt. lia. Qed.
Lemma digit_not c d : is_digit c = true -> is_digit d = false -> Ascii.eqb c d = false.
Proof. intros A B. destruct (Ascii.eqb_spec c d); [subst; congruence|reflexivity]. Qed.

Definition heads (p : ascii -> bool) (s : string) : Prop := match s with String c _ => p c = false | EmptyString => True end.

Lemma spaces_then d s : d <> "" -> all_chars is_digit d = true -> heads is_space (d ++ s).
Proof. intros N A. destruct d; [now elim N|]. cbn in *. apply andb_true_iff in A as [A _]. now apply digit_not_space. Qed.

Lemma space_digit w : all_chars is_space w = true -> heads is_digit w.
Proof.
  destruct w as [|c w]; [easy|]. cbn. rewrite andb_true_iff. intros [A _]. destruct (is_digit c) eqn:E; [|reflexivity].
  apply digit_not_space in E. congruence.
Qed.

Lemma uint_parse_iff s v : uint_parse s = Ok v <-> uint_text s v.
Proof.
  split.
  - unfold uint_parse. intro H. pose proof (span_spec is_space s) as S. destruct (span is_space s) as [w s1]. destruct S as (-> & W & _).
    cbn [snd] in H.
    destruct (match s1 with String c r => if Ascii.eqb c "-" then (true, r) else if Ascii.eqb c "+" then (false, r) else (false, s1) | "" => (false, s1) end)
      as [neg s2] eqn:E.
    assert (X : exists sg, s1 = (sg ++ s2)%string /\ (sg = "" /\ neg = false \/ sg = "+" /\ neg = false \/ sg = "-" /\ neg = true)).
    { destruct s1 as [|c r]; [inv E; exists ""; cbn; auto|]. destruct (Ascii.eqb_spec c "-"); [inv E; exists "-"; cbn; auto 6|].
      destruct (Ascii.eqb_spec c "+"); inv E; [exists "+"; cbn; auto 6|exists ""; cbn; auto]. }
    clear E. destruct X as (sg & -> & G). pose proof (span_spec is_digit s2) as S. destruct (span is_digit s2) as [d r]. destruct S as (-> & D & _).
    destruct (negb (String.eqb d "") && all_chars is_space r) eqn:B; [|discriminate]. apply andb_true_iff in B as [B R].
    destruct ((neg && negb (digits_val d =? 0)) || (4294967295 <? digits_val d)) eqn:O; [discriminate|]. inv H.
    apply orb_false_iff in O as [O1 O2]. apply Z.ltb_ge in O2. exists w, sg, d, r.
    split; [reflexivity|]. split; [exact W|]. split; [exact R|]. split.
    + destruct G as [[-> ->]|[[-> ->]|[-> ->]]]; auto. right; right. split; [reflexivity|]. cbn in O1. apply negb_false_iff in O1. now apply Z.eqb_eq.
    + split; [|lia]. split; [|split; auto]. intros ->. discriminate B.
  - intros (w & sg & d & w' & -> & W & W' & G & (N & A & V) & L). unfold uint_parse.
    assert (HS : heads is_space (sg ++ d ++ w')).
    { destruct G as [->|[->|[-> _]]]; [cbn [append]; apply spaces_then; assumption|reflexivity|reflexivity]. }
    rewrite span_app by (auto; exact HS). cbn [snd].
    assert (E : match (sg ++ d ++ w')%string with String c r => if Ascii.eqb c "-" then (true, r) else if Ascii.eqb c "+" then (false, r) else (false, (sg ++ d ++ w')%string) | "" => (false, (sg ++ d ++ w')%string) end
      = (String.eqb sg "-", (d ++ w')%string)).
    { destruct G as [->|[->|[-> _]]]; try reflexivity. destruct d as [|c d]; [now elim N|]. cbn in A |- *. apply andb_true_iff in A as [A _].
      rewrite !(digit_not c) by (auto; reflexivity). reflexivity. }
    rewrite E, span_app; [|exact A|now apply space_digit]. cbv beta iota zeta. rewrite W'.
    replace (String.eqb d "") with false by (destruct d; [now elim N|reflexivity]). cbn [negb andb]. rewrite V.
    replace (4294967295 <? v) with false by (symmetry; apply Z.ltb_ge; lia).
    destruct G as [->|[->|[-> ->]]]; reflexivity.
Qed.

Lemma uint_no_dot s v : uint_text s v -> at_dot s = (s, None).
Proof.
  intros (w & sg & d & w' & -> & W & W' & G & (_ & A & _) & _).
  assert (X : forall s, all_chars (fun c => negb (Ascii.eqb c ".")) s = true -> at_dot s = (s, None)).
  { induction s as [|c s IH]; [reflexivity|]. cbn. rewrite andb_true_iff, negb_true_iff. intros [-> H]. now rewrite IH. }
  assert (Y : forall p s, p "."%char = false -> all_chars p s = true -> all_chars (fun c => negb (Ascii.eqb c ".")) s = true).
  { intros p s P. induction s as [|c s IH]; [reflexivity|]. cbn. rewrite !andb_true_iff, negb_true_iff. intros [H1 H2]. split; [|auto].
    destruct (Ascii.eqb_spec c "."); [subst; congruence|reflexivity]. }
  apply X. rewrite !all_chars_app, (Y is_space w), (Y is_space w'), (Y is_digit d) by auto. destruct G as [->|[->|[-> _]]]; reflexivity.
Qed.

Lemma at_dot_app a b : at_dot a = (a, None) -> at_dot (a ++ "." ++ b) = (a, Some b).
Proof.
  induction a as [|c a IH]; [reflexivity|]. cbn in *. destruct (Ascii.eqb c "."); [discriminate|]. destruct (at_dot a) as [x y].
  intro H. inv H. now rewrite IH.
Qed.

Lemma at_dot_parts s a b : at_dot s = (a, b) -> match b with None => s = a | Some b => s = (a ++ "." ++ b)%string end.
Proof.
  revert a b. induction s as [|c s IH]; cbn; intros a b H; [inv H; reflexivity|].
  destruct (Ascii.eqb_spec c "."); [inv H; reflexivity|]. destruct (at_dot s) as [x y]. specialize (IH x y eq_refl). inv H. destruct b; cbn in *; congruence.
Qed.

Lemma code_parse_iff s c : code_parse s = Ok c <-> code_written s c.
Proof.
  unfold code_parse, code_written. split.
  - destruct (at_dot s) as [a b] eqn:E. apply at_dot_parts in E. intro H.
    destruct (uint_parse a) as [v|] eqn:V; [|discriminate]. apply uint_parse_iff in V. cbn in H. destruct b as [b|].
    + destruct (uint_parse b) as [r|] eqn:R; [|discriminate]. apply uint_parse_iff in R. inv H. right. exists a, b. auto.
    + inv H. left. auto.
  - intros [(U & R)|(a & b & -> & U & R)].
    + rewrite (uint_no_dot _ _ U). apply uint_parse_iff in U. rewrite U. cbn. destruct c; cbn in *. now subst.
    + rewrite (at_dot_app a b) by (eapply uint_no_dot; eauto). apply uint_parse_iff in U. apply uint_parse_iff in R. rewrite U. cbn. rewrite R. now destruct c.
Qed.

Lemma nat_text n : 0 <= n < 2 ^ 32 -> uint_text (nat_to_string n) n.
Proof.
  intro H. exists "", "", (nat_to_string n), "". rewrite string_app_nil. destruct (nat_to_string_spec n ltac:(lia)) as (A & B & C & _).
  repeat split; auto; lia.
Qed.

Lemma code_round c : 0 <= cv_code c < 2 ^ 32 -> 0 <= cv_rest c < 2 ^ 32 -> code_parse (code_text c) = Ok c.
Proof.
  intros A B. apply code_parse_iff. unfold code_text, code_written. destruct (Z.eqb_spec (cv_rest c) 0).
  - left. split; [now apply nat_text|assumption].
  - right. exists (nat_to_string (cv_code c)), (nat_to_string (cv_rest c)). split; [reflexivity|]. split; now apply nat_text.
Qed.

(** ** Formatted lines *)

Lemma plain_iff c : plain_char c <-> Ascii.eqb c "{" = false /\ Ascii.eqb c "}" = false.
Proof. unfold plain_char. destruct (Ascii.eqb_spec c "{"), (Ascii.eqb_spec c "}"); intuition congruence. Qed.

Lemma no_braces_cons c s : no_braces (String c s) <-> plain_char c /\ no_braces s.
Proof.
  split.
  - intro H. split; [apply (H "" c s); reflexivity|]. intros a d b ->. apply (H (String c a) d b). reflexivity.
  - intros [P H] a d b E. destruct a as [|x a]; cbn in E; inv E; [exact P|]. now apply (H a d b).
Qed.
Lemma no_braces_nil : no_braces "".
Proof. intros [|? a] c b H; discriminate. Qed.

Lemma spaces_only n : only_spaces (spaces n) /\ String.length (spaces n) = n.
Proof. unfold only_spaces. induction n as [|n [A B]]; cbn; [auto|]. rewrite A, B. auto. Qed.
Lemma only_eq p q : only_spaces p -> only_spaces q -> String.length p = String.length q -> p = q.
Proof.
  unfold only_spaces. revert q. induction p as [|c p IH]; intros [|d q] A B L; try discriminate L; [reflexivity|]. cbn [all_chars String.length] in *.
  apply andb_true_iff in A as [A1 A2]. apply andb_true_iff in B as [B1 B2]. apply Ascii.eqb_eq in A1. apply Ascii.eqb_eq in B1. subst. f_equal. apply IH; auto.
Qed.

Lemma filled_iff arg l w out : 0 <= w -> filled arg l w out <-> out = padded arg l w.
Proof.
  intro W. unfold filled, padded. destruct (spaces_only (Z.to_nat w - String.length arg)) as [S L]. split.
  - intros (p & P & -> & Q). replace (spaces _) with p; [destruct l; reflexivity|]. apply only_eq; auto. rewrite L. lia.
  - intros ->. exists (spaces (Z.to_nat w - String.length arg)). split; [exact S|]. split; [destruct l; reflexivity|]. rewrite L. lia.
Qed.

Lemma digits_acc_nonneg s n : 0 <= n -> all_chars is_digit s = true -> 0 <= digits_acc n s.
Proof.
  revert n. induction s as [|c s IH]; cbn; intros n N H; [exact N|]. apply andb_true_iff in H as [H1 H2]. apply IH; auto.
  unfold is_digit in H1. apply andb_true_iff in H1 as [H1 _]. apply Z.leb_le in H1. unfold digit_val. lia.
Qed.
Lemma denotes_nonneg s n : denotes s n -> 0 <= n.
Proof. intros (_ & A & <-). apply digits_acc_nonneg; auto; lia. Qed.
Lemma width_nonneg s l w : width_text s l w -> 0 <= w.
Proof. destruct 1; try lia; eauto using denotes_nonneg. Qed.

(** Forwards: each part of a hole in turn. *)
Section Forward.
Variable arg : string.
Definition emit (n : Z) (l : bool) (w : Z) (s : string) : res string :=
  if n =? 0 then do t <- format_from arg FText s; Ok (padded arg l w ++ t)%string else Exc EInvalidArgument.

Ltac no_digit H := cbn [format_from]; rewrite ?H; cbn [Ascii.eqb Bool.eqb].

Lemma fw_index i n s : all_chars is_digit i = true -> format_from arg (FIndex n) (i ++ s) = format_from arg (FIndex (digits_acc n i)) s.
Proof.
  revert n. induction i as [|c i IH]; cbn [append all_chars digits_acc]; intros n H; [reflexivity|]. apply andb_true_iff in H as [H1 H2].
  cbn [format_from]. rewrite H1, (Z.mul_comm n). now rewrite IH.
Qed.
Lemma fw_width i n l w s : all_chars is_digit i = true -> format_from arg (FWidth n l w) (i ++ s) = format_from arg (FWidth n l (digits_acc w i)) s.
Proof.
  revert w. induction i as [|c i IH]; cbn [append all_chars digits_acc]; intros w H; [reflexivity|]. apply andb_true_iff in H as [H1 H2].
  cbn [format_from]. rewrite H1, (Z.mul_comm w). now rewrite IH.
Qed.
Lemma fw_spaces st p s : only_spaces p -> (forall r, format_from arg st (String " " r) = format_from arg st r) ->
  format_from arg st (p ++ s) = format_from arg st s.
Proof.
  intros P H. unfold only_spaces in P. induction p as [|c p IH]; [reflexivity|]. cbn [all_chars] in P. apply andb_true_iff in P as [P1 P2].
  apply Ascii.eqb_eq in P1. subst c. cbn [append]. rewrite H. auto.
Qed.
Lemma fw_format f n l w s : no_braces f -> format_from arg (FFormat n l w) (f ++ String "}" s) = emit n l w s.
Proof.
  induction f as [|c f IH]; cbn [append]; intro H; [reflexivity|]. apply no_braces_cons in H as [P H]. apply plain_iff in P as [P1 P2].
  cbn [format_from]. rewrite P1, P2. auto.
Qed.
Lemma fw_tail st f n l w s : format_text f ->
  (forall r, format_from arg st (String ":" r) = format_from arg (FFormat n l w) r) ->
  (forall r, format_from arg st (String "}" r) = emit n l w r) ->
  format_from arg st (f ++ String "}" s) = emit n l w s.
Proof. intros F A B. destruct F as [|f F]; [apply B|]. cbn [append]. rewrite A. now apply fw_format. Qed.

Lemma fw_digits st d n l w s : denotes d w ->
  (forall c r, is_digit c = true -> format_from arg st (String c r) = format_from arg (FWidth n l (digit_val c)) r) ->
  format_from arg st (d ++ s) = format_from arg (FWidth n l w) s.
Proof.
  intros (N & A & V) H. destruct d as [|c d]; [now elim N|]. cbn [all_chars] in A. apply andb_true_iff in A as [A1 A2]. cbn [append].
  rewrite H, fw_width by auto. now rewrite <- V.
Qed.

(** Spaces behind the number or the width, then the rest. *)
Lemma fw_width_end n l w b f s : only_spaces b -> format_text f -> format_from arg (FWidth n l w) (b ++ f ++ String "}" s) = emit n l w s.
Proof.
  intros B F. destruct b as [|c b].
  - cbn [append]. now apply fw_tail.
  - unfold only_spaces in B. cbn [all_chars] in B. apply andb_true_iff in B as [B1 B2]. apply Ascii.eqb_eq in B1. subst c. cbn [append].
    change (format_from arg (FWidth n l w) (String " " (b ++ f ++ String "}" s))) with (format_from arg (FEnd n l w) (b ++ f ++ String "}" s)).
    rewrite fw_spaces by (auto; reflexivity). now apply fw_tail.
Qed.

Lemma fw_comma n wt l w f s st : width_text wt l w -> format_text f ->
  (forall r, format_from arg st (String "," r) = format_from arg (FComma n) r) ->
  (forall r, format_from arg st (String ":" r) = format_from arg (FFormat n false 0) r) ->
  (forall r, format_from arg st (String "}" r) = emit n false 0 r) ->
  format_from arg st (wt ++ f ++ String "}" s) = emit n l w s.
Proof.
  intros T F C D E. destruct T as [|a d w b A W B|a d w b A W B].
  - cbn [append]. now apply fw_tail.
  - rewrite !string_app_assoc. cbn [append]. rewrite C, fw_spaces by (auto; reflexivity).
    rewrite (fw_digits _ d n false w) by (auto; intros c r I; cbn [format_from]; rewrite !(digit_not c), I by (auto; reflexivity); reflexivity).
    now apply fw_width_end.
  - rewrite !string_app_assoc. cbn [append]. rewrite C, fw_spaces by (auto; reflexivity).
    match goal with |- context [format_from arg (FComma n) (String "-" ?x)] => change (format_from arg (FComma n) (String "-" x)) with (format_from arg (FMinus n) x) end.
    rewrite (fw_digits _ d n true w) by (auto; intros c r I; cbn [format_from]; rewrite I; reflexivity).
    now apply fw_width_end.
Qed.

Lemma fw_hole i sp wt l w f s : denotes i 0 -> only_spaces sp -> width_text wt l w -> format_text f ->
  format_from arg FText ("{" ++ i ++ sp ++ wt ++ f ++ "}" ++ s) = emit 0 l w s.
Proof.
  intros (N & A & V) S T F. destruct i as [|c i]; [now elim N|]. cbn [all_chars] in A. apply andb_true_iff in A as [A1 A2]. cbn [append].
  match goal with |- format_from arg FText (String "{" ?x) = _ => change (format_from arg FText (String "{" x)) with (format_from arg FOpened x) end.
  cbn [format_from]. rewrite A1, (digit_not c "{") by auto. rewrite fw_index by auto.
  replace (digits_acc (digit_val c) i) with 0 by (rewrite <- V; reflexivity). destruct sp as [|c' sp].
  - cbn [append]. now apply fw_comma.
  - unfold only_spaces in S. cbn [all_chars] in S. apply andb_true_iff in S as [S1 S2]. apply Ascii.eqb_eq in S1. subst c'. cbn [append].
    match goal with |- format_from arg (FIndex 0) (String " " ?x) = _ => change (format_from arg (FIndex 0) (String " " x)) with (format_from arg (FSpaces 0) x) end.
    rewrite fw_spaces by (auto; reflexivity). now apply fw_comma.
Qed.

Lemma shown_format s t : shown arg s t -> format_from arg FText s = Ok t.
Proof.
  induction 1 as [|c s t P _ IH|s t _ IH|s t _ IH|i sp wt l w f out s t I S W F O _ IH]; [reflexivity| | | |].
  - apply plain_iff in P as [P1 P2]. cbn [format_from]. now rewrite P1, P2, IH.
  - cbn in *. now rewrite IH.
  - cbn in *. now rewrite IH.
  - rewrite (fw_hole i sp wt l w f s) by auto. unfold emit. cbn. rewrite IH. cbn. apply filled_iff in O; [|eapply width_nonneg; eauto]. now subst.
Qed.

(** Backwards: what can follow in each state. *)
Definition closes (n : Z) (l : bool) (w : Z) (s t : string) : Prop :=
  exists s' t', s = ("}" ++ s')%string /\ n = 0 /\ t = (padded arg l w ++ t')%string /\ shown arg s' t'.
Definition ends_ (n : Z) (l : bool) (w : Z) (s t : string) : Prop :=
  exists f s', s = (f ++ s')%string /\ format_text f /\ closes n l w s' t.
Definition widths (n : Z) (s t : string) : Prop :=
  exists wt l w s', s = (wt ++ s')%string /\ width_text wt l w /\ ends_ n l w s' t.
Definition follows (st : fstate) (s t : string) : Prop :=
  match st with
  | FText => shown arg s t
  | FOpened => shown arg (String "{" s) t
  | FClosed => shown arg (String "}" s) t
  | FIndex n => exists i sp s', s = (i ++ sp ++ s')%string /\ all_chars is_digit i = true /\ only_spaces sp /\ widths (digits_acc n i) s' t
  | FSpaces n => exists sp s', s = (sp ++ s')%string /\ only_spaces sp /\ widths n s' t
  | FComma n => exists a m d b l w s', s = (a ++ m ++ d ++ b ++ s')%string /\ only_spaces a /\ (m = "" /\ l = false \/ m = "-" /\ l = true) /\
                  denotes d w /\ only_spaces b /\ ends_ n l w s' t
  | FMinus n => exists d b w s', s = (d ++ b ++ s')%string /\ denotes d w /\ only_spaces b /\ ends_ n true w s' t
  | FWidth n l w => exists d b s', s = (d ++ b ++ s')%string /\ all_chars is_digit d = true /\ only_spaces b /\ ends_ n l (digits_acc w d) s' t
  | FEnd n l w => exists b s', s = (b ++ s')%string /\ only_spaces b /\ ends_ n l w s' t
  | FFormat n l w => exists f s', s = (f ++ s')%string /\ no_braces f /\ closes n l w s' t
  end.

Lemma closes_here n l w r t : (forall t', format_from arg FText r = Ok t' -> shown arg r t') -> emit n l w r = Ok t -> closes n l w (String "}" r) t.
Proof.
  intros IH H. unfold emit in H. destruct (Z.eqb_spec n 0); [|discriminate]. destruct (format_from arg FText r) as [t'|] eqn:E; [|discriminate]. inv H.
  exists r, t'. auto.
Qed.
Lemma ends_close n l w s t : closes n l w s t -> ends_ n l w s t.
Proof. intro H. exists "", s. split; [reflexivity|]. split; [constructor|exact H]. Qed.
Lemma ends_format n l w r t : follows (FFormat n l w) r t -> ends_ n l w (String ":" r) t.
Proof. intros (f & s' & -> & F & C). exists (":" ++ f)%string, s'. split; [reflexivity|]. split; [now constructor|exact C]. Qed.
Lemma widths_none n s t : ends_ n false 0 s t -> widths n s t.
Proof. intro H. exists "", false, 0, s. split; [reflexivity|]. split; [constructor|exact H]. Qed.
Lemma widths_comma n r t : follows (FComma n) r t -> widths n (String "," r) t.
Proof.
  intros (a & m & d & b & l & w & s' & -> & A & M & D & B & E). destruct M as [[-> ->]|[-> ->]].
  - exists ("," ++ a ++ d ++ b)%string, false, w, s'. split; [cbn; now rewrite !string_app_assoc|]. split; [now constructor|exact E].
  - exists ("," ++ a ++ "-" ++ d ++ b)%string, true, w, s'. split; [cbn; rewrite !string_app_assoc; cbn; now rewrite !string_app_assoc|]. split; [now constructor|exact E].
Qed.
Lemma denotes_cons c d w : is_digit c = true -> all_chars is_digit d = true -> digits_acc (digit_val c) d = w -> denotes (String c d) w.
Proof. intros C D V. split; [discriminate|]. split; [cbn; now rewrite C|]. rewrite <- V. reflexivity. Qed.
Lemma only_cons s : only_spaces s -> only_spaces (String " " s).
Proof. unfold only_spaces. cbn. auto. Qed.
Lemma only_nil : only_spaces "".
Proof. reflexivity. Qed.

Lemma format_follows s : forall st t, format_from arg st s = Ok t -> follows st s t.
Proof.
  induction s as [|c r IH]; intros st t H.
  { destruct st; try discriminate H. inv H. constructor. }
  assert (IHt : forall t', format_from arg FText r = Ok t' -> shown arg r t') by (intros t' X; apply (IH FText); exact X).
  destruct st as [| | |n|n|n|n|n l w|n l w|n l w]; cbn [format_from] in H.
  - destruct (Ascii.eqb_spec c "{"); [subst; apply (IH FOpened); exact H|]. destruct (Ascii.eqb_spec c "}"); [subst; apply (IH FClosed); exact H|].
    destruct (format_from arg FText r) as [t'|] eqn:E; [|discriminate]. inv H. constructor; [split; auto|auto].
  - cbn [follows]. destruct (Ascii.eqb_spec c "{").
    + subst. destruct (format_from arg FText r) as [t'|] eqn:E; [|discriminate]. inv H. apply (sh_open arg r t'). auto.
    + destruct (is_digit c) eqn:D; [|discriminate]. apply IH in H.
      destruct H as (i & sp & s' & -> & I & S & wt & l & w & s2 & -> & W & f & s3 & -> & F & s4 & t4 & -> & Z0 & -> & SH).
      apply (sh_hole arg (String c i) sp wt l w f); auto; [now apply denotes_cons|]. apply filled_iff; [eapply width_nonneg; eauto|reflexivity].
  - cbn [follows]. destruct (Ascii.eqb_spec c "}"); [|discriminate]. subst. destruct (format_from arg FText r) as [t'|] eqn:E; [|discriminate]. inv H.
    apply (sh_close arg r t'). auto.
  - destruct (is_digit c) eqn:D.
    + apply IH in H. destruct H as (i & sp & s' & -> & I & S & W). exists (String c i), sp, s'. split; [reflexivity|]. split; [cbn; now rewrite D|]. split; [exact S|].
      cbn [digits_acc]. now rewrite Z.mul_comm.
    + assert (G : follows (FSpaces n) (String c r) t -> follows (FIndex n) (String c r) t).
      { intros (sp & s' & E & S & W). exists "", sp, s'. split; [exact E|]. split; [reflexivity|]. split; [exact S|exact W]. }
      apply G. destruct (Ascii.eqb_spec c " ").
      { subst. apply IH in H. destruct H as (sp & s' & -> & S & W). exists (String " " sp), s'. split; [reflexivity|]. split; [now apply only_cons|exact W]. }
      exists "", (String c r). split; [reflexivity|]. split; [apply only_nil|].
      destruct (Ascii.eqb_spec c ","); [subst; apply widths_comma, IH, H|]. destruct (Ascii.eqb_spec c ":"); [subst; apply widths_none, ends_format, IH, H|].
      destruct (Ascii.eqb_spec c "}"); [|discriminate]. subst. apply widths_none, ends_close, closes_here; auto.
  - destruct (Ascii.eqb_spec c " ").
    { subst. apply IH in H. destruct H as (sp & s' & -> & S & W). exists (String " " sp), s'. split; [reflexivity|]. split; [now apply only_cons|exact W]. }
    exists "", (String c r). split; [reflexivity|]. split; [apply only_nil|].
    destruct (Ascii.eqb_spec c ","); [subst; apply widths_comma, IH, H|]. destruct (Ascii.eqb_spec c ":"); [subst; apply widths_none, ends_format, IH, H|].
    destruct (Ascii.eqb_spec c "}"); [|discriminate]. subst. apply widths_none, ends_close, closes_here; auto.
  - destruct (Ascii.eqb_spec c " ").
    { subst. apply IH in H. destruct H as (a & m & d & b & l & w & s' & -> & A & X). exists (String " " a), m, d, b, l, w, s'.
      split; [reflexivity|]. split; [now apply only_cons|exact X]. }
    destruct (Ascii.eqb_spec c "-").
    { subst. apply IH in H. destruct H as (d & b & w & s' & -> & D & B & E). exists "", "-", d, b, true, w, s'. split; [reflexivity|]. split; [apply only_nil|]. auto. }
    destruct (is_digit c) eqn:D; [|discriminate]. apply IH in H. destruct H as (d & b & s' & -> & DD & B & E).
    exists "", "", (String c d), b, false, (digits_acc (digit_val c) d), s'. split; [reflexivity|]. split; [apply only_nil|]. split; [auto|].
    split; [now apply denotes_cons|]. auto.
  - destruct (is_digit c) eqn:D; [|discriminate]. apply IH in H. destruct H as (d & b & s' & -> & DD & B & E).
    exists (String c d), b, (digits_acc (digit_val c) d), s'. split; [reflexivity|]. split; [now apply denotes_cons|]. auto.
  - destruct (is_digit c) eqn:D.
    + apply IH in H. destruct H as (d & b & s' & -> & DD & B & E). exists (String c d), b, s'. split; [reflexivity|]. split; [cbn; now rewrite D|]. split; [exact B|].
      cbn [digits_acc]. now rewrite (Z.mul_comm w).
    + assert (G : follows (FEnd n l w) (String c r) t -> follows (FWidth n l w) (String c r) t).
      { intros (b & s' & E & B & X). exists "", b, s'. auto. }
      apply G. destruct (Ascii.eqb_spec c " ").
      { subst. apply IH in H. destruct H as (b & s' & -> & B & E). exists (String " " b), s'. split; [reflexivity|]. split; [now apply only_cons|exact E]. }
      exists "", (String c r). split; [reflexivity|]. split; [apply only_nil|].
      destruct (Ascii.eqb_spec c ":"); [subst; apply ends_format, IH, H|].
      destruct (Ascii.eqb_spec c "}"); [|discriminate]. subst. apply ends_close, closes_here; auto.
  - destruct (Ascii.eqb_spec c " ").
    { subst. apply IH in H. destruct H as (b & s' & -> & B & E). exists (String " " b), s'. split; [reflexivity|]. split; [now apply only_cons|exact E]. }
    exists "", (String c r). split; [reflexivity|]. split; [apply only_nil|].
    destruct (Ascii.eqb_spec c ":"); [subst; apply ends_format, IH, H|].
    destruct (Ascii.eqb_spec c "}"); [|discriminate]. subst. apply ends_close, closes_here; auto.
  - destruct (Ascii.eqb_spec c "}").
    { subst. exists "", (String "}" r). split; [reflexivity|]. split; [apply no_braces_nil|]. apply closes_here; auto. }
    destruct (Ascii.eqb_spec c "{"); [discriminate|]. apply IH in H. destruct H as (f & s' & -> & F & C). exists (String c f), s'.
    split; [reflexivity|]. split; [apply no_braces_cons; split; [split; auto|exact F]|exact C].
Qed.

Lemma format_iff s t : string_format s arg = Ok t <-> shown arg s t.
Proof. split; [apply (format_follows s FText)|apply shown_format]. Qed.
End Forward.

Lemma shown_plain arg s : no_braces s -> shown arg s s.
Proof. induction s as [|c s IH]; intro H; [constructor|]. apply no_braces_cons in H as [P H]. constructor; auto. Qed.
