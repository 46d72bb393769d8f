(** Writing a line and reading it back. *)
From Verif Require Import Model.Base Model.Attr Model.Grammar Spec.Text Spec.GrammarSpec.
From Verif Require Import Proofs.Tactics Proofs.TextProofs Proofs.StringFacts Proofs.GrammarLex Proofs.GrammarTail Proofs.GrammarProofs.

Section Tables.
Variable wm : word_map.
Variables dec asg : list string.
Hypothesis T : tables_ok wm dec asg.

Let LA := line_attribute wm dec asg.

Lemma no_start c r : In c ["("; "/"; "%"; "["]%char -> sym_match dec (String c r) = None /\ sym_match asg (String c r) = None.
Proof.
  intro I. split; apply sym_match_none; intros u U; destruct (prefix u (String c r)) eqn:P; try reflexivity; exfalso;
  apply prefix_iff in P as (b & E); (destruct u as [|x u]; [destruct (to_chars _ _ _ T "") as [N _]; [tauto|now apply N]|]);
  cbn in E; inv E; eapply (to_start _ _ _ T); [left| |right|]; eauto.
Qed.

Lemma no_empty_dec : ~ In ""%string dec.
Proof. intro I. destruct (to_chars _ _ _ T "") as [N _]; [tauto|now apply N]. Qed.
Lemma no_empty_asg : ~ In ""%string asg.
Proof. intro I. destruct (to_chars _ _ _ T "") as [N _]; [tauto|now apply N]. Qed.

Lemma la_blank t s : skip t = ""%string -> LA t s = (s, RFail).
Proof. intro E. apply (attribute_blank (mkLG wm dec asg)); [split; [exact no_empty_dec|exact no_empty_asg]|exact E]. Qed.

(** One line attribute, by its first character. *)
Definition other_start (c : ascii) : Prop := c <> "/"%char /\ c <> "("%char /\ c <> "%"%char.

Lemma la_slash t r s : char_rule t = RFail -> skip t = String "/" r ->
  LA t s = orelse (slash_rule wm true t s) (fun s => slash_rule wm false t s).
Proof.
  intros C E. unfold LA, line_attribute. rewrite C. cbn [orelse]. unfold decimal_rule, assignable_rule, assign_ahead. rewrite E.
  destruct (no_start "/" r) as [-> ->]; [cbn; tauto|]. cbn [orelse].
  unfold comment_rule, start_program_rule, program_name_rule. rewrite E. cbn [orelse].
  destruct (slash_rule wm true t s) as [s1 [| | |]]; try reflexivity. cbn [orelse]. now destruct (slash_rule wm false t s1) as [s2 [| | |]].
Qed.

Lemma la_comment t r s : char_rule t = RFail -> skip t = String "(" r -> LA t s = (s, comment_rule t).
Proof.
  intros C E. unfold LA, line_attribute. rewrite C. cbn [orelse]. unfold decimal_rule, assignable_rule, assign_ahead, slash_rule. rewrite E.
  destruct (no_start "(" r) as [-> ->]; [cbn; tauto|]. cbn [orelse]. unfold start_program_rule, program_name_rule. rewrite E. cbn [orelse].
  now destruct (comment_rule t).
Qed.

Lemma la_percent t r s : char_rule t = RFail -> skip t = String "%" r -> LA t s = (s, start_program_rule t).
Proof.
  intros C E. unfold LA, line_attribute. rewrite C. cbn [orelse]. unfold decimal_rule, assignable_rule, assign_ahead, slash_rule, comment_rule. rewrite E.
  destruct (no_start "%" r) as [-> ->]; [cbn; tauto|]. cbn [orelse]. unfold program_name_rule. rewrite E. cbn [orelse].
  now destruct (start_program_rule t).
Qed.

Lemma slash_none o t c r s : skip t = String c r -> c <> "/"%char -> slash_rule wm o t s = (s, RFail).
Proof. intros E N. unfold slash_rule. rewrite E. destruct c as [[] [] [] [] [] [] [] []]; try reflexivity; congruence. Qed.

Lemma la_word t c r s : char_rule t = RFail -> skip t = String c r -> other_start c ->
  LA t s = orelse (decimal_rule wm dec asg t s) (fun s => orelse (assignable_rule wm asg t s) (fun s => (s, program_name_rule t))).
Proof.
  intros C E (N1 & N2 & N3). unfold LA, line_attribute. rewrite C. cbn [orelse].
  destruct (decimal_rule wm dec asg t s) as [s1 [| | |]]; cbn [orelse]; try reflexivity.
  rewrite (slash_none _ _ _ _ _ E N1). cbn [orelse]. destruct (assignable_rule wm asg t s1) as [s2 [| | |]]; cbn [orelse]; try reflexivity.
  rewrite (slash_none _ _ _ _ _ E N1). cbn [orelse].
  replace (comment_rule t) with RFail by (unfold comment_rule; rewrite E; destruct c as [[] [] [] [] [] [] [] []]; try reflexivity; congruence).
  cbn [orelse].
  replace (start_program_rule t) with RFail by (unfold start_program_rule; rewrite E; destruct c as [[] [] [] [] [] [] [] []]; try reflexivity; congruence).
  reflexivity.
Qed.

(** Blanks in front of an attribute do not matter, unless it is a comma. *)
Lemma rules_skip t : comment_rule t = comment_rule (skip t) /\ start_program_rule t = start_program_rule (skip t) /\
  program_name_rule t = program_name_rule (skip t) /\ (forall s, decimal_rule wm dec asg t s = decimal_rule wm dec asg (skip t) s) /\
  (forall s, assignable_rule wm asg t s = assignable_rule wm asg (skip t) s) /\ (forall o s, slash_rule wm o t s = slash_rule wm o (skip t) s).
Proof.
  unfold comment_rule, start_program_rule, program_name_rule, decimal_rule, assignable_rule, slash_rule. rewrite skip_skip. auto 10.
Qed.

Lemma la_skip t s : char_rule t = RFail -> char_rule (skip t) = RFail -> LA t s = LA (skip t) s.
Proof.
  intros A B. unfold LA, line_attribute. rewrite A, B. destruct (rules_skip t) as (E1 & E2 & E3 & E4 & E5 & E6). unfold orelse.
  rewrite E4. destruct (decimal_rule wm dec asg (skip t) s) as [s1 [| | |]]; try reflexivity.
  rewrite E6. destruct (slash_rule wm true (skip t) s1) as [s2 [| | |]]; try reflexivity.
  rewrite E5. destruct (assignable_rule wm asg (skip t) s2) as [s3 [| | |]]; try reflexivity.
  rewrite E6. destruct (slash_rule wm false (skip t) s3) as [s4 [| | |]]; try reflexivity.
  rewrite E1, E2, E3. reflexivity.
Qed.

(** The characters a number is made of. *)
Lemma tail_text_chars wo d : tail_ok wo d -> all_chars tail_char (tail_text d) = true.
Proof.
  intros (Hs & Ho & _ & Hm & Hv & Hd & Hv2 & _ & Hc). unfold tail_text. rewrite !all_chars_app, !andb_true_iff.
  assert (R : forall p v, run_of p v -> (forall c, p c = true -> tail_char c = true) -> all_chars tail_char (opt_str v) = true).
  { intros p [x|] A B; [|reflexivity]. destruct A as [_ A]. cbn. induction x as [|y x IH]; [reflexivity|]. cbn in A |- *.
    apply andb_true_iff in A as [A1 A2]. now rewrite (B _ A1), (IH A2). }
  split; [|split; [|split; [|split; [|split; [|split]]]]].
  - destruct (d_sign d) as [c|]; [|reflexivity]. cbn. rewrite andb_true_r. clear -Hs. destruct c as [[] [] [] [] [] [] [] []]; try discriminate Hs; reflexivity.
  - apply (R _ _ Ho). intros c H. apply is_open_eq in H. now subst.
  - destruct Hm as [->| ->]; reflexivity.
  - apply (R _ _ Hv). intros c H. unfold tail_char. now rewrite H.
  - destruct Hd as [->| ->]; reflexivity.
  - apply (R _ _ Hv2). intros c H. unfold tail_char. now rewrite H.
  - apply (R _ _ Hc). intros c H. apply is_close_eq in H. now subst.
Qed.

Lemma tail_char_not c : tail_char c = true -> c <> "="%char /\ c <> "/"%char /\ is_blank c = false.
Proof.
  intro H. split; [intros ->; discriminate H|]. split; [intros ->; discriminate H|].
  destruct (is_blank c) eqn:B; [|reflexivity]. unfold is_blank in B. unfold tail_char in H.
  assert (c = " "%char \/ c = "009"%char).
  { unfold code in B. rewrite <- (ascii_nat_embedding c). destruct (Z.eqb_spec (Z.of_nat (nat_of_ascii c)) 32) as [E|E].
    - left. replace (nat_of_ascii c) with 32%nat by lia. reflexivity.
    - right. replace (nat_of_ascii c) with 9%nat by lia. reflexivity. }
  destruct H0 as [-> | ->]; discriminate H.
Qed.

(** The address of a written word is found again. *)
Lemma sym_match_again w tl rest : In w dec -> all_chars tail_char tl = true -> blank_start rest ->
  sym_match dec (w ++ tl ++ rest) = Some w.
Proof.
  intros I A B. apply sym_match_some. split; [exact I|]. split; [apply prefix_app|]. intros u U P.
  apply prefix_iff in P as (b & E). destruct (app_prefix_cases _ _ _ _ E) as [(x & W & _)|(x & W & X)].
  - rewrite W, string_app_length. lia.
  - rewrite W, string_app_length. destruct x as [|c x]; [cbn; lia|]. exfalso.
    pose proof (to_tail _ _ _ T w c x I) as N. rewrite <- W in N. specialize (N U). destruct tl as [|y tl]; cbn in X.
    + subst rest. cbn in B. destruct (to_chars _ _ _ T u) as (_ & _ & NB); [auto|].
      pose proof (all_chars_in _ _ w c x NB W) as K. cbn in K. now rewrite B in K.
    + inv X. cbn in A. apply andb_true_iff in A as [A _]. congruence.
Qed.

Lemma blank_prefix_none u tl rest w : all_chars (fun c => negb (is_blank c)) u = true -> blank_start rest ->
  prefix u (w ++ tl ++ rest) = true -> exists b, (w ++ tl = u ++ b)%string.
Proof.
  intros A B P. rewrite <- string_app_assoc in P. apply prefix_iff in P as (b & E).
  destruct (app_prefix_cases _ _ _ _ E) as [(x & W & _)|(x & W & X)]; [eauto|].
  destruct x as [|c x]; [exists ""%string; rewrite string_app_nil in *; congruence|]. exfalso. rewrite X in B. cbn in B.
  pose proof (all_chars_in _ _ _ _ _ A W) as K. cbn in K. now rewrite B in K.
Qed.

(** A written word is not taken for an assignment. *)
Lemma assign_ahead_again w tl rest : In w dec -> all_chars tail_char tl = true -> blank_start rest ->
  (In (w ++ tl)%string asg -> hd rest <> Some "="%char) -> assign_ahead asg (w ++ tl ++ rest) = false.
Proof.
  intros I A B N. unfold assign_ahead. destruct (sym_match asg (w ++ tl ++ rest)) as [u|] eqn:E; [|reflexivity].
  apply sym_match_some in E as (U & P & _). destruct (to_chars _ _ _ T u) as (NE & _ & NB); [auto|].
  destruct (blank_prefix_none _ _ _ _ NB B P) as (b & Eb). rewrite <- string_app_assoc, Eb, string_app_assoc, drop_app.
  destruct b as [|c b].
  - rewrite string_app_nil in Eb. subst u. cbn [append]. unfold hd in N. specialize (N U). destruct (skip rest) as [|x y]; [reflexivity|].
    destruct x as [[] [] [] [] [] [] [] []]; try reflexivity. now contradiction N.
  - assert (c <> "="%char).
    { intros ->. destruct (app_prefix_cases _ _ _ _ Eb) as [(x & W & X)|(x & W & X)].
      - destruct x as [|z x]; cbn in X.
        + subst tl. cbn in A. discriminate A.
        + inv X. destruct (to_equal _ _ _ T) as [Q _]. assert (C : contains "=" (u ++ String "=" x) = true).
          { rewrite contains_app_char. replace (contains "=" (String "=" x)) with true; [apply orb_true_r|]. cbn. now destruct x. }
          pose proof (Q _ I C) as W'. destruct u as [|z0 u]; [contradiction|]. cbn in W'. inv W'. now destruct u.
      - rewrite X in A. rewrite all_chars_app in A. apply andb_true_iff in A as [_ A]. discriminate A. }
    assert (NBc : is_blank c = false).
    { assert (K : all_chars (fun c => negb (is_blank c)) (w ++ tl) = true).
      { rewrite all_chars_app. apply andb_true_iff. split; [apply (to_chars _ _ _ T w); auto|].
        clear -A. induction tl as [|y tl IH]; [reflexivity|]. cbn in A |- *. apply andb_true_iff in A as [A1 A2]. rewrite (IH A2).
        destruct (tail_char_not _ A1) as (_ & _ & ->). reflexivity. }
      pose proof (all_chars_in _ _ _ _ _ K Eb) as Kc. now apply negb_true_iff in Kc. }
    rewrite skip_none by exact NBc. cbn [append]. destruct c as [[] [] [] [] [] [] [] []]; try reflexivity. now contradiction H.
Qed.

Lemma with_head_id d : with_head (d_word d) (d_assign d) d = d.
Proof. destruct d. reflexivity. Qed.

Lemma decimal_text_eq d : decimal_text d = (d_word d ++ opt_chr (d_assign d) ++ tail_text d)%string.
Proof. reflexivity. Qed.

Lemma checked_ok d r s s' a rest : checked wm d r s = (s', ROk a rest) -> verify wm d s = (s', VTrue) /\ a = ADec d /\ rest = r.
Proof. unfold checked. destruct (verify wm d s) as [x [| |]]; intro H; inv H; auto. Qed.

Lemma char_rule_other t c r : t = String c r -> c <> ","%char -> char_rule t = RFail.
Proof. intros -> N. cbn. destruct c as [[] [] [] [] [] [] [] []]; try reflexivity. now contradiction N. Qed.

Lemma char_rule_word w t : w <> ""%string -> w <> ","%string -> all_chars (fun c => negb (is_blank c)) w = true -> char_rule (w ++ t) = RFail.
Proof.
  intros A B C. destruct w as [|c w]; [contradiction|]. destruct (ascii_dec c ",") as [->|N]; [|eapply char_rule_other; [reflexivity|exact N]].
  destruct w as [|x w]; [contradiction|]. apply andb_true_iff in C as [_ C]. apply andb_true_iff in C as [C _]. apply negb_true_iff in C. cbn. now rewrite C.
Qed.

Lemma word_start w : In w dec \/ In w asg -> exists c r, w = String c r /\ is_blank c = false /\ c <> "["%char /\ other_start c.
Proof.
  intro I. destruct (to_chars _ _ _ T w I) as (A & _ & B). destruct w as [|c r]; [contradiction|]. exists c, r. split; [reflexivity|].
  apply andb_true_iff in B as [B _]. split; [now apply negb_true_iff in B|].
  pose proof (to_start _ _ _ T c r I) as N. unfold other_start. cbn in N. split; [|split; [|split]]; intros ->; tauto.
Qed.

(** What is said about reading a written attribute again with the rule [R]. *)
Definition again (R : string -> gstate -> gstate * rule_result) (s s' : gstate) (a : attr) (rest : string) : Prop :=
  forall rest', blank_start rest' -> hd rest' = hd rest -> (In (attr_text a) asg -> hd rest' <> Some "="%char) ->
    ((exists n, a = AStr "O" n) -> forall c, hd rest' = Some c -> is_letter c = false) ->
    exists rest'', R (attr_text a ++ rest')%string s = (s', ROk a rest'') /\ (rest'' = rest' \/ rest'' = skip rest').

Lemma skip_app c r x : is_blank c = false -> skip (String c r ++ x) = (String c r ++ x)%string.
Proof. intro H. apply skip_none. exact H. Qed.

Lemma decimal_again t s s' a rest : decimal_rule wm dec asg t s = (s', ROk a rest) ->
  exists w tl, In w dec /\ attr_text a = (w ++ tl)%string /\ (exists b, skip t = w ++ b)%string /\ (String.length rest < String.length t)%nat /\
  again (decimal_rule wm dec asg) s s' a rest.
Proof.
  unfold decimal_rule at 1. destruct (assign_ahead asg (skip t)) eqn:AA; [discriminate|].
  destruct (sym_match dec (skip t)) as [w|] eqn:M; [|discriminate]. apply sym_match_some in M as (I & P & _).
  apply prefix_iff in P as (b & Eb). rewrite Eb, drop_app.
  destruct (number_tail true w None b) as [d r] eqn:NT. intro H. apply checked_ok in H as (V & -> & ->).
  apply number_tail_spec in NT as (W & AS & OK & F & L & _).
  assert (TX : attr_text (ADec d) = (w ++ tail_text d)%string) by (cbn [attr_text]; rewrite decimal_text_eq, W, AS; reflexivity).
  exists w, (tail_text d). split; [exact I|]. split; [exact TX|]. split; [eauto|].
  destruct (word_start w) as (c & rr & Ew & Bc & _); [auto|]. split.
  { pose proof (skip_length t) as K. rewrite Eb, string_app_length, Ew in K. cbn in K. lia. }
  intros rest' B HD N _. rewrite TX in *. rewrite string_app_assoc.
  destruct (number_tail_text true w None d rest' OK B) as (r' & NT & R'). { intros x X. apply F. congruence. }
  exists r'. split; [|exact R']. unfold decimal_rule.
  replace (skip (w ++ tail_text d ++ rest')) with (w ++ tail_text d ++ rest')%string by (rewrite Ew; symmetry; now apply skip_app).
  rewrite assign_ahead_again; auto. 2: eapply tail_text_chars; eauto.
  rewrite sym_match_again; auto. 2: eapply tail_text_chars; eauto.
  rewrite drop_app, NT. rewrite <- W, <- AS, with_head_id. unfold checked. now rewrite V.
Qed.

Lemma assignable_again t s s' a rest : assignable_rule wm asg t s = (s', ROk a rest) ->
  exists w tl, In w asg /\ attr_text a = (w ++ tl)%string /\ (exists b, skip t = w ++ b)%string /\ (String.length rest < String.length t)%nat /\
  assign_ahead asg (skip t) = true /\
  again (assignable_rule wm asg) s s' a rest /\ (forall rest', decimal_rule wm dec asg (attr_text a ++ rest') s = (s, RFail)).
Proof.
  unfold assignable_rule at 1. unfold assign_ahead at 1. destruct (sym_match asg (skip t)) as [w|] eqn:M; [|discriminate]. apply sym_match_some in M as (I & P & _).
  apply prefix_iff in P as (b & Eb). rewrite Eb, drop_app. destruct (skip b) as [|q b'] eqn:SB; [discriminate|].
  intro H. assert (q = "="%char) by (destruct q as [[] [] [] [] [] [] [] []]; (discriminate H || reflexivity)). subst q.
  destruct (number_tail true w (Some "="%char) b') as [d r] eqn:NT. apply checked_ok in H as (V & -> & ->).
  apply number_tail_spec in NT as (W & AS & OK & F & L & _).
  assert (TX : attr_text (ADec d) = (w ++ String "=" (tail_text d))%string) by (cbn [attr_text]; rewrite decimal_text_eq, W, AS; reflexivity).
  exists w, (String "=" (tail_text d)). split; [exact I|]. split; [exact TX|]. split; [eauto|].
  destruct (word_start w) as (c & rr & Ew & Bc & _); [auto|]. split.
  { pose proof (skip_length t) as K. pose proof (skip_length b) as K'. rewrite SB in K'. rewrite Eb, string_app_length, Ew in K. cbn in K, K'. lia. }
  split; [reflexivity|].
  assert (SM : forall rest', sym_match asg (w ++ String "=" (tail_text d) ++ rest') = Some w).
  { intro rest'. apply sym_match_some. split; [exact I|]. split; [apply prefix_app|]. intros u U P.
    apply prefix_iff in P as (x & E). destruct (app_prefix_cases _ _ _ _ E) as [(z & W' & _)|(z & W' & X)].
    - rewrite W', string_app_length. lia.
    - destruct z as [|y z]; [rewrite string_app_nil in W'; subst; lia|]. exfalso. cbn in X. inv X.
      destruct (to_equal _ _ _ T) as [_ Q]. apply Q in U. rewrite contains_app_char in U. apply orb_false_iff in U as [_ U]. cbn in U. destruct z; discriminate U. }
  assert (SK : forall rest', skip (w ++ String "=" (tail_text d) ++ rest') = (w ++ String "=" (tail_text d) ++ rest')%string).
  { intro rest'. rewrite Ew. now apply skip_app. }
  split.
  - intros rest' B HD _ _. rewrite TX, string_app_assoc. destruct (number_tail_text true w (Some "="%char) d rest' OK B) as (r' & NT & R').
    { intros x X. apply F. congruence. }
    exists r'. split; [|exact R']. unfold assignable_rule. rewrite SK, SM, drop_app. cbn [append]. rewrite skip_none by reflexivity.
    rewrite NT. rewrite <- W, <- AS, with_head_id. unfold checked. now rewrite V.
  - intro rest'. rewrite TX, string_app_assoc. unfold decimal_rule, assign_ahead. rewrite SK, SM, drop_app. cbn [append]. rewrite skip_none by reflexivity. reflexivity.
Qed.

Lemma slash_tail o t s s' a rest : slash_rule wm o t s = (s', ROk a rest) ->
  exists b d, skip t = String "/" b /\ hd b <> Some "/"%char /\ number_tail o "/" None b = (d, rest) /\ a = ADec d /\ verify wm d s = (s', VTrue).
Proof.
  unfold slash_rule. destruct (skip t) as [|q b] eqn:E; [discriminate|]. intro H.
  assert (q = "/"%char) by (destruct q as [[] [] [] [] [] [] [] []]; (discriminate H || reflexivity)). subst q.
  assert (HB : hd b <> Some "/"%char).
  { unfold hd. destruct (skip b) as [|x y]; [discriminate|]. intro K. inv K. discriminate H. }
  assert (H' : (let '(d, r') := number_tail o "/" None b in checked wm d r' s) = (s', ROk a rest)).
  { unfold hd in HB. destruct (skip b) as [|x y]; [exact H|]. destruct x as [[] [] [] [] [] [] [] []]; try exact H. now contradiction HB. }
  destruct (number_tail o "/" None b) as [d r] eqn:NT. apply checked_ok in H' as (V & -> & ->). exists b, d. auto.
Qed.

(** Without a bracket behind it, "/" is read the same by both rules. *)
Lemma slash_rule_eq o b s : hd b <> Some "/"%char ->
  slash_rule wm o (String "/" b) s = (let '(d, r') := number_tail o "/" None b in checked wm d r' s).
Proof.
  intro H. unfold slash_rule. rewrite skip_none by reflexivity. unfold hd in H. destruct (skip b) as [|x y]; [reflexivity|].
  destruct x as [[] [] [] [] [] [] [] []]; try reflexivity. now contradiction H.
Qed.

Lemma slash_hd d b r o rest' : number_tail o "/" None b = (d, r) -> hd b <> Some "/"%char -> hd rest' = hd r -> hd (tail_text d ++ rest') <> Some "/"%char.
Proof.
  intros NT N H. apply number_tail_spec in NT as (_ & _ & OK & _ & _ & Z). pose proof (tail_text_chars _ _ OK) as A.
  destruct (tail_text d) as [|c x] eqn:E.
  - cbn. rewrite H, (Z eq_refl), hd_skip. exact N.
  - cbn in A. apply andb_true_iff in A as [A _]. destruct (tail_char_not _ A) as (_ & X & B). unfold hd. rewrite skip_app by exact B. cbn. congruence.
Qed.

Lemma open_first b d1 r1 d2 r2 : number_tail true "/" None b = (d1, r1) -> number_tail false "/" None b = (d2, r2) -> hd r2 <> Some "["%char ->
  d1 = d2 /\ r1 = r2.
Proof.
  unfold number_tail. destruct (opt_char "-+" (skip b)) as [sg R0] eqn:E0.
  destruct (opt_run (Ascii.eqb "[") (skip R0)) as [op R1] eqn:E1. apply opt_run_spec in E1 as (P1 & Q1 & N1). destruct op as [x|].
  - intros _ H N. exfalso. destruct Q1 as [NE A]. destruct x as [|y x]; [contradiction|]. apply andb_true_iff in A as [A _]. apply Ascii.eqb_eq in A. subst y.
    rewrite P1 in H. cbn in H. apply N. inv H. reflexivity.
  - cbn in P1. rewrite P1. rewrite <- P1. rewrite skip_skip. rewrite P1. intros H1 H2 _. rewrite H1 in H2. now inv H2.
Qed.

Lemma char_rule_cases t : char_rule t = RFail \/ exists r, char_rule t = ROk (AChr "," zero) r.
Proof.
  destruct t as [|c t]; [auto|]. destruct (ascii_dec c ",") as [->|N]; [|left; now apply (char_rule_other _ c t)].
  cbn. destruct (span is_blank t) as [[|? ?] r]; eauto.
Qed.

Lemma is_letter_alpha c : is_letter c = is_alpha c.
Proof. reflexivity. Qed.

Lemma hd_or r rest : r = rest \/ r = skip rest -> hd r = hd rest.
Proof. intros [->| ->]; [reflexivity|apply hd_skip]. Qed.

(** Reading a written number behind "/". *)
Lemma slash_written d b r rest' : number_tail true "/" None b = (d, r) -> hd b <> Some "/"%char -> blank_start rest' -> hd rest' = hd r ->
  exists r', (r' = rest' \/ r' = skip rest') /\ number_tail true "/" None (tail_text d ++ rest') = (d, r') /\
    hd (tail_text d ++ rest') <> Some "/"%char /\
    (forall s, slash_rule wm true (String "/" (tail_text d ++ rest')) s = checked wm d r' s) /\
    (number_tail false "/" None b = (d, r) -> hd r <> Some "["%char -> forall s, slash_rule wm false (String "/" (tail_text d ++ rest')) s = checked wm d r' s).
Proof.
  intros NT HB B HD. pose proof (slash_hd _ _ _ _ _ NT HB HD) as HS.
  pose proof NT as NT0. apply number_tail_spec in NT0 as (W & AS & OK & F & L & _).
  destruct (number_tail_text true "/" None d rest' OK B) as (r' & NT' & R'). { intros x X. apply F. congruence. }
  assert (WH : with_head "/" None d = d) by (rewrite <- W, <- AS; apply with_head_id). rewrite WH in NT'.
  exists r'. split; [exact R'|]. split; [exact NT'|]. split; [exact HS|]. split.
  - intro s. rewrite slash_rule_eq by exact HS. now rewrite NT'.
  - intros NF NB s. rewrite slash_rule_eq by exact HS. pose proof NF as NF0. apply number_tail_spec in NF0 as (_ & _ & OK2 & F2 & _).
    destruct (number_tail_text false "/" None d rest' OK2 B) as (r2 & NT2 & R2). { intros x X. apply F2. congruence. }
    rewrite WH in NT2. rewrite NT2. destruct (open_first _ _ _ _ _ NT' NT2) as [_ ->]; [|reflexivity]. rewrite (hd_or _ _ R2). congruence.
Qed.

(** An attribute that was read, written in front of something that goes on with
    the same character, is read again. *)
Lemma attr_again t s s' a rest : LA t s = (s', ROk a rest) -> a <> AChr "," zero -> hd rest <> Some "["%char ->
  (exists c r, attr_text a = String c r /\ hd t = Some c /\ c <> "["%char /\ is_blank c = false) /\
  (String.length rest < String.length t)%nat /\
  (forall rest', char_rule (attr_text a ++ rest') = RFail) /\ again LA s s' a rest.
Proof.
  intros H NC NB.
  assert (C : char_rule t = RFail).
  { destruct (char_rule_cases t) as [C|(r & C)]; [exact C|]. exfalso. apply NC. unfold LA, line_attribute in H. rewrite C in H. cbn in H. now inv H. }
  pose proof (skip_length t) as SL.
  destruct (skip t) as [|c r] eqn:E; [rewrite la_blank in H by exact E; discriminate|].
  assert (HT : hd t = Some c) by (unfold hd; now rewrite E).
  assert (BC : is_blank c = false) by (destruct (skip_spec t) as (? & _ & _ & X); now rewrite E in X).
  destruct (ascii_dec c "/") as [->|N1]; [|destruct (ascii_dec c "(") as [->|N2]; [|destruct (ascii_dec c "%") as [->|N3]]].
  - (* slash *)
    rewrite (la_slash t r s C E) in H. destruct (slash_rule wm true t s) as [s1 R1] eqn:S1.
    assert (X : exists d, number_tail true "/" None r = (d, rest) /\ hd r <> Some "/"%char /\ a = ADec d /\
      (verify wm d s = (s', VTrue) \/ (number_tail false "/" None r = (d, rest) /\ verify wm d s = (s1, VFalse) /\ verify wm d s1 = (s', VTrue)))).
    { destruct R1; cbn [orelse] in H; try discriminate.
      - apply slash_tail in H as (b & d & Eb & HB & NT & -> & V). rewrite E in Eb. inv Eb.
        unfold slash_rule in S1. rewrite E in S1.
        assert (S1' : (let '(d, r') := number_tail true "/" None b in checked wm d r' s) = (s1, RFail)).
        { unfold hd in HB. destruct (skip b) as [|x y]; [exact S1|]. destruct x as [[] [] [] [] [] [] [] []]; try exact S1. now contradiction HB. }
        destruct (number_tail true "/" None b) as [d1 r1] eqn:NT1. destruct (open_first _ _ _ _ _ NT1 NT NB) as [-> ->].
        exists d. repeat (split; [auto|]). right. split; [exact NT|]. split; [|exact V].
        unfold checked in S1'. destruct (verify wm d s) as [x [| |]]; inv S1'. reflexivity.
      - inv H. apply slash_tail in S1 as (b & d & Eb & HB & NT & -> & V). rewrite E in Eb. inv Eb. exists d. auto. }
    destruct X as (d & NT & HB & -> & V). pose proof NT as NT0. apply number_tail_spec in NT0 as (W & AS & _ & _ & L & _).
    assert (TX : attr_text (ADec d) = String "/" (tail_text d)) by (cbn [attr_text]; rewrite decimal_text_eq, W, AS; reflexivity).
    split; [rewrite TX; exists "/"%char, (tail_text d); auto using eq_refl; repeat split; auto; discriminate|].
    split; [cbn in SL; lia|].
    assert (CR : forall rest', char_rule (attr_text (ADec d) ++ rest') = RFail) by (intro; rewrite TX; reflexivity).
    split; [exact CR|]. intros rest' B HD _ _. destruct (slash_written _ _ _ _ NT HB B HD) as (r' & R' & _ & HS & G1 & G2).
    exists r'. split; [|exact R']. rewrite (la_slash _ (tail_text d ++ rest')); [|apply CR|rewrite TX; reflexivity]. rewrite TX. cbn [append]. rewrite G1.
    unfold checked at 1. destruct V as [V|(NF & V1 & V2)].
    + rewrite V. reflexivity.
    + rewrite V1. cbn [orelse]. rewrite (G2 NF NB). unfold checked. now rewrite V2.
  - (* comment *)
    rewrite (la_comment t r s C E) in H. inv H. unfold comment_rule in H2. rewrite E in H2.
    pose proof (span_spec (fun c => negb (Ascii.eqb c ")")) r) as SP. destruct (span (fun c => negb (Ascii.eqb c ")")) r) as [v [|q r']]; [discriminate|].
    inv H2. destruct SP as (ER & AV & Q). apply negb_false_iff, Ascii.eqb_eq in Q. subst q.
    assert (TX : attr_text (AStr "(" v) = ("(" ++ v ++ ")")%string) by reflexivity.
    split; [exists "("%char, (v ++ ")")%string; repeat split; auto; discriminate|].
    split; [rewrite ER in SL; cbn in SL; rewrite string_app_length in SL; cbn in SL; lia|]. split; [reflexivity|].
    intros rest' B HD _ _. rewrite TX. exists rest'. split; [|auto].
    rewrite (la_comment _ ((v ++ ")") ++ rest')); [|reflexivity|reflexivity]. f_equal. unfold comment_rule.
    rewrite skip_none by reflexivity. cbn [append]. rewrite string_app_assoc. cbn [append]. rewrite span_app; [reflexivity|exact AV|reflexivity].
  - (* program start *)
    rewrite (la_percent t r s C E) in H. inv H. unfold start_program_rule in H2. rewrite E in H2. destruct (skip r) eqn:ER; [|discriminate]. inv H2.
    split; [exists "%"%char, ""%string; repeat split; auto; discriminate|]. split; [destruct t; [discriminate E|cbn; lia]|]. split; [reflexivity|].
    intros rest' B HD _ _. cbn in HD. assert (SR : skip rest' = ""%string) by (unfold hd in HD; destruct (skip rest'); [reflexivity|discriminate]).
    exists ""%string. split; [|right; congruence]. change (attr_text (AChr "%" zero)) with "%"%string.
    rewrite (la_percent _ rest'); [|reflexivity|reflexivity]. unfold start_program_rule. rewrite skip_none by reflexivity. cbn [append]. now rewrite SR.
  - (* word *)
    assert (OS : other_start c) by (repeat split; assumption). rewrite (la_word t c r s C E OS) in H.
    assert (FW : forall w b, (skip t = w ++ b)%string -> forall x y, w = String x y -> x = c) by (intros w b Q x y ->; cbn in Q; congruence).
    destruct (decimal_rule wm dec asg t s) as [s1 R1] eqn:D1. destruct R1 as [|a1 r1|x|x]; cbn [orelse] in H; try discriminate.
    + destruct (assignable_rule wm asg t s1) as [s2 R2] eqn:A1. destruct R2 as [|a2 r2|x|x]; cbn [orelse] in H; try discriminate.
      * (* program name *)
        inv H. unfold program_name_rule in H2. rewrite E in H2.
        assert (c = "O"%char) by (destruct c as [[] [] [] [] [] [] [] []]; (discriminate H2 || reflexivity)). subst c.
        pose proof (span_spec is_name_char r) as SP. destruct (span is_name_char r) as [v r'] eqn:SN. destruct SP as (ER & AV & Q).
        destruct v as [|v0 v1]; [discriminate|]. set (v := String v0 v1) in *. inv H2.
        assert (S1 : s1 = s /\ (forall rest', blank_start rest' -> decimal_rule wm dec asg (String "O" (v ++ rest')) s = (s, RFail))).
        { unfold decimal_rule in D1. rewrite E in D1. destruct (assign_ahead asg (String "O" (v ++ r'))) eqn:AA.
          - exfalso. unfold assign_ahead in AA. destruct (sym_match asg (String "O" (v ++ r'))) as [u|] eqn:U; [|discriminate].
            apply sym_match_some in U as (U & P & _). destruct (to_chars _ _ _ T u) as (NE & _); [auto|]. destruct u as [|u0 u]; [contradiction|].
            apply prefix_iff in P as (b & P). cbn in P. inv P. apply (to_name _ _ _ T u). exact U.
          - destruct (sym_match dec (String "O" (v ++ r'))) as [w|] eqn:M.
            + exfalso. destruct (number_tail true w None (drop (String.length w) (String "O" (v ++ r')))) as [d rr] eqn:NT. apply number_tail_spec in NT as (W & _).
              apply sym_match_some in M as (I & P & _). destruct (to_chars _ _ _ T w) as (NE & _); [auto|]. destruct w as [|w0 w]; [contradiction|].
              apply prefix_iff in P as (b & P). cbn in P. inv P. unfold checked, verify in D1. rewrite W in D1.
              destruct (to_name _ _ _ T w) as [Q1 _]. rewrite (Q1 I) in D1. discriminate.
            + inv D1. split; [reflexivity|]. intros rest' B. unfold decimal_rule. rewrite skip_none by reflexivity.
              assert (MN : forall l, (forall u, In u l -> all_chars (fun c => negb (is_blank c)) u = true) -> sym_match l (String "O" (v ++ r')) = None -> sym_match l (String "O" (v ++ rest')) = None).
              { intros l NBl Ml. apply sym_match_none. intros u U. destruct (prefix u (String "O" (v ++ rest'))) eqn:P; [|reflexivity]. exfalso.
                destruct (blank_prefix_none u v rest' "O" (NBl u U) B P) as (b & Eb). assert (prefix u (String "O" (v ++ r')) = true).
                { change (String "O" (v ++ r')) with ("O" ++ v ++ r')%string. rewrite <- string_app_assoc, Eb, string_app_assoc. apply prefix_app. }
                pose proof (proj1 (sym_match_none l _) Ml u U). congruence. }
              assert (UO : sym_match asg (String "O" (v ++ rest')) = None).
              { apply sym_match_none. intros u U. destruct (prefix u (String "O" (v ++ rest'))) eqn:P; [|reflexivity]. exfalso.
                destruct (to_chars _ _ _ T u) as (NE & _); [auto|]. destruct u as [|u0 u]; [contradiction|].
                apply prefix_iff in P as (b & P). cbn in P. inv P. apply (to_name _ _ _ T u). exact U. }
              unfold assign_ahead. rewrite UO. rewrite MN; [reflexivity| |exact M]. intros u U. apply (to_chars _ _ _ T u). auto. }
        destruct S1 as [-> S1].
        assert (UO : forall x, assignable_rule wm asg (String "O" x) s = (s, RFail)).
        { intro x. unfold assignable_rule. rewrite skip_none by reflexivity. replace (sym_match asg (String "O" x)) with (@None string); [reflexivity|]. symmetry.
          apply sym_match_none. intros u U. destruct (prefix u (String "O" x)) eqn:P; [|reflexivity]. exfalso.
          destruct (to_chars _ _ _ T u) as (NE & _); [auto|]. destruct u as [|u0 u]; [contradiction|].
          apply prefix_iff in P as (b & P). cbn in P. inv P. apply (to_name _ _ _ T u). exact U. }
        assert (s' = s).
        { destruct (rules_skip t) as (_ & _ & _ & _ & AR & _). rewrite AR, E, UO in A1. now inv A1. } subst s'.
        assert (TX : attr_text (AStr "O" v) = String "O" v) by (cbn; now rewrite string_app_nil). rewrite TX.
        split; [exists "O"%char, v; repeat split; auto; discriminate|].
        split.
        { cbn in SL. rewrite string_app_length in SL. pose proof (span_spec is_blank r') as Q1. destruct (span is_blank r') as [x1 y1]. destruct Q1 as (Q1 & _).
          cbn [snd]. pose proof (span_spec is_alpha y1) as Q2. destruct (span is_alpha y1) as [x2 y2]. destruct Q2 as (Q2 & _). cbn [snd].
          rewrite Q1, string_app_length, Q2, string_app_length in SL. lia. }
        split; [reflexivity|]. intros rest' B HD _ HN. rewrite TX. exists (skip rest'). split; [|auto].
        rewrite (la_word _ "O" (v ++ rest')); [|reflexivity|reflexivity|exact OS]. cbn [append]. rewrite S1 by exact B. cbn [orelse]. rewrite UO. cbn [orelse].
        f_equal. unfold program_name_rule. rewrite skip_none by reflexivity. rewrite span_app; [|exact AV|].
        -- unfold v. f_equal. change (snd (span is_blank rest')) with (skip rest'). specialize (HN (ex_intro _ _ eq_refl)).
           rewrite span_none; [reflexivity|]. unfold hd in HN. destruct (skip rest') as [|q z]; [exact I|]. apply (HN q eq_refl).
        -- destruct rest' as [|q z]; [exact I|]. cbn in B. clear -B. unfold is_name_char, is_alpha, is_upper, is_lower, is_digit, is_blank in *.
           destruct (Ascii.eqb q "_") eqn:U; [apply Ascii.eqb_eq in U; subst; discriminate B|lia].
      * (* assignable *)
        inv H. destruct (assignable_again _ _ _ _ _ A1) as (w & tl & I & TX & (b & Eb) & L & AA & AG & DF).
        assert (s1 = s). { unfold decimal_rule in D1. rewrite AA in D1. now inv D1. } subst s1.
        destruct (word_start w) as (x & y & Ew & Bx & NX & OX); [auto|]. pose proof (FW w b ltac:(congruence) x y Ew) as Hx. subst x.
        destruct (to_chars _ _ _ T w) as (NE & NCm & NBw); [auto|].
        split; [exists c, (y ++ tl)%string; rewrite TX, Ew; auto|]. split; [exact L|].
        assert (CR : forall rest', char_rule (attr_text a ++ rest') = RFail) by (intro; rewrite TX, string_app_assoc; now apply char_rule_word).
        split; [exact CR|]. intros rest' B HD HA HN. destruct (AG rest' B HD HA HN) as (r'' & G & R''). exists r''. split; [|exact R''].
        rewrite (la_word _ c (y ++ tl ++ rest')); [|apply CR|rewrite TX, Ew, string_app_assoc; now apply skip_app|exact OX].
        rewrite DF. cbn [orelse]. rewrite G. reflexivity.
    + (* decimal *)
      inv H. destruct (decimal_again _ _ _ _ _ D1) as (w & tl & I & TX & (b & Eb) & L & AG).
      destruct (word_start w) as (x & y & Ew & Bx & NX & OX); [auto|]. pose proof (FW w b ltac:(congruence) x y Ew) as Hx. subst x.
      destruct (to_chars _ _ _ T w) as (NE & NCm & NBw); [auto|].
      split; [exists c, (y ++ tl)%string; rewrite TX, Ew; auto|]. split; [exact L|].
      assert (CR : forall rest', char_rule (attr_text a ++ rest') = RFail) by (intro; rewrite TX, string_app_assoc; now apply char_rule_word).
      split; [exact CR|]. intros rest' B HD HA HN. destruct (AG rest' B HD HA HN) as (r'' & G & R''). exists r''. split; [|exact R''].
      rewrite (la_word _ c (y ++ tl ++ rest')); [|apply CR|rewrite TX, Ew, string_app_assoc; now apply skip_app|exact OX].
      rewrite G. reflexivity.
Qed.

Lemma block_text_cons a v : block_text (a :: v) = (attr_text a ++ match v with [] => "" | _ => String " " (block_text v) end)%string.
Proof. unfold block_text. cbn. destruct v; cbn; [symmetry; apply string_app_nil|reflexivity]. Qed.

Definition no_comma (v : block) : Prop := ~ In (AChr "," zero) v.
Definition apart (v : block) : Prop := neighbours (fun a b => ~ join asg attr_text a b) v.

Definition first_char (v : block) : option ascii :=
  match v with [] => None | a :: _ => match attr_text a with String c _ => Some c | EmptyString => None end end.

Lemma begins_hd p t c : begins_with p t -> (exists r, t = String c r) -> p c = true.
Proof. intros B (r & ->). exact B. Qed.

Lemma line_again f : forall t v0 s s1 V, line_attributes wm dec asg f t v0 s = (s1, V, PTrue) ->
  exists v, V = (v0 ++ v)%list /\ (no_comma v -> apart v ->
    hd t = first_char v /\ hd t <> Some "["%char /\ skip (block_text v) = block_text v /\ hd (block_text v) = first_char v /\
    forall f' t', (t' = block_text v \/ t' = String " " (block_text v)) -> (String.length t' < f')%nat ->
      line_attributes wm dec asg f' t' v0 s = (s1, V, PTrue)).
Proof.
  induction f as [|f IH]; intros t v0 s s1 V H; [discriminate|]. cbn [line_attributes] in H.
  destruct (line_attribute wm dec asg t s) as [s' R] eqn:E. destruct R as [|a r|x|x]; try discriminate.
  - (* the end *)
    destruct v0 as [|a0 v0]; [discriminate|]. destruct (skip t) eqn:ST; [|discriminate]. inv H. exists []. rewrite app_nil_r. split; [reflexivity|].
    fold (LA t s) in E. rewrite la_blank in E by exact ST. inv E. intros _ _. unfold hd. rewrite ST. split; [reflexivity|]. split; [discriminate|].
    split; [reflexivity|]. split; [reflexivity|]. intros f' t' Ht L. destruct f' as [|f']; [lia|]. cbn [line_attributes]. fold (LA t' s1).
    assert (K : skip t' = ""%string) by (destruct Ht as [-> | ->]; reflexivity). rewrite la_blank by exact K. now rewrite K.
  - destruct (IH _ _ _ _ _ H) as (v & EV & G). exists (a :: v). rewrite EV, <- app_assoc. split; [reflexivity|]. intros NC AP.
    assert (NC' : no_comma v) by (intro I; apply NC; now right).
    assert (AP' : apart v) by (unfold apart in *; cbn in AP; destruct v; [exact I|tauto]).
    destruct (G NC' AP') as (HR & NB & SK & HB & GO).
    assert (NA : a <> AChr "," zero) by (intro; subst; apply NC; now left).
    destruct (attr_again _ _ _ _ _ E NA NB) as ((c & x & TX & HT & NX & BX) & L & CR & AG).
    assert (FB : first_char (a :: v) = Some c) by (cbn; now rewrite TX).
    assert (BT : exists y, block_text (a :: v) = String c y) by (rewrite block_text_cons, TX; eexists; reflexivity). destruct BT as (y & BT).
    assert (SKB : skip (block_text (a :: v)) = block_text (a :: v)) by (rewrite BT; now apply skip_none).
    split; [congruence|]. split; [congruence|]. split; [exact SKB|]. split; [unfold hd; rewrite SKB, BT, FB; reflexivity|].
    intros f' t' Ht Lf.
    set (rest' := match v with [] => "" | _ => String " " (block_text v) end).
    assert (B' : blank_start rest') by (unfold rest'; destruct v; reflexivity).
    assert (HD' : hd rest' = first_char v).
    { unfold rest'. destruct v as [|b v']; [reflexivity|]. unfold hd. rewrite skip_blank by reflexivity. exact HB. }
    assert (LT : exists r'', LA t' s = (s', ROk a r'') /\ (r'' = rest' \/ r'' = skip rest')).
    { destruct (AG rest') as (r'' & GA & R''); [exact B'|congruence| | |].
      - intros I K. rewrite HD' in K. unfold apart in AP. cbn in AP. destruct v as [|b v']; [discriminate K|]. destruct AP as [AP _]. apply AP. left. split; [exact I|].
        cbn in K. destruct (attr_text b); [discriminate|]. inv K. reflexivity.
      - intros (n & ->) c' K. rewrite HD' in K. unfold apart in AP. cbn in AP. destruct v as [|b v']; [discriminate K|]. destruct AP as [AP _].
        destruct (is_letter c') eqn:LT; [|reflexivity]. exfalso. apply AP. right. split; [eauto|]. cbn in K. destruct (attr_text b); [discriminate|]. inv K. exact LT.
      - exists r''. split; [|exact R'']. assert (BE : block_text (a :: v) = (attr_text a ++ rest')%string) by apply block_text_cons.
        destruct Ht as [-> | ->]; [rewrite BE; exact GA|]. rewrite la_skip; rewrite ?(skip_blank " ") by reflexivity; [rewrite SKB, BE; exact GA|reflexivity|].
        rewrite SKB, BE. apply CR. }
    destruct LT as (r'' & LT & R''). destruct f' as [|f']; [lia|]. cbn [line_attributes]. fold (LA t' s). rewrite LT. rewrite EV in GO.
    assert (LL : (String.length r'' < String.length t')%nat).
    { assert (K : (String.length r'' <= String.length rest')%nat) by (destruct R'' as [-> | ->]; [lia|apply skip_length]).
      assert (M : (String.length rest' < String.length (block_text (a :: v)))%nat) by (rewrite block_text_cons, string_app_length, TX; cbn [String.length]; unfold rest'; lia).
      destruct Ht as [-> | ->]; cbn [String.length]; lia. }
    rewrite <- app_assoc in GO. apply GO; [|lia].
    unfold rest' in R''. destruct v as [|b v']; [left; destruct R'' as [-> | ->]; reflexivity|].
    destruct R'' as [-> | ->]; [auto|]. left. rewrite skip_blank by reflexivity. exact SK.
Qed.

End Tables.

(** The whole line. *)
Lemma parse_again lg t s s' v : tables_ok (lg_map lg) (lg_decimal lg) (lg_assignable lg) -> grammar_parse lg t s = (s', v, PTrue) ->
  no_comma v -> apart (lg_assignable lg) v -> grammar_parse lg (block_text v) s = (s', v, PTrue).
Proof.
  intros TO H NC AP. unfold grammar_parse, phrase_parse in *.
  destruct (line_again _ _ _ TO _ _ _ _ _ _ H) as (w & E & G). cbn in E. subst w. destruct (G NC AP) as (_ & _ & _ & _ & GO).
  apply GO; [auto|lia].
Qed.
