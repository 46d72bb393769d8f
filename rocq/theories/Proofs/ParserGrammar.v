(** A line that is read completely leaves no message. *)
From Verif Require Import Model.Base Model.Attr Model.Grammar Spec.Text Spec.GrammarSpec.
From Verif Require Import Proofs.Tactics Proofs.TextProofs Proofs.StringFacts Proofs.GrammarLex Proofs.GrammarTail Proofs.GrammarProofs Proofs.PrintProofs Proofs.StatusProofs.

Lemma verify_true_silent wm d s s' : verify wm d s = (s', VTrue) -> gs_message s' = gs_message s.
Proof.
  unfold verify, verify_value, verify_rest, verify_missing, verify_decimals, verify_optional, add_message, set_status. intro H.
  repeat (match goal with
          | H : context [match ?x with _ => _ end] |- _ => destruct x eqn:?; cbn in H; try discriminate H
          end; try (inv H; reflexivity)).
Qed.

Definition same_but_close (s1 s2 : gstate) (n : Z) : Prop :=
  was_macro (gs_status s2) = was_macro (gs_status s1) /\ was_macro_equal (gs_status s2) = was_macro_equal (gs_status s1) /\
  open_cnt (gs_status s2) = open_cnt (gs_status s1) /\ close_cnt (gs_status s2) = close_cnt (gs_status s1) + n.

Lemma str_len_nonneg o : 0 <= str_len o.
Proof. destruct o; cbn; lia. Qed.

Section Twice.
Variable wm : word_map.
Variable d : decimal.
Hypothesis D : d_open d = None.
Hypothesis W : d_word d = "/"%string.

(** A block skip that was refused once is refused again. *)
Lemma slash_refused s s1 : verify wm d s = (s1, VFalse) -> snd (verify wm d s1) <> VTrue.
Proof.
  unfold verify. rewrite W, D. cbn [str_len]. destruct (assoc "/" wm) as [g|]; [|discriminate]. rewrite Z.add_0_r.
  change (String.eqb "/" "#") with false. change (String.eqb "/" "=") with false. cbn [negb andb orb]. cbn zeta. rewrite ?andb_false_r, ?orb_false_r.
  cbn [gs_status set_status was_macro was_macro_equal open_cnt close_cnt].
  pose proof (str_len_nonneg (d_close d)) as NN.
  destruct (is_some (d_close d) && (open_cnt (gs_status s) - (close_cnt (gs_status s) + str_len (d_close d)) <? 0)) eqn:CB.
  { intro H. inv H. cbn [gs_status add_message set_status was_macro was_macro_equal open_cnt close_cnt]. rewrite ?Z.add_0_r, ?orb_false_r.
    apply andb_true_iff in CB as [CS CB]. apply Z.ltb_lt in CB. rewrite CS.
    replace (open_cnt (gs_status s) - (close_cnt (gs_status s) + str_len (d_close d) + str_len (d_close d)) <? 0) with true by (symmetry; apply Z.ltb_lt; lia).
    discriminate. }
  intro H.
  set (st := mkSt (was_macro (gs_status s)) (was_macro_equal (gs_status s)) (open_cnt (gs_status s)) (close_cnt (gs_status s) + str_len (d_close d))) in *.
  assert (ST : gs_status s1 = st).
  { unfold verify_value, verify_rest, verify_missing, verify_decimals, verify_optional, add_message, set_status in H. rewrite W in H.
    repeat (match goal with
          | H : context [match ?x with _ => _ end] |- _ => destruct x eqn:?; cbn in H; try discriminate H
          end; try (inv H; reflexivity)). }
  rewrite ST. cbn [was_macro was_macro_equal open_cnt close_cnt st]. rewrite ?Z.add_0_r.
  destruct (is_some (d_close d) && (open_cnt (gs_status s) - (close_cnt (gs_status s) + str_len (d_close d) + str_len (d_close d)) <? 0)); [discriminate|].
  destruct (d_macro d) as [m|].
  { destruct (d_value d); [|discriminate]. destruct (verify_string wm m s0); [discriminate|]. inv H. }
  change (String.eqb "/" "/") with true in *. cbn [andb was_macro st] in *.
  destruct (negb (was_macro (gs_status s))) eqn:WMa.
  { clear ST. unfold verify_optional, add_message in *. revert H.
    repeat (match goal with |- context [match ?x with _ => _ end] => destruct x end); cbn; intro; congruence. }
  unfold verify_value, verify_rest, verify_missing, verify_decimals, add_message, set_status in H |- *. rewrite W in *.
  cbn [gs_status was_macro was_macro_equal open_cnt close_cnt] in *.
  destruct (d_value d) as [v|].
  - destruct (stoi v); [|discriminate].
    destruct ((match d_sign d with Some "-"%char => - z | _ => z end <? g_from g) || (g_to g <? match d_sign d with Some "-"%char => - z | _ => z end)); [discriminate|].
    unfold st in *. cbn [gs_status was_macro was_macro_equal open_cnt close_cnt] in *.
    destruct (calc_word "/" && (0 <? open_cnt (gs_status s))); [discriminate|].
    destruct (calc_word "/" && (negb (was_macro (gs_status s)) || negb (was_macro_equal (gs_status s)))); [discriminate|].
    destruct (g_dto g =? 0); [destruct (is_some (d_dot d)); discriminate|].
    destruct ((0 <? g_dto g) && negb (is_some (d_value2 d))); [cbn in *; discriminate|].
    clear ST. revert H. repeat (match goal with |- context [match ?x with _ => _ end] => destruct x end); cbn; intro; congruence.
  - unfold st in *. cbn [gs_status was_macro was_macro_equal open_cnt close_cnt] in *.
    destruct (g_dto g =? 0).
    { destruct (negb (open_cnt (gs_status s) =? 0) || ("/" =? "=")%string || calc_word "/"); discriminate. }
    destruct ((0 <? g_dto g) && negb (is_some (d_value2 d))); cbn [is_some negb] in *.
    { destruct (negb (open_cnt (gs_status s) =? 0) || ("/" =? "=")%string || calc_word "/"); discriminate. }
    clear ST. revert H. repeat (match goal with |- context [match ?x with _ => _ end] => destruct x end); cbn; intro; congruence.
Qed.
End Twice.

Section Tables.
Variable wm : word_map.
Variables dec asg : list string.
Hypothesis T : tables_ok wm dec asg.

Lemma bracket_fails t s : hd t = Some "["%char -> line_attribute wm dec asg t s = (s, RFail) /\ skip t <> ""%string.
Proof.
  intro H. unfold hd in H. destruct (skip t) as [|c r] eqn:E; [discriminate|]. inv H. split; [|discriminate].
  assert (C : char_rule t = RFail).
  { destruct (char_rule_cases t) as [C|(r' & C)]; [exact C|]. exfalso. destruct t as [|x t]; [discriminate|].
    destruct (ascii_dec x ",") as [->|N]; [cbn in E; discriminate|]. rewrite (char_rule_other _ x t eq_refl N) in C. discriminate. }
  rewrite (la_word wm dec asg t "[" r s C E) by (repeat split; discriminate).
  unfold decimal_rule, assignable_rule, assign_ahead, program_name_rule. rewrite E.
  destruct (no_start wm dec asg T "[" r) as [-> ->]; [cbn; tauto|]. reflexivity.
Qed.

Lemma attribute_silent t s s' a rest : line_attribute wm dec asg t s = (s', ROk a rest) -> hd rest <> Some "["%char ->
  gs_message s' = gs_message s.
Proof.
  intros H NB. destruct (char_rule_cases t) as [C|(r & C)].
  2:{ unfold line_attribute in *. rewrite C in *. cbn [orelse] in *. inv H. reflexivity. }
  destruct (skip t) as [|c r] eqn:E; [rewrite (la_blank wm dec asg T) in H by exact E; discriminate|].
  destruct (ascii_dec c "/") as [->|N1]; [|destruct (ascii_dec c "(") as [->|N2]; [|destruct (ascii_dec c "%") as [->|N3]]].
  - rewrite (la_slash wm dec asg T t r s C E) in H. destruct (slash_rule wm true t s) as [s1 R1] eqn:S1. destruct R1; cbn [orelse] in H; try discriminate.
    + exfalso. apply slash_tail in H as (b & d & Eb & HB & NT & -> & V). rewrite E in Eb. inv Eb.
      unfold slash_rule in S1. rewrite E in S1.
      assert (S1' : (let '(d, r') := number_tail true "/" None b in checked wm d r' s) = (s1, RFail)).
      { unfold hd in HB. destruct (skip b) as [|x y]; [exact S1|]. destruct x as [[] [] [] [] [] [] [] []]; try exact S1. now contradiction HB. }
      destruct (number_tail true "/" None b) as [d1 r1] eqn:NT1. destruct (open_first _ _ _ _ _ NT1 NT NB) as [-> ->].
      assert (V1 : verify wm d s = (s1, VFalse)) by (unfold checked in S1'; destruct (verify wm d s) as [x [| |]]; inv S1'; reflexivity).
      apply number_tail_spec in NT as (W & _ & (_ & _ & O & _) & _). apply (slash_refused wm d (O eq_refl) W _ _ V1). rewrite V. reflexivity.
    + inv H. apply slash_tail in S1 as (b & d & _ & _ & _ & _ & V). eapply verify_true_silent; eauto.
  - rewrite (la_comment wm dec asg T t r s C E) in H. inv H. reflexivity.
  - rewrite (la_percent wm dec asg T t r s C E) in H. inv H. reflexivity.
  - assert (OS : other_start c) by (repeat split; assumption). rewrite (la_word wm dec asg t c r s C E OS) in H.
    unfold decimal_rule in *. rewrite E in *. destruct (assign_ahead asg (String c r)) eqn:AA.
    + cbn [orelse] in *. unfold assignable_rule in *. rewrite E in *. unfold assign_ahead in AA. destruct (sym_match asg (String c r)) as [u|] eqn:U; [|discriminate].
      destruct (skip (drop (String.length u) (String c r))) as [|q z]; [discriminate|].
      assert (q = "="%char) by (destruct q as [[] [] [] [] [] [] [] []]; (discriminate AA || reflexivity)). subst q.
      destruct (number_tail true u (Some "="%char) z) as [d rr]. destruct (checked wm d rr s) as [x R] eqn:K.
      destruct R as [|a1 r1| |]; cbn [orelse] in H; try discriminate.
      * exfalso. inv H. unfold program_name_rule in H2. rewrite E in H2. assert (c = "O"%char) by (destruct c as [[] [] [] [] [] [] [] []]; (discriminate H2 || reflexivity)). subst c.
        rewrite (name_unmatched wm dec asg T) in U. discriminate.
      * inv H. apply checked_ok in K as (V & _ & _). eapply verify_true_silent; eauto.
    + destruct (sym_match dec (String c r)) as [w|] eqn:M.
      * destruct (number_tail true w None (drop (String.length w) (String c r))) as [d rr] eqn:NT. destruct (checked wm d rr s) as [x R] eqn:K.
        destruct R as [|a1 r1| |]; cbn [orelse] in H; try discriminate.
        -- exfalso. unfold assignable_rule in H. rewrite E in H. unfold assign_ahead in AA. destruct (sym_match asg (String c r)) as [u|] eqn:U.
           { destruct (skip (drop (String.length u) (String c r))) as [|q z]; [discriminate H|].
             destruct q as [[] [] [] [] [] [] [] []]; discriminate. }
           cbn [orelse] in H. inv H. unfold program_name_rule in H2. rewrite E in H2. assert (c = "O"%char) by (destruct c as [[] [] [] [] [] [] [] []]; (discriminate H2 || reflexivity)). subst c.
           apply number_tail_spec in NT as (W & _). apply sym_match_some in M as (I & P & _). destruct (to_chars _ _ _ T w) as (NE & _); [auto|]. destruct w as [|w0 w]; [contradiction|].
           apply prefix_iff in P as (b & P). cbn in P. inv P. unfold checked, verify in K. rewrite W in K.
           destruct (to_name _ _ _ T w) as [Q1 _]. rewrite (Q1 I) in K. discriminate.
        -- inv H. apply checked_ok in K as (V & _ & _). eapply verify_true_silent; eauto.
      * cbn [orelse] in *. unfold assignable_rule in *. rewrite E in *. unfold assign_ahead in AA. destruct (sym_match asg (String c r)) as [u|] eqn:U.
        { destruct (skip (drop (String.length u) (String c r))) as [|q z]; [discriminate H|]. destruct q as [[] [] [] [] [] [] [] []]; discriminate. }
        cbn [orelse] in *. inv H. reflexivity.
Qed.

Lemma attributes_silent f : forall t v0 s s' V, line_attributes wm dec asg f t v0 s = (s', V, PTrue) -> gs_message s' = gs_message s /\ V <> [].
Proof.
  induction f as [|f IH]; intros t v0 s s' V H; [discriminate|]. cbn [line_attributes] in H.
  destruct (line_attribute wm dec asg t s) as [x R] eqn:E. destruct R as [|a r| |]; try discriminate.
  - destruct v0 as [|a0 v0]; [discriminate|]. destruct (skip t) eqn:ST; [|discriminate]. inv H. rewrite (la_blank wm dec asg T) in E by exact ST. inv E. split; [reflexivity|discriminate].
  - destruct (hd r) as [c|] eqn:HD.
    2:{ pose proof (IH _ _ _ _ _ H) as [M N]. split; [|exact N]. rewrite M. eapply attribute_silent; eauto. rewrite HD. discriminate. }
    destruct (ascii_dec c "[") as [->|N].
    + exfalso. destruct f as [|f]; [discriminate|]. cbn [line_attributes] in H. destruct (bracket_fails r x HD) as [B NE]. rewrite B in H.
      destruct (v0 ++ [a])%list; [discriminate|]. destruct (skip r); [now contradiction NE|discriminate].
    + pose proof (IH _ _ _ _ _ H) as [M NV]. split; [|exact NV]. rewrite M. eapply attribute_silent; eauto. rewrite HD. congruence.
Qed.
End Tables.

Lemma parse_silent lg t s s' v : tables_ok (lg_map lg) (lg_decimal lg) (lg_assignable lg) ->
  grammar_parse lg t s = (s', v, PTrue) -> gs_message s' = [] /\ v <> [].
Proof. intros TO H. unfold grammar_parse, phrase_parse in H. apply (attributes_silent _ _ _ TO) in H. exact H. Qed.
