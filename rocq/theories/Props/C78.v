(** C78: what an editing command writes is read again as it was meant. *)
From Verif Require Import Model.Base Model.Attr Model.Double Model.Grammar Model.Removers Model.Renumberer Model.Rotator Model.UnitConv Model.Shipped.
From Verif Require Import Spec.Text Spec.GrammarSpec Spec.EditSpec.
From Verif Require Import Proofs.Tactics Proofs.PrintProofs Proofs.ShippedProofs Proofs.EditProofs Proofs.EditCases.
Local Open Scope string_scope. Local Open Scope list_scope. Local Open Scope Z_scope.

Definition good (lg : line_grammar) : Prop := tables_ok (lg_map lg) (lg_decimal lg) (lg_assignable lg).

(** Nothing joins when the words are written with blanks between them. *)
Definition nothing_joins (lg : line_grammar) (v : block) : Prop := neighbours (fun a b => ~ meets (lg_assignable lg) attr_text a b) v.

(** Comments taken out.  Missing: lines with a comma of their own, and lines of
    which nothing is left or whose words join, where the claim fails (below). *)
Theorem C78_comments_partial : forall lg t s s' v, good lg -> grammar_parse lg t s = (s', v, PTrue) -> ~ In (AChr "," zero) v ->
  remove_comment v <> [] -> nothing_joins lg (remove_comment v) ->
  grammar_parse lg (block_text (remove_comment v)) s = (s', remove_comment v, PTrue).
Proof.
  intros lg t s s' v T P NC NE NJ. apply chain_parse; auto. apply (chain_comments _ _ _). now apply (parse_chain lg t).
Qed.

(** The number of the block taken out, when it has no brackets. *)
Theorem C78_number_partial : forall lg nw t s s' v, good lg -> grammar_parse lg t s = (s', v, PTrue) -> ~ In (AChr "," zero) v ->
  Forall bracketless v -> remove_number nw v <> [] -> nothing_joins lg (remove_number nw v) ->
  grammar_parse lg (block_text (remove_number nw v)) s = (s', remove_number nw v, PTrue).
Proof.
  intros lg nw t s s' v T P NC B NE NJ. apply chain_parse; auto. pose proof (parse_chain lg t s s' v T P NC) as C.
  unfold remove_number in *. destruct v as [|[d|w x|w x] v]; try exact C. destruct (is_numbering nw (d_word d)); [|exact C].
  inversion_clear B. eapply chain_drop; eauto.
Qed.

(** The marks of optional blocks taken out. *)
Theorem C78_marks_partial : forall lg t s s' v, good lg -> grammar_parse lg t s = (s', v, PTrue) -> ~ In (AChr "," zero) v ->
  Forall bracketless v -> remove_optional_block v <> [] -> nothing_joins lg (remove_optional_block v) ->
  grammar_parse lg (block_text (remove_optional_block v)) s = (s', remove_optional_block v, PTrue).
Proof.
  intros lg t s s' v T P NC B NE NJ. apply chain_parse; auto. apply (chain_marks _ _ _); [exact B|]. now apply (parse_chain lg t).
Qed.

(** Renumbered, when the next number is in the range of the address it is
    written with.  The number the block had is a whole number. *)
Theorem C78_renumber_partial : forall lg nw ren rs ren' g t s s' v v', good lg -> grammar_parse lg t s = (s', v, PTrue) -> ~ In (AChr "," zero) v ->
  renumber nw ren rs v = (ren', v') ->
  (forall d b, v = ADec d :: b -> is_numbering nw (d_word d) = true -> ordinary (d_word d) /\ exists n, d = plain (d_word d) n) ->
  In (rs_word rs) (lg_decimal lg) -> ordinary (rs_word rs) -> assoc (rs_word rs) (lg_map lg) = Some g -> bounds_fit g ->
  0 <= counter ren -> g_from g <= counter ren <= g_to g ->
  v' <> [] -> nothing_joins lg v' ->
  grammar_parse lg (block_text v') s = (s', v', PTrue).
Proof.
  intros lg nw ren rs ren' g t s s' v v' T P NC R EX ID O A B N0 N NE NJ. apply chain_parse; auto.
  eapply (chain_renumber _ _ _ T); eauto. now apply (parse_chain lg t).
Qed.

(** Rotated: the numbers stay in range, with macros and brackets and without.
    Missing: a G whose number comes from a macro. *)
Theorem C78_rotate_partial : forall lg o t s s' v, good lg -> rotation_tables (lg_map lg) (lg_decimal lg) (lg_assignable lg) ->
  grammar_parse lg t s = (s', v, PTrue) -> ~ In (AChr "," zero) v ->
  (forall d, In (ADec d) v -> d_word d = "G" -> d_macro d = None) -> v <> [] -> nothing_joins lg (rotate_block o v) ->
  grammar_parse lg (block_text (rotate_block o v)) s = (s', rotate_block o v, PTrue).
Proof.
  intros lg o t s s' v T RT P NC NM NE NJ. apply chain_parse; auto.
  - apply (chain_rotate _ _ _ T); auto. now apply (parse_chain lg t).
  - destruct v; [contradiction|discriminate].
Qed.

(** The tables the project ships are good ones and good for rotating; and lines
    as they are usually written have nothing that joins. *)
Theorem C78_shipped : forall lg, In lg shipped_grammars ->
  good lg /\ rotation_tables (lg_map lg) (lg_decimal lg) (lg_assignable lg) /\ forall v, Forall usual v -> nothing_joins lg v.
Proof. intros lg I. split; [now apply shipped_ok|]. split; [now apply shipped_rotation|]. intros v U. now apply usual_loose. Qed.

Definition mill : line_grammar := make_grammar (mkFG fanuc_mill_metric fanuc_mill_imperial) shipped_ops fanuc_mill_metric.
Definition mill_inch : line_grammar := make_grammar (mkFG fanuc_mill_metric fanuc_mill_imperial) shipped_ops fanuc_mill_imperial.
Definition mill_numbers : word_map := numbering_words fanuc_mill_metric.

Lemma mill_shipped : In mill shipped_grammars.
Proof. vm_compute. tauto. Qed.

(** A line with a comment only becomes an empty one, which is not accepted. *)
Theorem C78_empty_refuted : exists s' v, grammar_parse mill "(first part)" gstate_init = (s', v, PTrue) /\
  remove_comment v = [] /\ snd (grammar_parse mill (block_text (remove_comment v)) gstate_init) = PFalse.
Proof. eexists _, _. split; [vm_compute; reflexivity|]. split; reflexivity. Qed.

(** The comment kept an address and "=" apart. *)
Theorem C78_joined_refuted : exists s' v s2 w, grammar_parse mill "A 2 (c) = 5" gstate_init = (s', v, PTrue) /\
  block_text (remove_comment v) = "A2 =5" /\ grammar_parse mill "A2 =5" gstate_init = (s2, w, PTrue) /\ w <> remove_comment v.
Proof. eexists _, _, _, _. split; [vm_compute; reflexivity|]. split; [reflexivity|]. split; [vm_compute; reflexivity|]. discriminate. Qed.

(** Renumbering from 99998 in steps of 2, up to 200000: the third line is not
    read again. *)
Theorem C78_range_refuted : exists s' v ren v', grammar_parse mill "G0 X1" gstate_init = (s', v, PTrue) /\
  renumber mill_numbers (mkRen 100000 0) (mkRS "N" 2 0 200000 false false) v = (ren, v') /\ block_text v' = "N100000 G0 X1" /\
  snd (grammar_parse mill (block_text v') gstate_init) <> PTrue.
Proof.
  eexists _, _, _, _. split; [vm_compute; reflexivity|]. split; [vm_compute; reflexivity|]. split; [reflexivity|]. vm_compute. discriminate.
Qed.

(** Rotating turns variable 2 into variable 3 where it stands for the arc. *)
Theorem C78_variable_refuted : exists s' v, grammar_parse mill "G#2 X1" gstate_init = (s', v, PTrue) /\
  block_text (rotate_block X180 v) = "G#3 X1".
Proof. eexists _, _. split; vm_compute; reflexivity. Qed.

(** Converted to millimetres, a number may be too big. *)
Theorem C78_convert_refuted : exists s' v v', grammar_parse mill_inch "G0 X9000." gstate_init = (s', v, PTrue) /\
  unit_convert ImperialToMetric (mkFG fanuc_mill_metric fanuc_mill_imperial) v = Ok v' /\ block_text v' = "G0 X228600" /\
  snd (grammar_parse mill (block_text v') gstate_init) <> PTrue.
Proof.
  eexists _, _, _. split; [vm_compute; reflexivity|]. split; [vm_compute; reflexivity|]. split; [reflexivity|]. vm_compute. discriminate.
Qed.

Example C78_ex : exists s' v, grammar_parse mill "N7 (a) G2 X-1.5 Y20. (b) I.5 F[#100]" gstate_init = (s', v, PTrue) /\
  ~ In (AChr "," zero) v /\ In mill shipped_grammars /\
  block_text (remove_comment v) = "N7 G2 X-1.5 Y20. I.5 F[#100]" /\ nothing_joins mill (remove_comment v) /\
  block_text (rotate_block X180 v) = "N7 (a) G3 X-1.5 Y-20. (b) I.5 F[#100]" /\
  block_text (remove_number mill_numbers v) = "(a) G2 X-1.5 Y20. (b) I.5 F[#100]" /\
  (exists ren, renumber mill_numbers (mkRen 20 0) (mkRS "N" 10 0 99999 false false) v = (ren, ADec (plain "N" "20") :: remove_number mill_numbers v)).
Proof.
  eexists _, _. split; [vm_compute; reflexivity|]. split; [cbn; intuition discriminate|]. split; [exact mill_shipped|].
  split; [reflexivity|]. split; [|split; [reflexivity|split; [reflexivity|eexists; vm_compute; reflexivity]]].
  cbn. repeat split; intros [[[J B]|[(n & J) _]]|[(d & J & B)|[(J & _)|(w & y & J)]]]; try discriminate J; try (vm_compute in J; intuition discriminate); inv J; vm_compute in B; discriminate B.
Qed.

Print Assumptions C78_comments_partial.
Print Assumptions C78_number_partial.
Print Assumptions C78_marks_partial.
Print Assumptions C78_renumber_partial.
Print Assumptions C78_rotate_partial.
Print Assumptions C78_shipped.
Print Assumptions C78_empty_refuted.
Print Assumptions C78_joined_refuted.
Print Assumptions C78_range_refuted.
Print Assumptions C78_variable_refuted.
Print Assumptions C78_convert_refuted.
