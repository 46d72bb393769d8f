(** C21: printing a parsed block and parsing it again is stable. *)
From Verif Require Import Model.Base Model.Attr Model.Grammar Model.Shipped Spec.Text Spec.GrammarSpec.
From Verif Require Import Proofs.PrintProofs Proofs.ShippedProofs.

(** A line that is accepted, with no comma of its own and no two neighbours that
    would join, is written and read back to the same words, and leaves the
    parser in the same state.  [tables_ok] is what is asked of the word tables.
    Missing: commas and joining neighbours, where the claim fails (below). *)
Theorem C21_partial : forall lg t s s' v, tables_ok (lg_map lg) (lg_decimal lg) (lg_assignable lg) ->
  grammar_parse lg t s = (s', v, PTrue) ->
  ~ In (AChr "," zero) v -> neighbours (fun a b => ~ join (lg_assignable lg) attr_text a b) v ->
  grammar_parse lg (block_text v) s = (s', v, PTrue).
Proof. exact parse_again. Qed.

(** Every word table the project ships is of that kind. *)
Theorem C21_shipped_partial : forall lg t s s' v, In lg shipped_grammars ->
  grammar_parse lg t s = (s', v, PTrue) ->
  ~ In (AChr "," zero) v -> neighbours (fun a b => ~ join (lg_assignable lg) attr_text a b) v ->
  grammar_parse lg (block_text v) s = (s', v, PTrue).
Proof. intros lg t s s' v I. exact (parse_again lg t s s' v (shipped_ok lg I)). Qed.

Definition mill : line_grammar := make_grammar (mkFG fanuc_mill_metric fanuc_mill_imperial) shipped_ops fanuc_mill_metric.

Lemma mill_shipped : In mill shipped_grammars.
Proof. vm_compute. tauto. Qed.

(** A word and an assignment: "A 2 = 5" is A2 and =5, written "A2 =5", which is
    the assignment A2=5. *)
Theorem C21_assign_refuted : exists s' v s2 w,
  grammar_parse mill "A 2 = 5" gstate_init = (s', v, PTrue) /\
  grammar_parse mill (block_text v) gstate_init = (s2, w, PTrue) /\ v <> w.
Proof.
  eexists _, _, _, _. split; [vm_compute; reflexivity|]. split; [vm_compute; reflexivity|]. discriminate.
Qed.

(** A comma of its own behind a comment is not read again. *)
Theorem C21_comma_refuted : exists s' v,
  grammar_parse mill "(c), X1" gstate_init = (s', v, PTrue) /\
  forall s2 w, grammar_parse mill (block_text v) gstate_init <> (s2, w, PTrue).
Proof.
  eexists _, _. split; [vm_compute; reflexivity|]. intros s2 w H. vm_compute in H. discriminate.
Qed.

(** The word behind a program name is swallowed. *)
Theorem C21_name_refuted : exists s' v,
  grammar_parse mill "O1 AB X1" gstate_init = (s', v, PTrue) /\
  forall s2 w, grammar_parse mill (block_text v) gstate_init <> (s2, w, PTrue).
Proof.
  eexists _, _. split; [vm_compute; reflexivity|]. intros s2 w H. vm_compute in H. discriminate.
Qed.

Example C21_ex : exists s' v, grammar_parse mill "/2N10  G 1X-  1.50C2= [#7 ](a b)F#3" gstate_init = (s', v, PTrue) /\
  ~ In (AChr "," zero) v /\ neighbours (fun a b => ~ join (lg_assignable mill) attr_text a b) v /\ In mill shipped_grammars /\
  block_text v = "/2 N10 G1 X-1.50 C2=[#7] (a b) F#3".
Proof.
  eexists _, _. split; [vm_compute; reflexivity|]. split; [cbn; intuition discriminate|]. split; [|split; [exact mill_shipped|reflexivity]].
  assert (NO : forall n : string, forall d : decimal, ADec d <> AStr "O" n) by discriminate.
  cbn. repeat split; intros [[J _]|[(n & J) _]]; try discriminate J; vm_compute in J; intuition discriminate.
Qed.

Print Assumptions C21_partial.
Print Assumptions C21_shipped_partial.
Print Assumptions C21_assign_refuted.
Print Assumptions C21_comma_refuted.
Print Assumptions C21_name_refuted.
