(** C41: only an assignment [#n = ...] changes the macro table.

    Full statement: a block without an "=" word leaves the table unchanged.
    That is false (C41_refuted): [#1 X5] stores 5 in macro 1.  What holds:
    a block without a "#" word leaves it unchanged and is accepted. *)
From Verif Require Import Model.Base Model.Attr Model.Double Model.Macro Model.Calc Model.MacroAssign
  Spec.AssignSpec Proofs.MacroAssignProofs.

Theorem C41_partial : forall lit libm mv line b, ~ has_word "#" b ->
  macro_evaluate lit libm mv line b = Ok (mv, None).
Proof. exact no_hash_unchanged. Qed.
Print Assumptions C41_partial.

Theorem C41_refuted : forall lit libm, exists mv line b v,
  ~ has_word "=" b /\
  macro_evaluate lit libm mv line b = Ok (mstep mv (MUser 1 line v), None) /\
  macro_lookup mv 1 line = None /\ macro_lookup (mstep mv (MUser 1 line v)) 1 line = Some v.
Proof. exact no_equal_accepted. Qed.
Print Assumptions C41_refuted.

Example C41_ex : ~ has_word "#" [ADec (plain "G" "1"); AStr "(" "x)"; ADec (plain "X" "5")].
Proof.
  intros (d & I & E). destruct I as [I|[I|[I|[]]]]; try discriminate; injection I as <-; discriminate.
Qed.
