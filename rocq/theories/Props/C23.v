(** C23: a macro assignment with a malformed right-hand side is refused and
    leaves the macro table unchanged.

    Full statement: if [assigns b id t] and no expression is spelled by [t],
    then [macro_evaluate] answers with a message.  That is false
    (C23_refuted): text after a complete expression is ignored, as in
    [#1 = 1 X5].  What holds: an accepted assignment has a complete expression
    as a prefix of its right-hand side, not followed by an operator, and
    stores that value; every refusal leaves the table unchanged; and a
    right-hand side without such a prefix is refused. *)
From Verif Require Import Model.Base Model.Attr Model.Double Model.Macro Model.Calc Model.MacroAssign
  Spec.CalcSpec Spec.AssignSpec Proofs.CalcProofs Proofs.MacroAssignProofs.

Theorem C23_assignment_partial : forall lit libm mv line b id t, assigns b id t -> id <= int_max ->
  match macro_evaluate lit libm mv line b with
  | Ok (mv', None) =>
      exists e t1 r v, t = (t1 ++ r)%string /\ spells libm LExpr e t1 /\
        (forall s op x, blanks s -> r <> (s ++ op_text op ++ x)%string) /\
        value lit libm mv e = Ok v /\ mv' = mstep mv (MUser id line v)
  | Ok (mv', Some _) => mv' = mv
  | Exc x => exists e t1 r, t = (t1 ++ r)%string /\ spells libm LExpr e t1 /\ value lit libm mv e = Exc x
  end.
Proof. exact assignment_outcomes. Qed.
Print Assumptions C23_assignment_partial.

Theorem C23_no_prefix_partial : forall lit libm mv line b id t, assigns b id t -> id <= int_max ->
  (forall e t1 r, t = (t1 ++ r)%string -> ~ spells libm LExpr e t1) ->
  exists m, macro_evaluate lit libm mv line b = Ok (mv, Some m).
Proof. exact no_prefix_refused. Qed.
Print Assumptions C23_no_prefix_partial.

Theorem C23_refusal_unchanged : forall lit libm mv line b mv' m,
  macro_evaluate lit libm mv line b = Ok (mv', Some m) -> mv' = mv.
Proof. exact refused_unchanged. Qed.
Print Assumptions C23_refusal_unchanged.

(** A complete right-hand side is stored with its value. *)
Theorem C23_complete_accepted : forall lit libm mv line b id t e,
  assigns b id t -> id <= int_max -> spells libm LExpr e t ->
  macro_evaluate lit libm mv line b =
  match value lit libm mv e with
  | Ok v => Ok (mstep mv (MUser id line v), None)
  | Exc (EEval m) => Ok (mv, Some m)
  | Exc x => Exc x
  end.
Proof. exact complete_assignment. Qed.
Print Assumptions C23_complete_accepted.

Theorem C23_refuted : forall lit libm, exists mv line b id t v,
  assigns b id t /\ id <= int_max /\ (forall e, ~ spells libm LExpr e t) /\
  macro_evaluate lit libm mv line b = Ok (mstep mv (MUser id line v), None) /\
  macro_lookup (mstep mv (MUser id line v)) id line = Some v.
Proof. exact trailing_accepted. Qed.
Print Assumptions C23_refuted.

Definition dec_open (w o v : string) : decimal := mkDec w None None (Some o) None (Some v) None None None.

(** N10 #5 = [1: refused, unclosed bracket. *)
Example C23_ex lit libm :
  let b := [ADec (plain "N" "10"); ADec (plain "#" "5"); ADec (dec_open "=" "[" "1")] in
  assigns b 5 "[1" /\
  macro_evaluate lit libm (mrun [MUser 5 1 (d_of_Z 3)]) 2 b =
    Ok (mrun [MUser 5 1 (d_of_Z 3)], Some ["syntax"; ""]).
Proof.
  split; [|reflexivity].
  exists [ADec (plain "N" "10")], (plain "#" "5"), (dec_open "=" "[" "1"), [], "5".
  repeat split; try discriminate. intros (d & I & E). destruct I as [I|[]]. injection I as <-. discriminate.
Qed.
