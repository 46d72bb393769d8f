(** C54: the editing commands (unit conversion, removing and giving numbers,
    rotating, removing comments and block skips) leave the state of the analysis
    alone, and the next line is analysed as if they had not been called.
    Partial: the second part for edited lines without brackets and "#" in a
    parser that has not seen any; otherwise it fails (C54_refuted). *)
From Verif Require Import Model.Base Model.Attr Model.Double Model.Macro Model.Grammar Model.Verifiers Model.Rotator Model.PathCalc Model.Parser.
From Verif Require Import Spec.ParserSpec Proofs.StatusProofs Proofs.ParserEdits Proofs.ParserCases.

Theorem C54_state : forall cf e data p p' v a, edit_line cf e data p = (p', v, a) -> analysis p' = analysis p.
Proof. intros cf e data p p' v a H. apply edit_frame in H as (gs & ren & -> & _). reflexivity. Qed.
Print Assumptions C54_state.

(** The reply to the next line and the analysis after it. *)
Definition reply (x : parser * block * answer) := (analysis (fst (fst x)), snd (fst x), snd x).

Theorem C54_partial : forall lit libm atan log cabs stale cf e edited p p' v a st line data,
  edit_line cf e edited p = (p', v, a) -> pr_grammar p <> None -> gs_status (pr_gs p) = status_init ->
  (forall c, In c ["["; "]"; "#"]%char -> contains (String c "") edited = false) ->
  reply (parse lit libm atan log cabs stale cf st line data p') = reply (parse lit libm atan log cabs stale cf st line data p).
Proof.
  intros lit libm atan log cabs stale cf e edited p p' v a st line data H G Q N.
  destruct (edit_then_parse lit libm atan log cabs stale cf e edited p p' v a st line data H G Q) as (ren & E).
  - clear -N. induction edited as [|c x IH]; [reflexivity|]. apply andb_true_iff. split.
    + unfold mark_free. destruct (contains (String c "") "[]#") eqn:E; [|reflexivity]. exfalso.
      assert (K : In c ["["; "]"; "#"]%char) by (destruct c as [[] [] [] [] [] [] [] []]; try discriminate E; cbn; tauto).
      specialize (N c K). cbn in N. destruct (ascii_dec c c); [|contradiction]. destruct x; discriminate N.
    + apply IH. intros d I. specialize (N d I). cbn in N. apply orb_false_iff in N. tauto.
  - rewrite E. destruct (parse lit libm atan log cabs stale cf st line data p) as [[q w] b]. reflexivity.
Qed.
Print Assumptions C54_partial.

(** Removing the comments of a line that closes a bracket too much: the next line
    with brackets is rejected. *)
Theorem C54_refuted : exists p' v a, edit_line ex_cf ERemoveComments "X1]" ex_parser = (p', v, a) /\
  snd (ex_parse ex_none 1 "X[1]" ex_parser) = Answer true (MGrammar []) /\
  exists m, snd (ex_parse ex_none 1 "X[1]" p') = Answer false m.
Proof. eexists _, _, _. split; [vm_compute; reflexivity|]. split; [vm_compute; reflexivity|]. eexists. vm_compute. reflexivity. Qed.
Print Assumptions C54_refuted.

Example C54_ex : pr_grammar ex_parser <> None /\ gs_status (pr_gs ex_parser) = status_init /\
  exists p' v m, edit_line ex_cf ERemoveComments "N10 G1 X1 (c)" ex_parser = (p', v, Answer true m) /\ v <> [] /\
    reply (ex_parse ex_path 2 "G0 X5" p') = reply (ex_parse ex_path 2 "G0 X5" ex_parser).
Proof. split; [discriminate|]. split; [reflexivity|]. eexists _, _, _. split; [vm_compute; reflexivity|]. split; [discriminate|]. vm_compute. reflexivity. Qed.
