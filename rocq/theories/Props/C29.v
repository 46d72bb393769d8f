(** C29: a reset makes the calculator as it was when new, whatever happened
    before.  Partial: on machines without automatic rapid traverse after a tool
    exchange, or when a block with a coordinate came after the last tool number;
    otherwise the rapid traverse that is still due survives the reset
    (C29_refuted). *)
From Verif Require Import Model.Base Model.Attr Model.Double Model.Macro Model.Verifiers Model.PathGeom Model.PathCalc
  Spec.SplitSpec Spec.PathSpec Proofs.PathCases Proofs.PathReset.

Open Scope list_scope.

Theorem C29_partial : forall atan log cabs stale mc c, cd_auto_rapid (mc_cnc mc) = false ->
  reached atan log cabs stale mc c -> calc_reset mc c = calc_new mc.
Proof. exact reset_forgets. Qed.
Print Assumptions C29_partial.

Theorem C29_moved_partial : forall atan log cabs stale mc, proper_axes mc -> forall c s l,
  gives_coordinate (s_block s) -> ~ early_failure (snd (after atan log cabs stale mc s c)) ->
  (forall s', In s' (s :: l) -> ~ names_tool (s_block s')) ->
  calc_reset mc (final c (run atan log cabs stale mc c (s :: l))) = calc_new mc.
Proof. exact reset_after_motion. Qed.
Print Assumptions C29_moved_partial.

Theorem C29_refuted : exists mc s l, forall atan log cabs,
  let c := final (calc_new mc) (run atan log cabs 90 mc (calc_new mc) [s]) in
  let go c := map (fun r => (p_work (c_path (fst r)), p_fast (c_path (fst r)))) (run atan log cabs 90 mc c l) in
  go (calc_reset mc c) = [(dzero, dzero); (dzero, d_of_Z 5)] /\ go (calc_new mc) = [(dzero, dzero); (d_of_Z 5, dzero)].
Proof.
  exists (ex_mill true true), (next [word "T" "1"]), [next [word "G" "1"; word "F" "100"]; next [word "X" "5"]].
  exact reset_remembers.
Qed.
Print Assumptions C29_refuted.

(** A state that differs from a new one in path, time, position, tool and motion. *)
Example C29_ex : forall atan log cabs,
  let mc := ex_mill true false in
  let l := [next [word "T" "1"]; next [word "G" "1"; word "X" "3"; word "Y" "4"; word "F" "60"]] in
  let c := final (calc_new mc) (run atan log cabs 90 mc (calc_new mc) l) in
  reached atan log cabs 90 mc c /\ cd_auto_rapid (mc_cnc mc) = false /\
  (p_total (c_path c), c_tool c, c_g c, position "X" c) = (d_of_Z 5, "1"%string, 1, Some (d_of_Z 3)) /\
  (p_total (c_path (calc_new mc)), c_tool (calc_new mc), c_g (calc_new mc), position "X" (calc_new mc)) =
    (dzero, ""%string, 0, Some dzero).
Proof.
  intros atan log cabs mc l c. split; [|split; [reflexivity|split; vm_compute; reflexivity]].
  apply reached_block, reached_block, reached_new.
Qed.

Example C29_moved_ex : forall atan log cabs,
  let mc := ex_mill true true in
  let c := final (calc_new mc) (run atan log cabs 90 mc (calc_new mc) [next [word "T" "1"]]) in
  c_auto c = true /\ gives_coordinate [word "X" "5"] /\ ~ names_tool [word "X" "5"] /\
  snd (after atan log cabs 90 mc (next [word "X" "5"]) c) = None.
Proof.
  intros atan log cabs mc c. split; [vm_compute; reflexivity|]. split; [|split; [intros (d & t & [] & _)|vm_compute; reflexivity]].
  exists "X"%string, (d_of_Z 5). split; [cbn; auto|].
  exists [], (mkDec "X" None None None None (Some "5"%string) None None None), []. split; [reflexivity|].
  split; [|intros d []]. split; [left; discriminate|]. exists (d_of_Z 5). split; vm_compute; reflexivity.
Qed.
