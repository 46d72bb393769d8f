(** C27: the total path after any blocks is the sum of what was reported after
    each of them, and the total time is the sum of the motion times reported and
    of the other times: tool exchange, tool measurement, pallet exchange, dwell.
    Failing blocks included.  Partial: no block fails in the middle of a helix
    after a spiral, which leaves its path reported but not added up
    (C27_path_refuted), or runs into undefined behaviour; for the times, no block
    fails before its times are complete, and none dwells beside a tool number
    that is only prepared, where the dwell is not counted (C27_time_refuted). *)
From Verif Require Import Model.Base Model.Attr Model.Double Model.Macro Model.Verifiers Model.PathGeom Model.PathCalc
  Spec.SplitSpec Spec.PathSpec Proofs.PathTotals Proofs.PathTime Proofs.PathCases.

Open Scope list_scope.

Theorem C27_path_partial : forall atan log cabs stale mc c l, fresh mc c ->
  (forall r, In r (run atan log cabs stale mc c l) -> ~ unset_in_helix (snd r) /\ ~ undefined_behaviour (snd r)) ->
  same_number (p_total (c_path (final c (run atan log cabs stale mc c l))))
              (total (map (fun r => block_path (fst r)) (run atan log cabs stale mc c l))).
Proof. exact path_total. Qed.
Print Assumptions C27_path_partial.

Theorem C27_time_partial : forall atan log cabs stale mc, proper_axes mc -> forall c l, fresh mc c ->
  (forall r, In r (run atan log cabs stale mc c l) -> ~ early_failure (snd r)) ->
  (forall s, In s l -> ~ dwell_while_preparing mc (s_block s)) ->
  exists others : list (list dbl),
    Forall2 (fun s o => other_seconds mc (s_block s) o) l others /\
    same_number (t_total (c_time (final c (run atan log cabs stale mc c l))))
      (total (List.concat (map (fun x => fst x ++ [block_time (fst (snd x))])
                               (combine others (run atan log cabs stale mc c l))))).
Proof. exact time_total. Qed.
Print Assumptions C27_time_partial.

Theorem C27_path_refuted : exists log mc l, forall atan cabs stale,
  let rs := run atan log cabs stale mc (calc_new mc) l in
  ~ same_number (p_total (c_path (final (calc_new mc) rs))) (total (map (fun r => block_path (fst r)) rs)).
Proof. exists some_log, (ex_mill true false), spiral_history. exact spiral_lost. Qed.
Print Assumptions C27_path_refuted.

Theorem C27_time_refuted : exists mc s, forall atan log cabs stale,
  let rs := run atan log cabs stale mc (calc_new mc) [s] in
  exists o, other_seconds mc (s_block s) o /\ map snd rs = [None] /\
  ~ same_number (t_total (c_time (final (calc_new mc) rs))) (total (o ++ map (fun r => block_time (fst r)) rs)).
Proof. exists (ex_mill false false), (hd (next []) prepare_history). exact dwell_lost. Qed.
Print Assumptions C27_time_refuted.

(** T1 (5 s); 5 mm at 60 mm/min; a block that fails for want of I and J; G4 for
    2.5 s and back.  The hypotheses of both theorems are met. *)
Definition C27_history : list step :=
  [next [word "T" "1"]; next [word "G" "1"; word "X" "3"; word "Y" "4"; word "F" "60"];
   next [word "G" "2"; word "X" "7"]; next [word "G" "4"; word "P" "2500"]; next [word "G" "0"; word "X" "0"; word "Y" "0"]].

Example C27_ex : forall atan log cabs,
  let mc := ex_mill true false in
  let rs := run atan log cabs 90 mc (calc_new mc) C27_history in
  proper_axes mc /\
  map snd rs = [None; None; Some (EPathCalc ["ValueNotSetForEither"; "I"; "J"]%string); None; None] /\
  map (fun r => block_path (fst r)) rs = [dzero; d_of_Z 5; dzero; dzero; d_of_Z 5] /\
  p_total (c_path (final (calc_new mc) rs)) = d_of_Z 10 /\
  t_total (c_time (final (calc_new mc) rs)) = d_of_ratio false 1253 100 /\
  (forall s, In s C27_history -> ~ dwell_while_preparing mc (s_block s)).
Proof.
  intros atan log cabs mc rs. subst rs.
  split. { subst mc. intros w I [<-|[<-|[<-|[]]]]; cbn in I; intuition discriminate. }
  split; [vm_compute; reflexivity|].
  split; [vm_compute; reflexivity|].
  split; [vm_compute; reflexivity|].
  split; [vm_compute; reflexivity|].
  intros s I [_ [H N]]. apply N. unfold exchanges. change (cd_tool_executes (mc_cnc mc)) with true. exact H.
Qed.
