(** C28: the reported extremes of an axis bracket every position it had after a
    block since the calculator was made or reset, and both were such positions;
    an axis without extremes never had a position.  For every sequence of blocks,
    failing ones included.  The points of the machine have finite coordinates. *)
From Verif Require Import Model.Base Model.Attr Model.Double Model.Macro Model.Verifiers Model.PathGeom Model.PathCalc
  Spec.SplitSpec Spec.PathSpec Proofs.PathCases Proofs.PathRange.

Open Scope list_scope.

Theorem C28 : forall atan log cabs stale mc, is_map (mc_base_point mc) -> finite_points (mc_base_point mc) ->
  is_map (mc_exchange_point mc) -> finite_points (mc_exchange_point mc) ->
  forall c l w, fresh mc c ->
  let rs := run atan log cabs stale mc c l in
  let states := c :: map fst rs in
  match extremes w (final c rs) with
  | Some (mn, mx) =>
      (forall c' y, In c' states -> position w c' = Some y -> dleb mn y = true /\ dleb y mx = true) /\
      (exists c', In c' states /\ position w c' = Some mn) /\ (exists c', In c' states /\ position w c' = Some mx)
  | None => forall c', In c' states -> position w c' = None
  end.
Proof. exact extremes_bracket. Qed.
Print Assumptions C28.

(** X goes to 3, by -5 to -2, to 9 in a block that fails, and to 1. *)
Example C28_ex : forall atan log cabs stale,
  let mc := ex_mill true false in
  let minus w t := ADec (mkDec w None (Some "-"%char) None None (Some t) None None None) in
  let l := [next [word "G" "0"; word "X" "3"]; next [word "G" "91"; minus "X" "5"];
            next [word "G" "90"; word "G" "2"; word "X" "9"]; next [word "G" "0"; word "G" "90"; word "X" "1"]] in
  let rs := run atan log cabs stale mc (calc_new mc) l in
  is_map (mc_base_point mc) /\ finite_points (mc_base_point mc) /\
  map (fun r => position "X" (fst r)) rs = [Some (d_of_Z 3); Some (d_of_Z (-2)); Some (d_of_Z (-2)); Some (d_of_Z 1)] /\
  extremes "X" (final (calc_new mc) rs) = Some (d_of_Z (-2), d_of_Z 3) /\
  extremes "W" (final (calc_new mc) rs) = None.
Proof.
  intros. subst mc. split; [repeat constructor; cbn; intuition discriminate|].
  split; [intros w x [E|[E|[E|[]]]]; injection E as <- <-; exists false, 1%positive, 0; right; reflexivity|].
  split; [vm_compute; reflexivity|]. split; vm_compute; reflexivity.
Qed.
