(** C80: the ways of drilling cycles. *)
From Coq Require Import Reals Lra.
From Flocq Require Import Core BinarySingleNaN.
From Verif Require Import Model.Base Model.Attr Model.Double Model.Macro Model.Verifiers Model.PathGeom Model.PathCalc
  Spec.DoubleSpec Spec.SplitSpec Spec.PathSpec Spec.MotionSpec Spec.DrillSpec Spec.ArcSpec Proofs.Tactics Proofs.DrillProofs Proofs.FineProofs Proofs.PeckProofs Proofs.PeckByProofs.

Local Open Scope string_scope.
Local Open Scope list_scope.
Local Open Scope Z_scope.

(** The first hole of a boring cycle in absolute coordinates, with the bottom [z],
    the level [r] and the height of the tool [zp] in this order: cutting is the way
    from [r] to [z]; rapid is the way to the hole, down to [r] and back up. *)
Theorem C80_bore_partial : forall tan_ log cabs stale mc inch line b c mv c' mv' g pl ret_ a1 a2 a3 ox oy z r xp yp zp,
  proper_axes mc -> b <> [] -> no_tool b -> plain_codes b -> motion_code b c g -> In g bores ->
  in_force (code_of programmings) b (c_prog c) 90 -> in_force (code_of planes) b (c_plane c) pl -> tool_axes pl a1 a2 a3 ->
  in_force (code_of returns) b (c_return c) ret_ -> In ret_ [98; 99] ->
  mc_no_y mc = false -> cd_z_incremental (mc_cnc mc) = false -> p_holes (c_path c) = 0 ->
  block_value a1 b ox -> block_value a2 b oy -> block_value a3 b (Some z) -> block_value "R" b (Some r) -> block_value "K" b None ->
  evaluate tan_ log cabs stale mc inch line b c mv = (c', mv', None) ->
  position a1 c = Some xp -> position a2 c = Some yp -> position a3 c = Some zp ->
  let x := or_else ox xp in let y := or_else oy yp in
  moderate xp -> moderate yp -> moderate zp -> moderate x -> moderate y -> moderate z -> moderate r ->
  (amount z <= amount r <= amount zp)%R -> (amount z < 0 < amount zp -> 0 <= amount r)%R ->
  let s := (size xp + size yp + size x + size y + 2 * (size zp + size r + size z))%R in
  within (cut c') (amount r - amount z) s /\
  within (rapid c') (bore_rapid ret_ (amount zp) (amount r) (amount z) + way (amount x - amount xp) (amount y - amount yp) 0) s.
Proof. intros. eapply bored; eassumption. Qed.
Print Assumptions C80_bore_partial.

(** The first hole of a tapping cycle: cutting down and up again. *)
Theorem C80_tap_partial : forall tan_ log cabs stale mc inch line b c mv c' mv' g pl ret_ a1 a2 a3 ox oy z r xp yp zp,
  proper_axes mc -> b <> [] -> no_tool b -> plain_codes b -> motion_code b c g -> In g taps ->
  in_force (code_of programmings) b (c_prog c) 90 -> in_force (code_of planes) b (c_plane c) pl -> tool_axes pl a1 a2 a3 ->
  in_force (code_of returns) b (c_return c) ret_ -> In ret_ [98; 99] ->
  mc_no_y mc = false -> cd_z_incremental (mc_cnc mc) = false -> p_holes (c_path c) = 0 ->
  block_value a1 b ox -> block_value a2 b oy -> block_value a3 b (Some z) -> block_value "R" b (Some r) -> block_value "K" b None ->
  evaluate tan_ log cabs stale mc inch line b c mv = (c', mv', None) ->
  position a1 c = Some xp -> position a2 c = Some yp -> position a3 c = Some zp ->
  let x := or_else ox xp in let y := or_else oy yp in
  moderate xp -> moderate yp -> moderate zp -> moderate x -> moderate y -> moderate z -> moderate r ->
  let s := (size xp + size yp + size x + size y + 2 * (size zp + size r + size z))%R in
  within (cut c') (2 * Rabs (amount r - amount z)) s /\
  within (rapid c') (tap_rapid ret_ (amount zp) (amount r) + way (amount x - amount xp) (amount y - amount yp) 0) s.
Proof. intros. eapply tapped; eassumption. Qed.
Print Assumptions C80_tap_partial.

(** With incremental coordinates R is the way down to the level and the depth
    counts from there. *)
Theorem C80_bore_by_partial : forall tan_ log cabs stale mc inch line b c mv c' mv' g pl ret_ a1 a2 a3 ox oy z r,
  proper_axes mc -> b <> [] -> no_tool b -> plain_codes b -> motion_code b c g -> In g bores ->
  in_force (code_of programmings) b (c_prog c) 91 -> in_force (code_of planes) b (c_plane c) pl -> tool_axes pl a1 a2 a3 ->
  in_force (code_of returns) b (c_return c) ret_ -> In ret_ [98; 99] -> mc_no_y mc = false -> p_holes (c_path c) = 0 ->
  block_value a1 b ox -> block_value a2 b oy -> block_value a3 b (Some z) -> block_value "R" b (Some r) -> block_value "K" b None ->
  evaluate tan_ log cabs stale mc inch line b c mv = (c', mv', None) ->
  let x := or_else ox dzero in let y := or_else oy dzero in
  moderate x -> moderate y -> moderate z -> moderate r ->
  let s := (size x + size y + 2 * (size r + size z))%R in
  within (cut c') (Rabs (amount z)) s /\
  within (rapid c') (Rabs (amount z) + Rabs (amount r) * (if ret_ =? 98 then 2 else 1) + way (amount x) (amount y) 0) s.
Proof. intros. eapply bored_by; eassumption. Qed.
Print Assumptions C80_bore_by_partial.

Theorem C80_tap_by_partial : forall tan_ log cabs stale mc inch line b c mv c' mv' g pl a1 a2 a3 ox oy z r,
  proper_axes mc -> b <> [] -> no_tool b -> plain_codes b -> motion_code b c g -> In g taps ->
  in_force (code_of programmings) b (c_prog c) 91 -> in_force (code_of planes) b (c_plane c) pl -> tool_axes pl a1 a2 a3 ->
  in_force (code_of returns) b (c_return c) 98 -> mc_no_y mc = false -> p_holes (c_path c) = 0 ->
  block_value a1 b ox -> block_value a2 b oy -> block_value a3 b (Some z) -> block_value "R" b (Some r) -> block_value "K" b None ->
  evaluate tan_ log cabs stale mc inch line b c mv = (c', mv', None) ->
  let x := or_else ox dzero in let y := or_else oy dzero in
  moderate x -> moderate y -> moderate z -> moderate r ->
  let s := (size x + size y + 2 * (size r + size z))%R in
  within (cut c') (2 * Rabs (amount z)) s /\ within (rapid c') (2 * Rabs (amount r) + way (amount x) (amount y) 0) s.
Proof. intros. eapply tapped_by; eauto. Qed.
Print Assumptions C80_tap_by_partial.

(** Fine boring in absolute coordinates. *)
Theorem C80_fine_partial : forall tan_ log cabs stale mc inch line b c mv c' mv' pl ret_ a1 a2 a3 ox oy z r q xp yp zp,
  proper_axes mc -> b <> [] -> no_tool b -> plain_codes b -> motion_code b c 76 ->
  in_force (code_of programmings) b (c_prog c) 90 -> in_force (code_of planes) b (c_plane c) pl -> tool_axes pl a1 a2 a3 ->
  in_force (code_of returns) b (c_return c) ret_ -> In ret_ [98; 99] ->
  mc_no_y mc = false -> cd_z_incremental (mc_cnc mc) = false -> p_holes (c_path c) = 0 ->
  block_value a1 b ox -> block_value a2 b oy -> block_value a3 b (Some z) -> block_value "R" b (Some r) -> block_value "Q" b (Some q) -> block_value "K" b None ->
  evaluate tan_ log cabs stale mc inch line b c mv = (c', mv', None) ->
  position a1 c = Some xp -> position a2 c = Some yp -> position a3 c = Some zp ->
  let x := or_else ox xp in let y := or_else oy yp in
  moderate xp -> moderate yp -> moderate zp -> moderate x -> moderate y -> moderate z -> moderate r -> moderate q ->
  let s := (size xp + size yp + size x + size y + 2 * (size zp + size r + size z + size q))%R in
  within (cut c') (Rabs (amount z - amount r)) s /\
  within (rapid c') (fine_rapid ret_ (amount zp) (amount r) (amount z) (amount q) + way (amount x - amount xp) (amount y - amount yp) 0) s.
Proof. intros. eapply fine_bored; eassumption. Qed.
Print Assumptions C80_fine_partial.

(** Boring backwards, from the bottom [r] up to [z]. *)
Theorem C80_back_partial : forall tan_ log cabs stale mc inch line b c mv c' mv' pl ret_ a1 a2 a3 ox oy z r q xp yp zp,
  proper_axes mc -> b <> [] -> no_tool b -> plain_codes b -> motion_code b c 87 ->
  in_force (code_of programmings) b (c_prog c) 90 -> in_force (code_of planes) b (c_plane c) pl -> tool_axes pl a1 a2 a3 ->
  in_force (code_of returns) b (c_return c) ret_ ->
  mc_no_y mc = false -> cd_z_incremental (mc_cnc mc) = false -> p_holes (c_path c) = 0 ->
  block_value a1 b ox -> block_value a2 b oy -> block_value a3 b (Some z) -> block_value "R" b (Some r) -> block_value "Q" b (Some q) -> block_value "K" b None ->
  evaluate tan_ log cabs stale mc inch line b c mv = (c', mv', None) ->
  position a1 c = Some xp -> position a2 c = Some yp -> position a3 c = Some zp ->
  let x := or_else ox xp in let y := or_else oy yp in
  moderate xp -> moderate yp -> moderate zp -> moderate x -> moderate y -> moderate z -> moderate r -> moderate q ->
  (amount r <= amount z <= amount zp)%R -> (0 <= amount q)%R ->
  let s := (size xp + size yp + size x + size y + 4 * (size zp + size r + size z + size q))%R in
  within (cut c') (amount z - amount r) s /\
  within (rapid c') (back_rapid (amount zp) (amount r) (amount z) (amount q) + way (amount x - amount xp) (amount y - amount yp) 0) s.
Proof. intros. eapply back_bored; eassumption. Qed.
Print Assumptions C80_back_partial.

(** Deep drilling in [n] steps of [q] and a rest, to a hundred-thousandth of a millimetre. *)
Theorem C80_peck_partial : forall tan_ log cabs stale mc inch line b c mv c' mv' pl ret_ a1 a2 a3 ox oy z r q xp yp zp n,
  proper_axes mc -> b <> [] -> no_tool b -> plain_codes b -> motion_code b c 83 ->
  in_force (code_of programmings) b (c_prog c) 90 -> in_force (code_of planes) b (c_plane c) pl -> tool_axes pl a1 a2 a3 ->
  in_force (code_of returns) b (c_return c) ret_ -> In ret_ [98; 99] ->
  mc_no_y mc = false -> cd_z_incremental (mc_cnc mc) = false -> p_holes (c_path c) = 0 ->
  block_value a1 b ox -> block_value a2 b oy -> block_value a3 b (Some z) -> block_value "R" b (Some r) -> block_value "Q" b (Some q) -> block_value "K" b None ->
  evaluate tan_ log cabs stale mc inch line b c mv = (c', mv', None) ->
  position a1 c = Some xp -> position a2 c = Some yp -> position a3 c = Some zp ->
  let x := or_else ox xp in let y := or_else oy yp in
  on_machine xp -> on_machine yp -> on_machine zp -> on_machine x -> on_machine y -> on_machine z -> on_machine r -> on_machine q ->
  let depth := Rabs (amount r - amount z) in
  (n <= 1000)%nat -> (/ 1000 <= amount q)%R -> ((INR n + / 1000) * amount q <= depth <= (INR n + 999 / 1000) * amount q)%R ->
  finite (cut c') /\ (Rabs (amount (cut c') - peck_cut n (amount q) depth) <= / 100000)%R /\
  finite (rapid c') /\
  (Rabs (amount (rapid c') - (peck_rapid n ret_ (amount zp) (amount r) (amount q) depth + way (amount x - amount xp) (amount y - amount yp) 0)) <= / 100000)%R.
Proof. intros. eapply pecked; eassumption. Qed.
Print Assumptions C80_peck_partial.

(** And with incremental coordinates, where the level is [r] from the start and the depth
    counts from there. *)
Theorem C80_peck_by_partial : forall tan_ log cabs stale mc inch line b c mv c' mv' pl ret_ a1 a2 a3 ox oy z r q n,
  proper_axes mc -> b <> [] -> no_tool b -> plain_codes b -> motion_code b c 83 ->
  in_force (code_of programmings) b (c_prog c) 91 -> in_force (code_of planes) b (c_plane c) pl -> tool_axes pl a1 a2 a3 ->
  in_force (code_of returns) b (c_return c) ret_ -> In ret_ [98; 99] -> mc_no_y mc = false -> p_holes (c_path c) = 0 ->
  block_value a1 b ox -> block_value a2 b oy -> block_value a3 b (Some z) -> block_value "R" b (Some r) -> block_value "Q" b (Some q) -> block_value "K" b None ->
  evaluate tan_ log cabs stale mc inch line b c mv = (c', mv', None) ->
  let x := or_else ox dzero in let y := or_else oy dzero in
  on_machine x -> on_machine y -> on_machine z -> on_machine r -> on_machine q ->
  let depth := Rabs (amount z) in
  (n <= 1000)%nat -> (/ 1000 <= amount q)%R -> ((INR n + / 1000) * amount q <= depth <= (INR n + 999 / 1000) * amount q)%R ->
  finite (cut c') /\ (Rabs (amount (cut c') - peck_cut n (amount q) depth) <= / 100000)%R /\
  finite (rapid c') /\
  (Rabs (amount (rapid c') - (peck_rapid n ret_ 0 (amount r) (amount q) depth + way (amount x) (amount y) 0)) <= / 100000)%R.
Proof. intros. eapply pecked_by; eassumption. Qed.
Print Assumptions C80_peck_by_partial.

(** A mill whose axes start at X0 Y0 Z50, and words. *)
Definition cnc (z_incremental : bool) : cnc_defaults := mkCnc 0 17 false 90 94 z_incremental 98 3 false false false false false false false false.
Definition mill (z_incremental : bool) : machine :=
  mkMachine false MTMill [] [("X", dzero); ("Y", dzero); ("Z", dz 50)] ["X"; "Y"; "Z"] (dz 20000) 6 0 0 false false "" "" "M" "123" (cnc z_incremental).
Definition word (w v : string) : attr := ADec (mkDec w None None None None (Some v) None None None).
Definition minus (w v : string) : attr := ADec (mkDec w None (Some "-"%char) None None (Some v) None None None).

(** The calculator after some blocks. *)
Definition after_blocks (tan_ log cabs : dbl -> dbl) (mc : machine) (bs : list block) : calc :=
  fold_left (fun c b => fst (fst (evaluate tan_ log cabs 0 mc false 1 b c []))) bs (calc_new mc).

(** A level below zero under a tool above zero: 108 in rapid for 112. *)
Theorem C80_level_refuted : forall tan_ log cabs,
  let b := [word "G" "81"; minus "Z" "10"; minus "R" "2"; word "F" "100"] in
  exists c' mv', evaluate tan_ log cabs 0 (mill false) false 1 b (calc_new (mill false)) [] = (c', mv', None) /\
    position "Z" (calc_new (mill false)) = Some (dz 50) /\ cut c' = dz 8 /\ rapid c' = dz 108 /\ bore_rapid 98 50 (-2) (-10) = 112%R.
Proof. intros. do 2 eexists. split; [vm_compute; reflexivity|]. do 3 (split; [vm_compute; reflexivity|]). unfold bore_rapid. cbn. lra. Qed.
Print Assumptions C80_level_refuted.

(** With the depth counted from the level the cutting way may be negative. *)
Theorem C80_depth_refuted : forall tan_ log cabs,
  let b := [word "G" "81"; minus "Z" "10"; word "R" "2"; word "F" "100"] in
  exists c' mv', evaluate tan_ log cabs 0 (mill true) false 1 b (calc_new (mill true)) [] = (c', mv', None) /\
    cut c' = dz (-38) /\ rapid c' = dz 58.
Proof. intros. do 2 eexists. split; [vm_compute; reflexivity|]. split; vm_compute; reflexivity. Qed.
Print Assumptions C80_depth_refuted.

(** With G99 the tool stays at the level, but the next hole is counted from the
    height before the first: hole two is 10 away and takes 10 + 12 in rapid, 70 are
    reported. *)
Theorem C80_next_refuted : forall tan_ log cabs,
  let c := after_blocks tan_ log cabs (mill false) [[word "G" "81"; word "G" "99"; minus "Z" "10"; word "R" "2"; word "F" "100"]] in
  exists c' mv', evaluate tan_ log cabs 0 (mill false) false 1 [word "X" "10"] c [] = (c', mv', None) /\
    cut c = dz 12 /\ rapid c = dz 60 /\ cut c' = dz 12 /\ rapid c' = dz 70.
Proof. intros. do 2 eexists. split; [vm_compute; reflexivity|]. do 3 (split; [vm_compute; reflexivity|]). vm_compute. reflexivity. Qed.
Print Assumptions C80_next_refuted.

(** Tapping with G91 and G99 is reported without any rapid way. *)
Theorem C80_tap_by_refuted : forall tan_ log cabs,
  let b := [word "G" "91"; word "G" "84"; word "G" "99"; minus "Z" "10"; minus "R" "40"; word "F" "100"] in
  exists c' mv', evaluate tan_ log cabs 0 (mill false) false 1 b (calc_new (mill false)) [] = (c', mv', None) /\
    cut c' = dz 20 /\ rapid c' = dzero.
Proof. intros. do 2 eexists. split; [vm_compute; reflexivity|]. split; vm_compute; reflexivity. Qed.
Print Assumptions C80_tap_by_refuted.

(** Outside the plane G17 the position of the hole is not kept: a second block at
    the same place is reported to travel there again. *)
Theorem C80_plane_refuted : forall tan_ log cabs,
  let c := after_blocks tan_ log cabs (mill false) [[word "G" "81"; word "G" "18"; word "Z" "90"; minus "Y" "10"; word "R" "0"; word "F" "100"]] in
  exists c' mv', evaluate tan_ log cabs 0 (mill false) false 1 [word "X" "0"; word "Z" "90"] c [] = (c', mv', None) /\
    rapid c = dz 50 /\ rapid c' = dz 50 /\ position "Z" c = Some (dz 50).
Proof. intros. do 2 eexists. split; [vm_compute; reflexivity|]. do 2 (split; [vm_compute; reflexivity|]). vm_compute. reflexivity. Qed.
Print Assumptions C80_plane_refuted.

(** The same fine boring in absolute and in incremental coordinates, from Z50 by Z2 to
    Z-10 and back: in incremental coordinates the way down to the level is left out. *)
Theorem C80_fine_by_refuted : forall tan_ log cabs,
  let b1 := [word "G" "76"; minus "Z" "10"; word "R" "2"; word "Q" "1"; word "F" "100"] in
  let b2 := [word "G" "91"; word "G" "76"; minus "Z" "12"; minus "R" "48"; word "Q" "1"; word "F" "100"] in
  exists c1 mv1 c2 mv2, evaluate tan_ log cabs 0 (mill false) false 1 b1 (calc_new (mill false)) [] = (c1, mv1, None) /\
    evaluate tan_ log cabs 0 (mill false) false 1 b2 (calc_new (mill false)) [] = (c2, mv2, None) /\
    cut c1 = dz 12 /\ cut c2 = dz 12 /\ rapid c1 = dz 110 /\ rapid c2 = dz 62 /\ fine_rapid 98 50 2 (-10) 1 = 110%R.
Proof.
  intros. do 4 eexists. split; [vm_compute; reflexivity|]. split; [vm_compute; reflexivity|]. do 4 (split; [vm_compute; reflexivity|]).
  unfold fine_rapid. cbn [Z.eqb Pos.eqb]. rewrite !Rabs_left by lra. lra.
Qed.
Print Assumptions C80_fine_by_refuted.

(** The same boring backwards in absolute and in incremental coordinates, from Z50 by
    Z-10 up to Z-6: in incremental coordinates the way back up is counted from the
    bottom and more. *)
Theorem C80_back_by_refuted : forall tan_ log cabs,
  let b1 := [word "G" "87"; minus "Z" "6"; minus "R" "10"; word "Q" "3"; word "F" "100"] in
  let b2 := [word "G" "91"; word "G" "87"; word "Z" "4"; minus "R" "60"; word "Q" "3"; word "F" "100"] in
  exists c1 mv1 c2 mv2, evaluate tan_ log cabs 0 (mill false) false 1 b1 (calc_new (mill false)) [] = (c1, mv1, None) /\
    evaluate tan_ log cabs 0 (mill false) false 1 b2 (calc_new (mill false)) [] = (c2, mv2, None) /\
    cut c1 = dz 4 /\ cut c2 = dz 4 /\ rapid c1 = dz 128 /\ rapid c2 = dz 134 /\ back_rapid 50 (-10) (-6) 3 = 128%R.
Proof.
  intros. do 4 eexists. split; [vm_compute; reflexivity|]. split; [vm_compute; reflexivity|]. do 4 (split; [vm_compute; reflexivity|]).
  unfold back_rapid. lra.
Qed.
Print Assumptions C80_back_by_refuted.

(** The same drilling with broken chips (G73): two ways in rapid. *)
Theorem C80_chip_refuted : forall tan_ log cabs,
  let b1 := [word "G" "73"; minus "Z" "10"; word "R" "2"; word "Q" "5"; word "F" "100"] in
  let b2 := [word "G" "91"; word "G" "73"; minus "Z" "12"; minus "R" "48"; word "Q" "5"; word "F" "100"] in
  exists c1 mv1 c2 mv2, evaluate tan_ log cabs 0 (mill false) false 1 b1 (calc_new (mill false)) [] = (c1, mv1, None) /\
    evaluate tan_ log cabs 0 (mill false) false 1 b2 (calc_new (mill false)) [] = (c2, mv2, None) /\
    cut c1 = dz 14 /\ cut c2 = dz 14 /\ rapid c1 = dz 108 /\ rapid c2 = dz 110.
Proof. intros. do 4 eexists. split; [vm_compute; reflexivity|]. split; [vm_compute; reflexivity|]. repeat split; vm_compute; reflexivity. Qed.
Print Assumptions C80_chip_refuted.

(** G83 from Z50 by Z2 to Z-10 in two steps of 5 and a rest of 2: 14 cutting, 40 + 96 in
    rapid. *)
Example C80_peck_ex :
  let b := [word "G" "83"; minus "Z" "10"; word "R" "2"; word "Q" "5"; word "F" "100"] in
  exists c' mv', evaluate (fun x => x) (fun x => x) dabs 0 (mill false) false 1 b (calc_new (mill false)) [] = (c', mv', None) /\
    cut c' = dz 14 /\ rapid c' = dz 136 /\ ((INR 2 + / 1000) * 5 <= Rabs (2 - -10) <= (INR 2 + 999 / 1000) * 5)%R /\
    peck_cut 2 5 (Rabs (2 - -10)) = 14%R /\ peck_rapid 2 98 50 2 5 (Rabs (2 - -10)) = 136%R.
Proof.
  do 2 eexists. split; [vm_compute; reflexivity|]. split; [vm_compute; reflexivity|]. split; [vm_compute; reflexivity|].
  unfold peck_rapid, peck_cut. cbn [strokes INR Z.eqb Pos.eqb]. rewrite !Rabs_pos_eq by lra. lra.
Qed.

(** The same hole with G91 from Z50: R-48 to the level, Z-12 from there. *)
Example C80_peck_by_ex :
  let b := [word "G" "91"; word "G" "83"; minus "Z" "12"; minus "R" "48"; word "Q" "5"; word "F" "100"] in
  exists c' mv', evaluate (fun x => x) (fun x => x) dabs 0 (mill false) false 1 b (calc_new (mill false)) [] = (c', mv', None) /\
    cut c' = dz 14 /\ rapid c' = dz 136 /\ ((INR 2 + / 1000) * 5 <= Rabs (-12) <= (INR 2 + 999 / 1000) * 5)%R /\
    peck_cut 2 5 (Rabs (-12)) = 14%R /\ peck_rapid 2 98 0 (-48) 5 (Rabs (-12)) = 136%R.
Proof.
  do 2 eexists. split; [vm_compute; reflexivity|]. split; [vm_compute; reflexivity|]. split; [vm_compute; reflexivity|].
  unfold peck_rapid, peck_cut. cbn [strokes INR Z.eqb Pos.eqb]. rewrite (Rabs_left (-12)), (Rabs_pos_eq (0 - -48)) by lra. lra.
Qed.

(** Where the steps divide the depth the reported cutting way is that of one more stroke:
    from Z0 to Z-10 in two steps of 5 there is one return into the hole, a fifth of 5 above
    the bottom; 12 are reported for 11. *)
Theorem C80_peck_refuted : forall tan_ log cabs,
  let b := [word "G" "83"; minus "Z" "10"; word "R" "0"; word "Q" "5"; word "F" "100"] in
  exists c' mv', evaluate tan_ log cabs 0 (mill false) false 1 b (calc_new (mill false)) [] = (c', mv', None) /\
    cut c' = dz 12 /\ peck_cut 1 5 10 = 11%R.
Proof. intros. do 2 eexists. split; [vm_compute; reflexivity|]. split; [vm_compute; reflexivity|]. unfold peck_cut. cbn [INR]. lra. Qed.
Print Assumptions C80_peck_refuted.

(** Without Q a cycle that needs it reads an optional value that is not there. *)
Theorem C80_without_q_refuted : forall tan_ log cabs,
  let b := [word "G" "83"; minus "Z" "10"; word "R" "2"; word "F" "100"] in
  exists c' mv' w, evaluate tan_ log cabs 0 (mill false) false 1 b (calc_new (mill false)) [] = (c', mv', Some (EUB w)).
Proof. intros. do 3 eexists. vm_compute. reflexivity. Qed.
Print Assumptions C80_without_q_refuted.

(** G81 X30 Y40 Z-10 R2: 12 cutting, 48 + 60 + 50 in rapid. *)
Example C80_ex :
  let b := [word "G" "81"; word "X" "30"; word "Y" "40"; minus "Z" "10"; word "R" "2"; word "F" "100"] in
  let c := calc_new (mill false) in
  exists c' mv', proper_axes (mill false) /\ no_tool b /\ plain_codes b /\ motion_code b c 81 /\ In 81 bores /\
  in_force (code_of programmings) b (c_prog c) 90 /\ in_force (code_of returns) b (c_return c) 98 /\ tool_axes 17 "X" "Y" "Z" /\
  p_holes (c_path c) = 0 /\ block_value "R" b (Some (dz 2)) /\ block_value "K" b None /\
  evaluate (fun x => x) (fun x => x) dabs 0 (mill false) false 1 b c [] = (c', mv', None) /\
  position "Z" c = Some (dz 50) /\ position "X" c' = Some (dz 30) /\ cut c' = dz 12 /\ rapid c' = dz 158 /\
  bore_rapid 98 50 2 (-10) = 108%R.
Proof.
  cbv zeta. do 2 eexists.
  split. { intros w I J. cbn in I, J. intuition (subst; discriminate). }
  split. { split; intros (d & t & I & _); vm_compute in I; exact I. }
  split. { intros d t n I W V N. cbn in I. decompose [or] I; try contradiction; subst d; try discriminate. injection V as <-. vm_compute in N. injection N as <-.
    cbn. auto 10. }
  split. { left. exists []. do 2 eexists. split; [reflexivity|]. split; [split; [reflexivity|split; [exists "81"; split; vm_compute; reflexivity|cbn; auto 10]]|].
    intros d a I (W & _). cbn in I. decompose [or] I; try contradiction; subst d; discriminate. }
  split; [cbn; auto|].
  assert (NG : forall group, ~ In 81 group -> last_said (code_of group) [word "G" "81"; word "X" "30"; word "Y" "40"; minus "Z" "10"; word "R" "2"; word "F" "100"] None).
  { intros group NI d a I (W & (t & V & N) & M). cbn in I. decompose [or] I; try contradiction; subst d; try discriminate.
    injection V as <-. vm_compute in N. injection N as <-. contradiction. }
  split. { right. split; [apply (NG programmings); cbn; intuition discriminate|reflexivity]. }
  split. { right. split; [apply (NG returns); cbn; intuition discriminate|reflexivity]. }
  split; [left; auto|]. split; [reflexivity|].
  split. { cbn. exists []. do 2 eexists. split; [reflexivity|]. split; [|intros d []]. split; [left; discriminate|]. eexists. split; vm_compute; reflexivity. }
  split. { intros d I. cbn in I. contradiction. }
  do 5 (split; [vm_compute; reflexivity|]). unfold bore_rapid. cbn. lra.
Qed.
