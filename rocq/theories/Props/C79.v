(** C79: the length and the time of straight motions. *)
From Coq Require Import Reals Lra.
From Flocq Require Import Core BinarySingleNaN.
From Verif Require Import Model.Base Model.Attr Model.Double Model.Macro Model.Verifiers Model.PathGeom Model.PathCalc
  Spec.DoubleSpec Spec.SplitSpec Spec.PathSpec Spec.MotionSpec Proofs.Tactics Proofs.MotionBlocks Proofs.MotionTimes.

Local Open Scope string_scope.
Local Open Scope list_scope.
Local Open Scope Z_scope.

(** G0 or G1 in absolute coordinates: the reported way is the distance of the
    position before and the position after the block; X counts half where it is
    a diameter.  The way of the other kind is none. *)
Theorem C79_absolute_partial : forall tan_ log cabs stale mc inch line b c mv c' mv' g pl k xp yp zp x y z,
  proper_axes mc -> b <> [] -> no_tool b -> plain_codes b -> motion_code b c g -> (g = 0 \/ g = 1) ->
  in_force (code_of programmings) b (c_prog c) 90 -> in_force (code_of planes) b (c_plane c) pl -> share mc pl k ->
  evaluate tan_ log cabs stale mc inch line b c mv = (c', mv', None) ->
  position "X" c = Some xp -> position "Y" c = Some yp -> position "Z" c = Some zp ->
  position "X" c' = Some x -> position "Y" c' = Some y -> position "Z" c' = Some z ->
  moderate xp -> moderate yp -> moderate zp -> moderate x -> moderate y -> moderate z ->
  let l := way ((amount x - amount xp) / k) (amount y - amount yp) (amount z - amount zp) in
  if g =? 0 then about (rapid c') l /\ cut c' = dzero else about (cut c') l /\ rapid c' = dzero.
Proof. intros. eapply straight_absolute_way; eassumption. Qed.
Print Assumptions C79_absolute_partial.

(** In incremental coordinates it is the length of the increments given. *)
Theorem C79_incremental_partial : forall tan_ log cabs stale mc inch line b c mv c' mv' g pl k ox oy oz,
  proper_axes mc -> b <> [] -> no_tool b -> plain_codes b -> motion_code b c g -> (g = 0 \/ g = 1) ->
  in_force (code_of programmings) b (c_prog c) 91 -> in_force (code_of planes) b (c_plane c) pl -> share mc pl k ->
  evaluate tan_ log cabs stale mc inch line b c mv = (c', mv', None) ->
  block_value "X" b ox -> block_value "Y" b oy -> block_value "Z" b oz ->
  let x := or_else ox dzero in let y := or_else oy dzero in let z := or_else oz dzero in
  moderate x -> moderate y -> moderate z ->
  let l := way (amount x / k) (amount y) (amount z) in
  if g =? 0 then about (rapid c') l /\ cut c' = dzero else about (cut c') l /\ rapid c' = dzero.
Proof. intros. eapply straight_incremental_way; eassumption. Qed.
Print Assumptions C79_incremental_partial.

(** The time of any motion at a feed a minute: the way by the feed in force, in
    seconds. *)
Theorem C79_cut_time_partial : forall tan_ log cabs stale mc inch line b c mv c' mv' g pl fm f,
  proper_axes mc -> b <> [] -> no_tool b -> plain_codes b -> motion_code b c g -> 0 <= g ->
  in_force (code_of planes) b (c_plane c) pl -> in_force (code_of feed_modes) b (c_feed c) fm -> ~ (turning mc pl /\ fm = 95) ->
  in_force (number_of "F") b (c_f c) f -> rate f ->
  evaluate tan_ log cabs stale mc inch line b c mv = (c', mv', None) ->
  moderate (cut c') -> (0 <= amount (cut c'))%R -> about (cut_time c') (seconds (amount (cut c')) (amount f)).
Proof. intros. eapply cutting_time; eassumption. Qed.
Print Assumptions C79_cut_time_partial.

(** At a feed a turn (G95 when turning) and a fixed speed it is the way by feed
    times speed. *)
Theorem C79_turning_time_partial : forall tan_ log cabs stale mc inch line b c mv c' mv' g pl sm f s,
  proper_axes mc -> b <> [] -> no_tool b -> plain_codes b -> motion_code b c g -> 0 <= g ->
  in_force (code_of planes) b (c_plane c) pl -> in_force (code_of feed_modes) b (c_feed c) 95 -> turning mc pl ->
  in_force (code_of speed_modes) b (c_css c) sm -> sm <> 96 ->
  in_force (number_of "F") b (c_f c) f -> rate f -> in_force (number_of "S") b (c_s c) s -> rate s ->
  evaluate tan_ log cabs stale mc inch line b c mv = (c', mv', None) ->
  moderate (cut c') -> (0 <= amount (cut c'))%R -> about (cut_time c') (seconds (amount (cut c')) (amount f * amount s)).
Proof. intros. eapply turning_time; eassumption. Qed.
Print Assumptions C79_turning_time_partial.

(** At a constant surface speed (G96) the speed is that at a diameter as long as
    the way; the speed counts metres, or feet with inches, a minute. *)
Theorem C79_surface_time_partial : forall tan_ log cabs stale mc inch line b c mv c' mv' g pl f s,
  proper_axes mc -> b <> [] -> no_tool b -> plain_codes b -> motion_code b c g -> 0 <= g ->
  in_force (code_of planes) b (c_plane c) pl -> in_force (code_of feed_modes) b (c_feed c) 95 -> turning mc pl ->
  in_force (code_of speed_modes) b (c_css c) 96 ->
  in_force (number_of "F") b (c_f c) f -> rate f -> in_force (number_of "S") b (c_s c) s -> rate s ->
  evaluate tan_ log cabs stale mc inch line b c mv = (c', mv', None) ->
  finite (cut c') -> (0 < amount (cut c'))%R ->
  let turns := ddiv (dmul s (dz (if inch then 12 else 1000))) (dmul m_pi (cut c')) in
  cut_time c' = dmul (dz 60) (ddiv (cut c') (dmul f turns)).
Proof. intros. eapply surface_time; eassumption. Qed.
Print Assumptions C79_surface_time_partial.

(** Rapid motions take the way by the rapid feed of the machine. *)
Theorem C79_rapid_time_partial : forall tan_ log cabs stale mc inch line b c mv c' mv' g,
  proper_axes mc -> b <> [] -> no_tool b -> plain_codes b -> motion_code b c g -> 0 <= g ->
  rate (mc_fast_feed mc) ->
  evaluate tan_ log cabs stale mc inch line b c mv = (c', mv', None) ->
  moderate (rapid c') -> (0 <= amount (rapid c'))%R -> about (rapid_time c') (seconds (amount (rapid c')) (amount (mc_fast_feed mc))).
Proof. intros. eapply rapid_takes; eassumption. Qed.
Print Assumptions C79_rapid_time_partial.

(** A mill and a lathe, and words. *)
Definition cnc : cnc_defaults := mkCnc 0 17 false 90 94 false 98 3 false false false false false false false false.
Definition mill : machine :=
  mkMachine false MTMill [] [("X", dzero); ("Y", dzero); ("Z", dzero)] ["X"; "Y"; "Z"] (dz 20000) 6 0 0 false false "" "" "M" "123" cnc.
Definition lathe : machine :=
  mkMachine false MTLathe [] [("X", dz 50); ("Y", dzero); ("Z", dz 100)] ["X"; "Y"; "Z"] (dz 20000) 6 0 0 false false "" "" "M" "123" cnc.
Definition word (w v : string) : attr := ADec (mkDec w None None None None (Some v) None None None).

(** The calculator after some blocks. *)
Definition after_blocks (tan_ log cabs : dbl -> dbl) (mc : machine) (bs : list block) : calc :=
  fold_left (fun c b => fst (fst (evaluate tan_ log cabs 0 mc false 1 b c []))) bs (calc_new mc).

(** The restriction to plain codes is needed: a dwell of two seconds while G1 is
    active is reported as two millimetres of cutting, though nothing moves. *)
Theorem C79_dwell_refuted : forall tan_ log cabs, exists c b c' mv',
  no_tool b /\ motion_code b c 1 /\ evaluate tan_ log cabs 0 mill false 1 b c [] = (c', mv', None) /\
  (forall w, In w ["X"; "Y"; "Z"] -> position w c = Some dzero /\ position w c' = Some dzero) /\
  cut c' = dz 2 /\ rapid c' = dzero.
Proof.
  intros. exists (after_blocks tan_ log cabs mill [[word "G" "1"; word "F" "100"]]), [word "G" "4"; word "X" "2"]. do 2 eexists.
  split. { split; intros (d & t & I & _); vm_compute in I; exact I. }
  split. { right. split; [|vm_compute; reflexivity]. intros d a I (W & (t & V & N) & M). cbn in I. destruct I as [<-|[<-|[]]]; [|discriminate].
    injection V as <-. vm_compute in N. injection N as <-. cbn in M. intuition discriminate. }
  split; [vm_compute; reflexivity|].
  split. { intros w [<-|[<-|[<-|[]]]]; vm_compute; split; reflexivity. }
  split; vm_compute; reflexivity.
Qed.
Print Assumptions C79_dwell_refuted.

(** With a constant surface speed (G96) the length of the way is taken for the
    diameter: twice the way at the same diameter takes four times as long. *)
Theorem C79_surface_speed_refuted : forall tan_ log cabs, exists c b1 b2 c1 c2 mv1 mv2,
  in_force (code_of feed_modes) b1 (c_feed c) 95 /\ in_force (code_of speed_modes) b1 (c_css c) 96 /\
  evaluate tan_ log cabs 0 lathe false 1 b1 c [] = (c1, mv1, None) /\ evaluate tan_ log cabs 0 lathe false 1 b2 c [] = (c2, mv2, None) /\
  position "X" c1 = position "X" c /\ position "X" c2 = position "X" c /\ c_f c1 = c_f c2 /\ c_s c1 = c_s c2 /\
  cut c1 = dz 10 /\ cut c2 = dz 20 /\ cut_time c1 <> dzero /\ cut_time c2 = dmul (dz 4) (cut_time c1).
Proof.
  intros. exists (after_blocks tan_ log cabs lathe [[word "G" "1"; word "G" "95"; word "G" "96"; word "F" "1"; word "S" "100"]]),
    [word "Z" "90"], [word "Z" "80"]. do 4 eexists.
  assert (NG : forall group a, last_said (code_of group) [word "Z" a] None).
  { intros group a d n I (W & _). cbn in I. destruct I as [<-|[]]. discriminate. }
  split. { right. split; [apply NG|vm_compute; reflexivity]. }
  split. { right. split; [apply NG|vm_compute; reflexivity]. }
  split; [vm_compute; reflexivity|]. split; [vm_compute; reflexivity|].
  repeat (split; [vm_compute; reflexivity|]). split; [vm_compute; discriminate|vm_compute; reflexivity].
Qed.
Print Assumptions C79_surface_speed_refuted.

(** G1 X3 Y4 F100 from the origin: five millimetres in three seconds. *)
Example C79_ex :
  let b := [word "G" "1"; word "X" "3"; word "Y" "4"; word "F" "100"] in
  let c := calc_new mill in
  exists c' mv', proper_axes mill /\ no_tool b /\ plain_codes b /\ motion_code b c 1 /\
  in_force (code_of programmings) b (c_prog c) 90 /\ in_force (number_of "F") b (c_f c) (dz 100) /\ rate (dz 100) /\
  evaluate (fun x => x) (fun x => x) dabs 0 mill false 1 b c [] = (c', mv', None) /\
  position "X" c = Some dzero /\ position "X" c' = Some (dz 3) /\ position "Y" c' = Some (dz 4) /\ position "Z" c' = Some dzero /\
  moderate dzero /\ moderate (dz 3) /\ share mill 17 1 /\
  cut c' = dz 5 /\ rapid c' = dzero /\ cut_time c' = dz 3.
Proof.
  cbv zeta. do 2 eexists.
  split. { intros w I J. cbn in I, J. intuition (subst; discriminate). }
  split. { split; intros (d & t & I & _); vm_compute in I; exact I. }
  split. { intros d t n I W V N. cbn in I. decompose [or] I; try contradiction; subst d; try discriminate. injection V as <-. vm_compute in N. injection N as <-.
    cbn. auto. }
  split. { left. exists [], (mkDec "G" None None None None (Some "1") None None None), [mkDec "X" None None None None (Some "3") None None None;
      mkDec "Y" None None None None (Some "4") None None None; mkDec "F" None None None None (Some "100") None None None].
    split; [reflexivity|]. split; [split; [reflexivity|split; [exists "1"; split; vm_compute; reflexivity|cbn; auto]]|].
    intros d a I (W & _). cbn in I. decompose [or] I; try contradiction; subst d; discriminate. }
  split. { right. split; [|reflexivity]. intros d a I (W & (t & V & N) & M). cbn in I. decompose [or] I; try contradiction; subst d; try discriminate.
    injection V as <-. vm_compute in N. injection N as <-. cbn in M. intuition discriminate. }
  split. { left. exists [mkDec "G" None None None None (Some "1") None None None; mkDec "X" None None None None (Some "3") None None None;
      mkDec "Y" None None None None (Some "4") None None None], (mkDec "F" None None None None (Some "100") None None None), [].
    split; [reflexivity|]. split; [split; [reflexivity|split; [left; discriminate|vm_compute; reflexivity]]|]. intros d a []. }
  split. { split; [vm_compute; reflexivity|]. change (dz 100) with (S754_finite false 7036874417766400 (-46)).
    unfold amount, SF2R, F2R, cond_Zopp, Fnum, Fexp. replace (IZR 7036874417766400 * bpow radix2 (-46))%R with 100%R by (cbn; lra).
    split; (eapply Rle_trans; [|apply Rle_refl || apply (bpow_le radix2 7); lia]); [|cbn; lra].
    eapply Rle_trans; [apply (bpow_le radix2 (-100) 0); lia|cbn; lra]. }
  split; [vm_compute; reflexivity|]. do 4 (split; [vm_compute; reflexivity|]).
  split. { split; [exact Logic.I|left; reflexivity]. }
  split. { split; [vm_compute; reflexivity|]. right. change (dz 3) with (S754_finite false 6755399441055744 (-51)).
    unfold amount, SF2R, F2R, cond_Zopp, Fnum, Fexp. replace (IZR 6755399441055744 * bpow radix2 (-51))%R with 3%R by (cbn; lra).
    rewrite Rabs_pos_eq by lra. split; [eapply Rle_trans; [apply (bpow_le radix2 (-400) 0); lia|cbn; lra]|].
    eapply Rle_trans; [|apply (bpow_le radix2 2 400); lia]. cbn; lra. }
  split. { right. split; [|reflexivity]. intros [_ [H|[H _]]]; discriminate. }
  split; [vm_compute; reflexivity|]. split; vm_compute; reflexivity.
Qed.

(** 100 mm along Z with G96 S200 and a feed of 1 mm a turn on a lathe. *)
Example C79_surface_ex :
  let b := [word "Z" "0"] in
  exists c c' mv', c = after_blocks (fun x => x) (fun x => x) dabs lathe [[word "G" "1"; word "G" "95"; word "G" "96"; word "S" "200"; word "F" "1"]] /\
  motion_code b c 1 /\ in_force (code_of feed_modes) b (c_feed c) 95 /\ in_force (code_of speed_modes) b (c_css c) 96 /\ turning lathe 17 /\
  in_force (number_of "F") b (c_f c) (dz 1) /\ in_force (number_of "S") b (c_s c) (dz 200) /\
  evaluate (fun x => x) (fun x => x) dabs 0 lathe false 1 b c [] = (c', mv', None) /\
  cut c' = dz 100 /\ SFcompare (dz 9) (cut_time c') = Some Lt /\ SFcompare (cut_time c') (dz 10) = Some Lt.
Proof.
  cbv zeta. do 3 eexists. split; [reflexivity|].
  split. { right. split; [|vm_compute; reflexivity]. intros d a [<-|[]] [W _]. discriminate W. }
  split. { right. split; [|vm_compute; reflexivity]. intros d a [<-|[]] [W _]. discriminate W. }
  split. { right. split; [|vm_compute; reflexivity]. intros d a [<-|[]] [W _]. discriminate W. }
  split. { left. reflexivity. }
  split. { right. split; [|vm_compute; reflexivity]. intros d a [<-|[]] [W _]. discriminate W. }
  split. { right. split; [|vm_compute; reflexivity]. intros d a [<-|[]] [W _]. discriminate W. }
  split; [vm_compute; reflexivity|]. do 2 (split; [vm_compute; reflexivity|]). vm_compute; reflexivity.
Qed.
