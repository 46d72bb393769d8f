(** C82: the ways to the tool exchange point and to the base point. *)
From Coq Require Import Reals Lra.
From Flocq Require Import Core BinarySingleNaN.
From Verif Require Import Model.Base Model.Attr Model.Double Model.Macro Model.Verifiers Model.PathGeom Model.PathCalc
  Spec.DoubleSpec Spec.SplitSpec Spec.PathSpec Spec.MotionSpec Spec.TravelSpec Proofs.Tactics Proofs.TravelProofs.

Local Open Scope string_scope.
Local Open Scope list_scope.
Local Open Scope Z_scope.

(** A tool exchange goes straight, in rapid, from where the machine stands to the
    tool exchange point; G28 goes to the base point.  X counts half where it is a
    diameter. *)
Theorem C82_way_partial : forall tan_ log cabs stale mc inch line b c mv c' mv' p pl k xp yp zp x y z,
  proper_axes mc -> bound_for mc b p -> is_map p -> in_rapid b -> in_force (code_of planes) b (c_plane c) pl -> share mc pl k ->
  evaluate tan_ log cabs stale mc inch line b c mv = (c', mv', None) ->
  position "X" c = Some xp -> position "Y" c = Some yp -> position "Z" c = Some zp ->
  standing_at p "X" xp x -> standing_at p "Y" yp y -> standing_at p "Z" zp z ->
  moderate xp -> moderate yp -> moderate zp -> moderate x -> moderate y -> moderate z ->
  about (rapid c') (way ((amount x - amount xp) / k) (amount y - amount yp) (amount z - amount zp)) /\ cut c' = dzero.
Proof. intros. eapply bound_way; eassumption. Qed.
Print Assumptions C82_way_partial.

(** It ends there.  Partial: the coordinates are taken as absolute through a
    reference to a value that no longer exists; this is what holds as long as the
    value is still found there (90). *)
Theorem C82_end_partial : forall tan_ log cabs mc inch line b c mv c' mv' p w x y,
  proper_axes mc -> bound_for mc b p -> is_map p -> in_rapid b ->
  evaluate tan_ log cabs 90 mc inch line b c mv = (c', mv', None) ->
  In w ["X"; "Y"; "Z"] -> position w c = Some x -> standing_at p w x y -> position w c' = Some y.
Proof. intros. eapply bound_end with (stale := 90); try eassumption; reflexivity. Qed.
Print Assumptions C82_end_partial.

(** It takes as long as the way takes at the rapid feed of the machine. *)
Theorem C82_time_partial : forall tan_ log cabs stale mc inch line b c mv c' mv' p,
  proper_axes mc -> bound_for mc b p -> in_rapid b -> rate (mc_fast_feed mc) ->
  evaluate tan_ log cabs stale mc inch line b c mv = (c', mv', None) ->
  moderate (rapid c') -> (0 <= amount (rapid c'))%R -> about (rapid_time c') (seconds (amount (rapid c')) (amount (mc_fast_feed mc))).
Proof. intros. eapply bound_time; eassumption. Qed.
Print Assumptions C82_time_partial.

(** A mill whose tools are exchanged with M6 at X100 Y4, with its base at the
    origin. *)
Definition cnc : cnc_defaults := mkCnc 0 17 false 90 94 false 98 3 false false false false false false false false.
Definition mill : machine :=
  mkMachine false MTMill [("X", dz 100); ("Y", dz 4)] [("X", dzero); ("Y", dzero); ("Z", dzero)] ["X"; "Y"; "Z"] (dz 60) 6 0 0 false false "" "" "M" "123" cnc.
Definition word (w v : string) : attr := ADec (mkDec w None None None None (Some v) None None None).
Definition after_blocks (tan_ log cabs : dbl -> dbl) (bs : list block) : calc :=
  fold_left (fun c b => fst (fst (evaluate tan_ log cabs 90 mill false 1 b c []))) bs (calc_new mill).

(** G28 with nothing else. *)
Lemma base_alone : forall l, (forall d, In d (effective (word "G" "28" :: l)) -> d_word d = "G" -> d_value d = Some "28" /\ d_dot d = None) ->
  calls_base (word "G" "28" :: l).
Proof.
  intros l H. split.
  - exists (mkDec "G" None None None None (Some "28") None None None). split; [left; reflexivity|]. split; [reflexivity|].
    exists "28", 28. split; [reflexivity|]. split; [vm_compute; reflexivity|]. split; [cbn; intuition discriminate|reflexivity].
  - intros d s I (W & t & n & D & _ & _ & ->). destruct (H d I W) as [D' P]. rewrite D' in D. injection D as <-. rewrite P. reflexivity.
Qed.

Lemma base_words : forall l, (forall d, In d (effective (word "G" "28" :: l)) -> d_word d = "G" -> d_value d = Some "28" /\ d_dot d = None) ->
  last_said (code_of motions) (word "G" "28" :: l) None.
Proof.
  intros l H d n I (W & (t & D & N) & M). destruct (H d I W) as [D' _]. rewrite D' in D. injection D as <-. vm_compute in N. injection N as <-.
  cbn in M. intuition discriminate.
Qed.

(** G28 Z0 returns the Z axis alone, but X is taken to have gone home as well. *)
Theorem C82_axes_refuted : forall tan_ log cabs, exists c b c' mv',
  calls_base b /\ no_tool b /\ in_rapid b /\ block_value "X" b None /\ block_value "Z" b (Some dzero) /\
  evaluate tan_ log cabs 90 mill false 1 b c [] = (c', mv', None) /\
  position "X" c = Some (dz 10) /\ position "Z" c = Some dzero /\ position "X" c' = Some dzero /\ rapid c' = dz 10.
Proof.
  intros. exists (after_blocks tan_ log cabs [[word "G" "0"; word "X" "10"]]), [word "G" "28"; word "Z" "0"]. do 2 eexists.
  assert (H : forall d, In d (effective [word "G" "28"; word "Z" "0"]) -> d_word d = "G" -> d_value d = Some "28" /\ d_dot d = None).
  { intros d I W. cbn in I. destruct I as [<-|[<-|[]]]; [split; reflexivity|discriminate]. }
  split; [apply base_alone; exact H|]. split. { split; intros (d & t & I & _); vm_compute in I; exact I. }
  split; [right; apply base_words; exact H|].
  split. { intros d I. cbn in I. contradiction. }
  split. { exists [], (mkDec "Z" None None None None (Some "0") None None None), []. split; [reflexivity|]. split; [|intros d []].
    split; [left; discriminate|]. exists dzero. split; vm_compute; reflexivity. }
  split; [vm_compute; reflexivity|]. do 3 (split; [vm_compute; reflexivity|]). vm_compute; reflexivity.
Qed.
Print Assumptions C82_axes_refuted.

(** G28 X10 goes by X10, but the detour is not counted: from the base and back is
    taken for no way at all. *)
Theorem C82_via_refuted : forall tan_ log cabs, exists c b c' mv',
  calls_base b /\ no_tool b /\ in_rapid b /\ block_value "X" b (Some (dz 10)) /\
  evaluate tan_ log cabs 90 mill false 1 b c [] = (c', mv', None) /\
  position "X" c = Some dzero /\ rapid c' = dzero /\ cut c' = dzero.
Proof.
  intros. exists (after_blocks tan_ log cabs []), [word "G" "28"; word "X" "10"]. do 2 eexists.
  assert (H : forall d, In d (effective [word "G" "28"; word "X" "10"]) -> d_word d = "G" -> d_value d = Some "28" /\ d_dot d = None).
  { intros d I W. cbn in I. destruct I as [<-|[<-|[]]]; [split; reflexivity|discriminate]. }
  split; [apply base_alone; exact H|]. split. { split; intros (d & t & I & _); vm_compute in I; exact I. }
  split; [right; apply base_words; exact H|].
  split. { exists [], (mkDec "X" None None None None (Some "10") None None None), []. split; [reflexivity|]. split; [|intros d []].
    split; [left; discriminate|]. exists (dz 10). split; vm_compute; reflexivity. }
  split; [vm_compute; reflexivity|]. do 2 (split; [vm_compute; reflexivity|]). vm_compute; reflexivity.
Qed.
Print Assumptions C82_via_refuted.

(** G28 holds for its block only, but a cut that goes on after it is taken for a
    rapid motion. *)
Theorem C82_modal_refuted : forall tan_ log cabs, exists c b1 b2 c1 c2 mv1 mv2,
  calls_base b1 /\ no_tool b1 /\ last_said (code_of motions) b1 None /\ last_said (code_of motions) b2 None /\ c_g c = 1 /\
  evaluate tan_ log cabs 90 mill false 1 b1 c [] = (c1, mv1, None) /\ evaluate tan_ log cabs 90 mill false 2 b2 c1 [] = (c2, mv2, None) /\
  position "X" c1 = Some dzero /\ position "X" c2 = Some (dz 10) /\ cut c2 = dzero /\ rapid c2 = dz 10.
Proof.
  intros. exists (after_blocks tan_ log cabs [[word "G" "1"; word "X" "20"; word "F" "100"]]), [word "G" "28"], [word "X" "10"]. do 4 eexists.
  assert (H : forall d, In d (effective [word "G" "28"]) -> d_word d = "G" -> d_value d = Some "28" /\ d_dot d = None).
  { intros d I W. cbn in I. destruct I as [<-|[]]. split; reflexivity. }
  split; [apply base_alone; exact H|]. split. { split; intros (d & t & I & _); vm_compute in I; exact I. }
  split; [apply base_words; exact H|]. split. { intros d n I (W & _). cbn in I. destruct I as [<-|[]]. discriminate. }
  split; [vm_compute; reflexivity|]. split; [vm_compute; reflexivity|]. split; [vm_compute; reflexivity|].
  do 3 (split; [vm_compute; reflexivity|]). vm_compute; reflexivity.
Qed.
Print Assumptions C82_modal_refuted.

(** Without [in_rapid]: G28 with G1 goes in rapid, but is taken for a cut. *)
Theorem C82_cut_refuted : forall tan_ log cabs, exists c b c' mv',
  calls_base b /\ no_tool b /\ evaluate tan_ log cabs 90 mill false 1 b c [] = (c', mv', None) /\
  position "X" c = Some (dz 10) /\ position "X" c' = Some dzero /\ cut c' = dz 10 /\ rapid c' = dzero.
Proof.
  intros. exists (after_blocks tan_ log cabs [[word "G" "1"; word "X" "10"; word "F" "100"]]), [word "G" "28"; word "G" "1"]. do 2 eexists.
  split. { split.
    - exists (mkDec "G" None None None None (Some "28") None None None). split; [left; reflexivity|]. split; [reflexivity|].
      exists "28", 28. split; [reflexivity|]. split; [vm_compute; reflexivity|]. split; [cbn; intuition discriminate|reflexivity].
    - intros d s I (W & t & n & D & N & X & ->). cbn in I. destruct I as [<-|[<-|[]]]; injection D as <-; [reflexivity|].
      exfalso. apply X. vm_compute in N. injection N as <-. cbn. auto. }
  split. { split; intros (d & t & I & _); vm_compute in I; exact I. }
  split; [vm_compute; reflexivity|]. do 3 (split; [vm_compute; reflexivity|]). vm_compute; reflexivity.
Qed.
Print Assumptions C82_cut_refuted.

(** When the place of the value that no longer exists holds something else (91),
    the exchange point is added to the place before. *)
Theorem C82_stale_refuted : forall tan_ log cabs, exists c b c' mv',
  bound_for mill b (mc_exchange_point mill) /\ in_rapid b /\ evaluate tan_ log cabs 91 mill false 1 b c [] = (c', mv', None) /\
  position "X" c = Some (dz 97) /\ assoc "X" (mc_exchange_point mill) = Some (dz 100) /\ position "X" c' = Some (dz 197).
Proof.
  intros. exists (after_blocks tan_ log cabs [[word "G" "0"; word "X" "97"]]), [word "M" "6"]. do 2 eexists.
  split. { left. split; [|split; [|reflexivity]].
    - exists (mkDec "M" None None None None (Some "6") None None None), "6". split; [left; reflexivity|]. split; vm_compute; reflexivity.
    - intros d t n I W. cbn in I. destruct I as [<-|[]]. discriminate. }
  split. { right. intros d n I (W & _). cbn in I. destruct I as [<-|[]]. discriminate. }
  split; [vm_compute; reflexivity|]. do 2 (split; [vm_compute; reflexivity|]). vm_compute; reflexivity.
Qed.
Print Assumptions C82_stale_refuted.

(** M6 at X97: three and four millimetres to the exchange point are five, in five
    seconds, besides the six for the exchange; Z stays. *)
Example C82_ex :
  let b := [word "T" "1"; word "M" "6"] in
  let c := after_blocks (fun x => x) (fun x => x) dabs [[word "G" "0"; word "X" "97"]] in
  exists c' mv', proper_axes mill /\ bound_for mill b (mc_exchange_point mill) /\ is_map (mc_exchange_point mill) /\ in_rapid b /\
  evaluate (fun x => x) (fun x => x) dabs 90 mill false 1 b c [] = (c', mv', None) /\
  position "X" c = Some (dz 97) /\ position "Y" c = Some dzero /\ position "Z" c = Some dzero /\
  standing_at (mc_exchange_point mill) "X" (dz 97) (dz 100) /\ standing_at (mc_exchange_point mill) "Y" dzero (dz 4) /\
  standing_at (mc_exchange_point mill) "Z" dzero dzero /\
  position "X" c' = Some (dz 100) /\ position "Y" c' = Some (dz 4) /\ position "Z" c' = Some dzero /\
  rapid c' = dz 5 /\ cut c' = dzero /\ rapid_time c' = dz 5 /\ t_total (c_time c') = dadd (t_total (c_time c)) (dz 11).
Proof.
  cbv zeta. do 2 eexists.
  split. { intros w I J. cbn in I, J. intuition (subst; discriminate). }
  split. { left. split; [|split; [|reflexivity]].
    - exists (mkDec "M" None None None None (Some "6") None None None), "6". split; [left; reflexivity|]. split; vm_compute; reflexivity.
    - intros d t n I W. cbn in I. destruct I as [<-|[<-|[]]]; discriminate. }
  split. { repeat constructor; cbn; intuition discriminate. }
  split. { right. intros d n I (W & _). cbn in I. destruct I as [<-|[<-|[]]]; discriminate. }
  split; [vm_compute; reflexivity|]. do 3 (split; [vm_compute; reflexivity|]).
  split; [left; left; reflexivity|]. split; [left; right; left; reflexivity|].
  split. { right. split; [|reflexivity]. intros z [Q|[Q|[]]]; discriminate. }
  do 6 (split; [vm_compute; reflexivity|]). vm_compute; reflexivity.
Qed.
