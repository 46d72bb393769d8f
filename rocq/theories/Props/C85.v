(** C85: the ways of arcs with a radius. *)
From Coq Require Import Reals Lra.
From Flocq Require Import Core BinarySingleNaN.
From Verif Require Import Model.Base Model.Attr Model.Double Model.Macro Model.Verifiers Model.PathGeom Model.PathCalc
  Spec.DoubleSpec Spec.SplitSpec Spec.PathSpec Spec.MotionSpec Spec.ArcSpec Spec.RadiusSpec Proofs.Tactics Proofs.FloatReal Proofs.RadiusProofs.
From Verif Require Props.C84.

Local Open Scope string_scope.
Local Open Scope list_scope.
Local Open Scope Z_scope.

(** G2 or G3 with R: the way is that of the shorter arc over the chord from where
    the block starts to where it ends, with a negative R that of the longer one.
    X is a diameter on some machines; the chord is that of the half then. *)
Theorem C85_radius_partial : forall tan_ log cabs stale mc inch line b c mv c' mv' g p pl a1 a2 a3 p1 p2 ox oy r xp yp xc yc k,
  proper_axes mc -> good_atan tan_ -> (forall x, cabs x = dabs x) -> b <> [] -> no_tool b -> plain_codes b -> motion_code b c g -> In g [2; 3] ->
  in_force (code_of programmings) b (c_prog c) p -> in_force (code_of planes) b (c_plane c) pl -> share mc pl k -> arc_words pl a1 a2 a3 p1 p2 ->
  c_helix c = HNone -> block_value a1 b ox -> block_value a2 b oy -> block_value a3 b None -> block_value p1 b None -> block_value "R" b (Some r) ->
  block_value "Q" b None -> block_value "L" b None ->
  evaluate tan_ log cabs stale mc inch line b c mv = (c', mv', None) -> position a1 c = Some xp -> position a2 c = Some yp ->
  goes_to p ox xp xc -> goes_to p oy yp yc -> coordinate xp -> coordinate yp -> coordinate xc -> coordinate yc ->
  finite r -> (/ 1000000 <= Rabs (amount r) <= 1000000)%R ->
  (/ 1000000 <= chord (amount xp / k) (amount yp) (amount xc / k) (amount yc) <= 15 / 8 * Rabs (amount r))%R ->
  near_arc (cut c') (way_around (amount r) (chord (amount xp / k) (amount yp) (amount xc / k) (amount yc))) /\ rapid c' = dzero.
Proof. intros. eapply arced; eassumption. Qed.
Print Assumptions C85_radius_partial.

(** A machine whose axes start at X10 Y0 Z0, and words. *)
Definition cnc : cnc_defaults := mkCnc 0 17 false 90 94 false 98 3 false false false false false false false false.
Definition mill : machine :=
  mkMachine false MTMill [] [("X", dz 10); ("Y", dzero); ("Z", dzero)] ["X"; "Y"; "Z"] (dz 20000) 6 0 0 false false "" "" "M" "123" cnc.
Definition word (w v : string) : attr := ADec (mkDec w None None None None (Some v) None None None).
Definition bow (x y r : string) : block := [word "G" "3"; word "X" x; word "Y" y; word "R" r; word "F" "100"].

(** An arc that ends where it starts has no length, but a whole circle is reported. *)
Theorem C85_nowhere_refuted : forall tan_ log,
  exists c' mv', evaluate tan_ log dabs 0 mill false 1 (bow "10" "0" "10") (calc_new mill) [] = (c', mv', None) /\
    position "X" (calc_new mill) = Some (dz 10) /\ position "Y" (calc_new mill) = Some dzero /\
    (62 < amount (cut c'))%R /\ way_around 10 (chord 10 0 10 0) = 0%R.
Proof.
  intros. do 2 eexists. split; [vm_compute; reflexivity|]. split; [reflexivity|]. split; [reflexivity|]. split.
  - match goal with |- (_ < amount ?x)%R => let y := eval vm_compute in x in replace x with y by (vm_compute; reflexivity) end.
    unfold amount, SF2R, F2R, cond_Zopp. cbn. lra.
  - unfold way_around. destruct (Rlt_dec 10 0); [lra|]. unfold shorter, chord.
    replace ((10 - 10) * (10 - 10) + (0 - 0) * (0 - 0))%R with 0%R by ring. rewrite sqrt_0. unfold Rdiv. rewrite Rmult_0_l, asin_0. ring.
Qed.
Print Assumptions C85_nowhere_refuted.

(** From X10 to X0 there is no arc with radius 3, but the block is accepted and a way reported. *)
Theorem C85_too_far_refuted : exists c' mv',
  evaluate (fun x => x) (fun x => x) dabs 0 mill false 1 (bow "0" "0" "3") (calc_new mill) [] = (c', mv', None) /\
  (0 < amount (cut c'))%R /\ (2 * 3 < chord 10 0 0 0)%R.
Proof.
  do 2 eexists. split; [vm_compute; reflexivity|]. split.
  - match goal with |- (_ < amount ?x)%R => let y := eval vm_compute in x in replace x with y by (vm_compute; reflexivity) end.
    unfold amount, SF2R, F2R, cond_Zopp. cbn. lra.
  - unfold chord. replace ((10 - 0) * (10 - 0) + (0 - 0) * (0 - 0))%R with (10 * 10)%R by ring. rewrite sqrt_square by lra. lra.
Qed.
Print Assumptions C85_too_far_refuted.

(** There is an arc tangent as asked for. *)
Example C85_atan_ex : good_atan (fun x => Props.C84.nearest (atan (amount x))).
Proof.
  intros x F L. apply Props.C84.nearest_about. pose proof (atan_bound (amount x)) as B. pose proof PI_4 as P.
  assert (B2 : (4 <= bpow radix2 1000)%R) by (change 4%R with (bpow radix2 2); apply bpow_le; lia).
  split; [|lra]. destruct L as [L|<-]; [rewrite <- atan_0; left; now apply atan_increasing|rewrite atan_0; lra].
Qed.

Lemma ten : amount (dz 10) = 10%R.
Proof. replace (dz 10) with (S754_finite false 5629499534213120 (-49)) by (vm_compute; reflexivity). unfold amount, SF2R, F2R, cond_Zopp. cbn. lra. Qed.

(** With it and a logarithm a quarter of a circle from X10 Y0 to X0 Y10 meets the
    hypotheses; its way is a quarter of [2 * PI * 10]. *)
Example C85_ex : let b := bow "0" "10" "10" in let c := calc_new mill in
  proper_axes mill /\ b <> [] /\ no_tool b /\ plain_codes b /\ motion_code b c 3 /\ in_force (code_of programmings) b (c_prog c) 90 /\
  in_force (code_of planes) b (c_plane c) 17 /\ share mill 17 1 /\ arc_words 17 "X" "Y" "Z" "I" "J" /\ c_helix c = HNone /\
  block_value "X" b (Some dzero) /\ block_value "Y" b (Some (dz 10)) /\ block_value "Z" b None /\ block_value "I" b None /\
  block_value "R" b (Some (dz 10)) /\ block_value "Q" b None /\ block_value "L" b None /\
  (exists c' mv', evaluate (fun x => x) (fun x => x) dabs 0 mill false 1 b c [] = (c', mv', None)) /\
  position "X" c = Some (dz 10) /\ position "Y" c = Some dzero /\ goes_to 90 (Some dzero) (dz 10) dzero /\ goes_to 90 (Some (dz 10)) dzero (dz 10) /\
  coordinate (dz 10) /\ coordinate dzero /\ finite (dz 10) /\ (/ 1000000 <= Rabs (amount (dz 10)) <= 1000000)%R /\
  (/ 1000000 <= chord (amount (dz 10) / 1) (amount dzero) (amount dzero / 1) (amount (dz 10)) <= 15 / 8 * Rabs (amount (dz 10)))%R /\
  way_around (amount (dz 10)) (chord (amount (dz 10) / 1) (amount dzero) (amount dzero / 1) (amount (dz 10))) = (2 * PI * 10 / 4)%R.
Proof.
  cbv zeta.
  assert (NG : forall group, ~ In 3 group -> last_said (code_of group) (bow "0" "10" "10") None).
  { intros group N3 d a I (W & (t & V & N) & M). cbn in I. decompose [or] I; try contradiction; subst d; try discriminate.
    injection V as <-. vm_compute in N. injection N as <-. contradiction. }
  assert (CH : chord (amount (dz 10) / 1) (amount dzero) (amount dzero / 1) (amount (dz 10)) = (10 * sqrt 2)%R).
  { rewrite ten. replace (amount dzero) with 0%R by reflexivity. unfold chord.
    replace ((10 / 1 - 0 / 1) * (10 / 1 - 0 / 1) + (0 - 10) * (0 - 10))%R with (10 * 10 * 2)%R by field.
    rewrite sqrt_mult, sqrt_square by lra. reflexivity. }
  assert (S2 : (1 <= sqrt 2 <= 3 / 2)%R).
  { split; [rewrite <- sqrt_1 at 1|rewrite <- (sqrt_square (3 / 2)) by lra]; apply sqrt_le_1_alt; lra. }
  assert (T1 : (bpow radix2 (-400) <= 1)%R) by (change 1%R with (bpow radix2 0); apply bpow_le; lia).
  split. { intros w I J. cbn in I, J. intuition (subst; discriminate). }
  split; [discriminate|].
  split. { split; intros (d & t & I & _); cbn in I; exact I. }
  split. { intros d t n I W V N. cbn in I. decompose [or] I; try contradiction; subst d; try discriminate. injection V as <-. vm_compute in N. injection N as <-.
    cbn. auto 10. }
  split. { left. exists []. do 2 eexists. split; [reflexivity|].
    split; [split; [reflexivity|split; [exists "3"; split; vm_compute; reflexivity|cbn; auto 10]]|].
    intros d a I (W & _). cbn in I. decompose [or] I; try contradiction; subst d; discriminate. }
  split. { right. split; [apply NG; cbn; intuition discriminate|reflexivity]. }
  split. { right. split; [apply NG; cbn; intuition discriminate|reflexivity]. }
  split. { right. split; [intros [_ [D|[D _]]]; discriminate|reflexivity]. }
  split. { left. auto 10. }
  split; [reflexivity|].
  split. { cbn. exists []. do 2 eexists. split; [reflexivity|]. split; [|intros d []]. split; [left; discriminate|]. eexists. split; vm_compute; reflexivity. }
  split. { cbn. exists []. do 2 eexists. split; [reflexivity|]. split; [|intros d []]. split; [left; discriminate|]. eexists. split; vm_compute; reflexivity. }
  split. { intros d I. cbn in I. contradiction. }
  split. { intros d I. cbn in I. contradiction. }
  split. { cbn. exists []. do 2 eexists. split; [reflexivity|]. split; [|intros d []]. split; [left; discriminate|]. eexists. split; vm_compute; reflexivity. }
  split. { intros d I. cbn in I. contradiction. }
  split. { intros d I. cbn in I. contradiction. }
  split. { do 2 eexists. vm_compute. reflexivity. }
  split; [reflexivity|]. split; [reflexivity|]. split; [left; auto|]. split; [left; auto|].
  assert (F10 : finite (dz 10)) by (vm_compute; reflexivity).
  split. { split; [exact F10|]. rewrite ten, Rabs_pos_eq by lra. lra. }
  split. { split; [exact Logic.I|]. replace (amount dzero) with 0%R by reflexivity. rewrite Rabs_R0. split; [lra|now left]. }
  split; [exact F10|]. rewrite CH, ten. rewrite Rabs_pos_eq by lra. split; [lra|]. split; [lra|].
  unfold way_around. destruct (Rlt_dec 10 0); [lra|]. unfold shorter.
  replace (10 * sqrt 2 / (2 * 10))%R with (/ sqrt 2)%R; [rewrite asin_inv_sqrt2; field|].
  apply (Rmult_eq_reg_r (sqrt 2)); [|lra]. rewrite Rinv_l by lra. replace (10 * sqrt 2 / (2 * 10) * sqrt 2)%R with (sqrt 2 * sqrt 2 / 2)%R by field.
  rewrite sqrt_sqrt by lra. field.
Qed.
