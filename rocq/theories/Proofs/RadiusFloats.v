(** The length of an arc with a radius in doubles. *)
From Coq Require Import Reals Lra.
From Flocq Require Import Core BinarySingleNaN.
From Verif Require Import Model.Base Model.Double Model.PathGeom Spec.DoubleSpec Spec.MotionSpec Spec.ArcSpec Spec.RadiusSpec Proofs.FloatReal Proofs.MotionFloats
  Proofs.DrillFloats Proofs.ArcFloats Proofs.RelFloats Proofs.SpiralFloats Proofs.ArcProofs.

Open Scope R_scope.

Lemma rel_sub n m k x y r s : rel n x r -> rel m y s -> 0 < r - s -> n * r + m * s <= k * (r - s) -> 0 <= k <= 900 -> mid (r - s) ->
  rel (k + 2) (dsub x y) (r - s).
Proof.
  intros X Y P L K B. destruct X as (Fx & Px & Ex). destruct Y as (Fy & Py & Ey). pose proof u_pos as U.
  apply (round_again (dsub x y) (fR x - fR y) k (r - s) ((fR x - fR y - (r - s)) / (r - s))); [now apply dsub_rounds|lra|lra|exact B| |field; lra].
  unfold Rdiv. rewrite Rabs_mult, (Rabs_pos_eq (/ (r - s))) by (left; apply Rinv_0_lt_compat; lra).
  apply (Rmult_le_reg_r (r - s)); [lra|]. rewrite Rmult_assoc, Rinv_l, Rmult_1_r by lra.
  assert (L2 : u * (n * r + m * s) <= u * (k * (r - s))) by (apply Rmult_le_compat_l; lra).
  apply Rabs_le_inv in Ex. apply Rabs_le_inv in Ey. apply Rabs_le. split; nra.
Qed.

Lemma atan_mean a b : a < b -> exists c, atan b - atan a = / (1 + c * c) * (b - a) /\ a < c < b.
Proof.
  intros L. destruct (MVT_cor2 atan (fun c => / (1 + c ^ 2)) a b L) as (c & E & B).
  - intros c _. apply derivable_pt_lim_atan.
  - exists c. split; [|exact B]. rewrite E. f_equal. f_equal. ring.
Qed.

Lemma atan_above t : 0 < t -> t / (1 + t * t) <= atan t.
Proof.
  intros P. destruct (atan_mean 0 t P) as (c & E & B). rewrite atan_0, !Rminus_0_r in E. rewrite E. unfold Rdiv. rewrite Rmult_comm.
  apply Rmult_le_compat_r; [lra|]. apply Rinv_le; nra.
Qed.

Lemma atan_near t e : 0 < t -> Rabs e <= / 1000 -> Rabs (atan (t * (1 + e)) - atan t) <= 101 / 100 * Rabs e * atan t.
Proof.
  intros P E. pose proof (atan_above t P) as A. pose proof (Rabs_le_inv _ _ E) as [E1 E2].
  assert (K : forall c, t * (1 - / 1000) <= c -> / (1 + c * c) <= 101 / 100 * / (1 + t * t)).
  { intros c C. assert (CC : t * t * (998 / 1000) <= c * c) by nra.
    apply (Rmult_le_reg_l (1 + c * c)); [nra|]. rewrite Rinv_r by nra.
    apply (Rmult_le_reg_r (1 + t * t)); [nra|]. rewrite !Rmult_assoc, Rinv_l by nra. nra. }
  assert (M : forall c, t * (1 - / 1000) <= c -> / (1 + c * c) * (t * Rabs e) <= 101 / 100 * Rabs e * atan t).
  { intros c C. specialize (K c C). pose proof (Rabs_pos e) as PE.
    apply Rle_trans with (101 / 100 * / (1 + t * t) * (t * Rabs e)).
    - apply Rmult_le_compat_r; [nra|exact K].
    - replace (101 / 100 * / (1 + t * t) * (t * Rabs e)) with (101 / 100 * Rabs e * (t / (1 + t * t))) by (unfold Rdiv; ring).
      apply Rmult_le_compat_l; lra. }
  destruct (Rtotal_order e 0) as [N|[->|N]].
  - destruct (atan_mean (t * (1 + e)) t ltac:(nra)) as (c & Q & B). rewrite Rabs_minus_sym, Q.
    assert (0 < / (1 + c * c)) by (apply Rinv_0_lt_compat; nra). specialize (M c ltac:(nra)). rewrite (Rabs_left e N) in *.
    replace (t - t * (1 + e)) with (t * - e) by ring. rewrite Rabs_pos_eq; [exact M|]. apply Rmult_le_pos; nra.
  - rewrite Rplus_0_r, Rmult_1_r, Rminus_eq_0, Rabs_R0. lra.
  - destruct (atan_mean t (t * (1 + e)) ltac:(nra)) as (c & Q & B). rewrite Q.
    assert (0 < / (1 + c * c)) by (apply Rinv_0_lt_compat; nra). specialize (M c ltac:(nra)). rewrite (Rabs_pos_eq e ltac:(lra)) in *.
    replace (t * (1 + e) - t) with (t * e) by ring. rewrite Rabs_pos_eq; [exact M|]. apply Rmult_le_pos; nra.
Qed.

Lemma rel_atan tan_ n x t : good_atan tan_ -> rel n x t -> 0 <= n <= 900 -> bpow radix2 (-100) <= t <= 3 -> rel (102 / 100 * n + 9) (tan_ x) (atan t).
Proof.
  intros G X N B. pose proof (rel_pos n x t X ltac:(lra)) as VP. destruct (rel_factor _ _ _ X) as (e & E & Q). destruct X as (F & P & _).
  assert (NU : 0 <= n * u <= / 1000000) by (rewrite u_val; split; nra).
  destruct (G x F) as [FL H]. { change (amount x) with (fR x). lra. }
  change (amount x) with (fR x) in H. change (amount (tan_ x)) with (fR (tan_ x)) in H. rewrite Q in H.
  pose proof (atan_near t e P ltac:(lra)) as D. pose proof (atan_above t P) as A. pose proof (bpow_gt_0 radix2 (-100)) as B0.
  assert (A2 : bpow radix2 (-110) <= atan t).
  { eapply Rle_trans; [|exact A]. apply Rle_trans with (bpow radix2 (-100) * / 10).
    - change (-110)%Z with (-100 + -10)%Z. rewrite bpow_plus. apply Rmult_le_compat_l; [lra|]. cbn. lra.
    - apply Rmult_le_compat; [lra|lra|lra|]. apply Rinv_le; nra. }
  pose proof (bpow_gt_0 radix2 (-110)) as B1. set (l := atan t) in *.
  assert (T : bpow radix2 (-500) <= u / 10 * l).
  { apply Rle_trans with (u / 10 * bpow radix2 (-110)); [|apply Rmult_le_compat_l; [rewrite u_val; lra|exact A2]].
    change (-500)%Z with (-390 + -110)%Z. rewrite bpow_plus. apply Rmult_le_compat_r; [lra|].
    eapply Rle_trans; [apply (bpow_le radix2 (-390) (-60)); lia|]. rewrite u_val. cbn. lra. }
  split; [exact FL|]. split; [lra|]. pose proof u_pos as U.
  assert (D2 : Rabs (atan (t * (1 + e)) - l) <= 101 / 100 * (n * u) * l).
  { eapply Rle_trans; [exact D|]. apply Rmult_le_compat_r; [lra|]. lra. }
  assert (D3 : 101 / 100 * (n * u) * l <= / 100 * l) by (apply Rmult_le_compat_r; lra).
  assert (K : / 2 ^ 50 = 8 * u) by (unfold u; lra). rewrite K in H. set (w := atan (t * (1 + e))) in *.
  apply Rabs_le_inv in D2. assert (U2 : u * w <= u * (101 / 100 * l)) by (apply Rmult_le_compat_l; lra).
  apply Rabs_le_inv in H. apply Rabs_le.
  assert (Q3 : (102 / 100 * n + 9) * u * l = 102 / 100 * (n * u * l) + 9 * (u * l)) by ring. rewrite Q3.
  assert (0 <= n * u * l) by (apply Rmult_le_pos; lra). assert (0 <= u * l) by nra. split; nra.
Qed.

Lemma rel_int : rel 0 (dz 180) 180 /\ rel 0 (dz 360) 360.
Proof.
  split.
  - replace 180 with (fR (dz 180)) at 1; [apply rel_self; [vm_compute; reflexivity|]|];
      (replace (dz 180) with (S754_finite false 6333186975989760 (-45)) by (vm_compute; reflexivity); unfold fR, SF2R, F2R, cond_Zopp; cbn; lra).
  - replace 360 with (fR (dz 360)) at 1; [apply rel_self; [vm_compute; reflexivity|]|];
      (replace (dz 360) with (S754_finite false 6333186975989760 (-44)) by (vm_compute; reflexivity); unfold fR, SF2R, F2R, cond_Zopp; cbn; lra).
Qed.

Lemma pi_range : 3 <= PI <= 4.
Proof. pose proof pi_above. pose proof pi_below. lra. Qed.

Lemma rel_deg : rel 5 deg (180 / PI).
Proof.
  unfold deg. replace 5 with (0 + 1 + 4) by ring. pose proof pi_range as P. apply rel_div; [apply rel_int|apply rel_pi|lra|lra|].
  apply (mid_of 0 10); [lia|lia|]. cbn. split.
  - apply (Rmult_le_reg_r PI); [lra|]. unfold Rdiv. rewrite Rmult_assoc, Rinv_l by lra. lra.
  - apply (Rmult_le_reg_r PI); [lra|]. unfold Rdiv. rewrite Rmult_assoc, Rinv_l by lra. lra.
Qed.

(** Where the numbers are. *)
Lemma some_mid r : / 10 ^ 30 <= r <= 10 ^ 30 -> mid r.
Proof.
  intros R. apply (mid_of (-100) 100); [lia|lia|].
  assert (A : bpow radix2 (-100) <= / 10 ^ 30) by (cbn; lra). assert (B : 10 ^ 30 <= bpow radix2 100) by (cbn; lra). lra.
Qed.

Lemma angle_rel tan_ r half R H : good_atan tan_ -> rel 0 r R -> rel 13 half H -> / 1000000 <= R <= 1000000 -> / 10000000 <= H -> H <= 15 / 16 * R ->
  rel 283 (arc_angle tan_ r half) (atan (H / sqrt (R * R - H * H)) * (180 / PI) * 2) /\
  0 < atan (H / sqrt (R * R - H * H)) /\ / 1000000000000000 <= atan (H / sqrt (R * R - H * H)) <= 2.
Proof.
  intros G X Y RB HB HR.
  assert (HH : H * H <= 225 / 256 * (R * R)) by nra. assert (RR : / 1000000000000 <= R * R <= 1000000000000) by (split; nra).
  assert (H2 : / 100000000000000 <= H * H) by nra.
  assert (S1 : rel 3 (sq r) (R * R)).
  { replace 3 with (0 + 0 + 3) by ring. apply rel_mul; [exact X|exact X|lra|lra|]. apply some_mid. lra. }
  assert (S2 : rel 29 (sq half) (H * H)).
  { replace 29 with (13 + 13 + 3) by ring. apply rel_mul; [exact Y|exact Y|lra|lra|]. apply some_mid. lra. }
  assert (S3 : rel 238 (dsub (sq r) (sq half)) (R * R - H * H)).
  { replace 238 with (236 + 2) by ring. apply (rel_sub 3 29); [exact S1|exact S2|lra|lra|lra|]. apply some_mid. lra. }
  assert (S4 : rel 238 (dabs (dsub (sq r) (sq half))) (R * R - H * H)).
  { pose proof (rel_pos _ _ _ S3 ltac:(lra)) as VP. destruct S3 as (F & P & E). split; [destruct (dsub _ _); exact F|]. split; [exact P|].
    rewrite dabs_fR, (Rabs_pos_eq (fR _)) by lra. exact E. }
  set (D := R * R - H * H) in *. assert (DB : 31 / 256 * (R * R) <= D <= R * R) by (unfold D; split; nra).
  assert (SB : R / 3 <= sqrt D <= R).
  { split; [rewrite <- (sqrt_square (R / 3)) by lra|rewrite <- (sqrt_square R) at 1 by lra]; apply sqrt_le_1_alt; nra. }
  assert (S5 : rel 240 (dsqrt (dabs (dsub (sq r) (sq half)))) (sqrt D)).
  { replace 240 with (238 + 2) by ring. apply rel_sqrt; [exact S4|lra|]. apply some_mid. lra. }
  assert (TB : / 10000000000000 <= H / sqrt D <= 3).
  { split; apply (Rmult_le_reg_r (sqrt D)); try lra; unfold Rdiv; rewrite (Rmult_assoc H), Rinv_l, Rmult_1_r by lra; lra. }
  assert (S6 : rel 257 (ddiv half (dsqrt (dabs (dsub (sq r) (sq half))))) (H / sqrt D)).
  { replace 257 with (13 + 240 + 4) by ring. apply rel_div; [exact Y|exact S5|lra|lra|]. apply some_mid. lra. }
  assert (S7 : rel 272 (tan_ (ddiv half (dsqrt (dabs (dsub (sq r) (sq half)))))) (atan (H / sqrt D))).
  { apply (rel_more (102 / 100 * 257 + 9)); [|lra]. apply rel_atan; [exact G|exact S6|lra|]. split; [|apply TB]. cbn. lra. }
  pose proof (atan_above (H / sqrt D) ltac:(lra)) as A. pose proof (atan_bound (H / sqrt D)) as AB. pose proof pi_range as PB.
  set (t := H / sqrt D) in *.
  assert (A2 : t / 10 <= t / (1 + t * t)). { unfold Rdiv. apply Rmult_le_compat_l; [lra|]. apply Rinv_le; nra. }
  assert (A3 : / 1000000000000000 <= atan t <= 2) by lra.
  assert (PD : 45 <= 180 / PI <= 60).
  { split; apply (Rmult_le_reg_r PI); try lra; unfold Rdiv; rewrite Rmult_assoc, Rinv_l by lra; lra. }
  split; [|split; [lra|exact A3]].
  assert (S8 : rel 280 (dmul (tan_ (ddiv half (dsqrt (dabs (dsub (sq r) (sq half)))))) deg) (atan t * (180 / PI))).
  { replace 280 with (272 + 5 + 3) by ring. apply rel_mul; [exact S7|apply rel_deg|lra|lra|]. apply some_mid. split; nra. }
  unfold arc_angle. replace 283 with (280 + 0 + 3) by ring. apply rel_mul; [exact S8|apply rel_2|lra|lra|]. apply some_mid. split; nra.
Qed.

Lemma tolerance_small : finite tolerance /\ fR tolerance <= / 50000000.
Proof.
  replace tolerance with (S754_finite false 6044629098073146 (-79)) by (vm_compute; reflexivity). split; [vm_compute; reflexivity|].
  unfold fR, SF2R, F2R, cond_Zopp. cbn. lra.
Qed.

Lemma rel_two_pi : rel 4 (dmul (dz 2) m_pi) (2 * PI).
Proof.
  pose proof pi_range. replace 4 with (0 + 1 + 3) by ring. apply rel_mul; [apply rel_2|apply rel_pi|lra|lra|]. apply some_mid. lra.
Qed.

Lemma not_close x r : rel 100 x r -> / 10000000 <= r -> dltb (dabs x) tolerance = false.
Proof.
  intros X R. pose proof (rel_pos _ _ _ X ltac:(lra)) as VP. destruct X as (F & P & E). destruct tolerance_small as [FT T].
  apply not_ltb; [destruct x; exact F|exact FT|]. rewrite dabs_fR, Rabs_pos_eq by lra. lra.
Qed.

(** Two points that are not the same. *)
Lemma apart x y x' y' : finite x -> finite y -> finite x' -> finite y' -> Rabs (fR x) <= limit -> Rabs (fR y) <= limit -> Rabs (fR x') <= limit -> Rabs (fR y') <= limit ->
  / 1000000 <= chord (fR x) (fR y) (fR x') (fR y') -> dltb (dabs (dsub x x')) tolerance && dltb (dabs (dsub y y')) tolerance = false.
Proof.
  intros F1 F2 F3 F4 B1 B2 B3 B4 C. destruct tolerance_small as [FT T]. pose proof u_val as U.
  assert (K : forall a a', finite a -> finite a' -> Rabs (fR a) <= limit -> Rabs (fR a') <= limit -> / 2000000 <= Rabs (fR a - fR a') ->
    dltb (dabs (dsub a a')) tolerance = false).
  { intros a a' Fa Fa' Ba Ba' L. destruct (rounded_sub a a' Fa Fa' Ba Ba') as (F & _ & e & E & Q).
    apply not_ltb; [destruct (dsub a a'); exact F|exact FT|]. rewrite dabs_fR, Q, Rabs_mult. apply Rabs_le_inv in E.
    rewrite (Rabs_pos_eq (1 + e)) by lra. nra. }
  destruct (Rle_lt_dec (/ 2000000) (Rabs (fR x - fR x'))) as [D1|D1]; [rewrite K by assumption; reflexivity|].
  destruct (Rle_lt_dec (/ 2000000) (Rabs (fR y - fR y'))) as [D2|D2]; [rewrite (K y y') by assumption; apply andb_false_r|].
  exfalso. revert C. apply Rlt_not_le. unfold chord. set (a := fR x - fR x') in *. set (b := fR y - fR y') in *.
  rewrite <- (sqrt_square (/ 1000000)) by lra. apply sqrt_lt_1_alt.
  apply Rabs_def2 in D1. apply Rabs_def2 in D2. split; nra.
Qed.

Lemma chord_rel x y x' y' : finite x -> finite y -> finite x' -> finite y' -> Rabs (fR x) <= limit -> Rabs (fR y) <= limit -> Rabs (fR x') <= limit -> Rabs (fR y') <= limit ->
  / 1000000 <= chord (fR x) (fR y) (fR x') (fR y') -> rel 9 (line2_to x y x' y') (chord (fR x) (fR y) (fR x') (fR y')).
Proof.
  intros F1 F2 F3 F4 B1 B2 B3 B4 C.
  destruct (line2_near (dsub x x') (dsub y y') _ _ (rounded_sub x x' F1 F3 B1 B3) (rounded_sub y y' F2 F4 B2 B4)) as [F E].
  split; [exact F|]. split; [lra|]. unfold line2_to, chord in *. eapply Rle_trans; [exact E|].
  set (r := sqrt _) in *. assert (K : / 2 ^ 50 = 8 * u) by (unfold u; lra). rewrite K.
  assert (T : bpow radix2 (-500) <= u * / 1000000) by (eapply Rle_trans; [apply (bpow_le radix2 (-500) (-90)); lia|]; rewrite u_val; cbn; lra).
  pose proof u_pos. nra.
Qed.

Theorem arc_near tan_ cabs x y x' y' r long : good_atan tan_ -> (forall x, cabs x = dabs x) ->
  finite x -> finite y -> finite x' -> finite y' -> Rabs (fR x) <= limit -> Rabs (fR y) <= limit -> Rabs (fR x') <= limit -> Rabs (fR y') <= limit ->
  finite r -> / 1000000 <= fR r <= 1000000 -> let c := chord (fR x) (fR y) (fR x') (fR y') in
  / 1000000 <= c <= 15 / 8 * fR r ->
  rel 300 (arc_length tan_ cabs x y x' y' r long) (if long : bool then longer (fR r) c else shorter (fR r) c).
Proof.
  intros G CA F1 F2 F3 F4 B1 B2 B3 B4 Fr RB c CB.
  pose proof (chord_rel x y x' y' F1 F2 F3 F4 B1 B2 B3 B4 (proj1 CB)) as LC. fold c in LC.
  pose proof (apart x y x' y' F1 F2 F3 F4 B1 B2 B3 B4 (proj1 CB)) as AP.
  pose proof pi_range as PB. pose proof (rel_self r Fr ltac:(lra)) as XR.
  assert (XH : rel 13 (ddiv (line2_to x y x' y') (dz 2)) (c / 2)).
  { replace 13 with (9 + 0 + 4) by ring. apply rel_div; [exact LC|apply rel_2|lra|lra|]. apply some_mid. lra. }
  destruct (angle_rel tan_ r _ (fR r) (c / 2) G XR XH RB ltac:(lra) ltac:(lra)) as (XA & AP0 & AB).
  set (R := fR r) in *. set (a := atan (c / 2 / sqrt (R * R - c / 2 * (c / 2)))) in *.
  assert (AS : a = asin (c / (2 * R))).
  { assert (Z : 0 < c / (2 * R) < 1).
    { split; apply (Rmult_lt_reg_r (2 * R)); try lra; unfold Rdiv; rewrite Rmult_assoc, Rinv_l by lra; lra. }
    rewrite asin_atan by lra. unfold a. f_equal. set (q := c / (2 * R)) in *.
    replace (c / 2) with (R * q) by (unfold q; field; lra). unfold Rsqr.
    replace (R * R - R * q * (R * q)) with (R * R * (1 - q * q)) by ring. rewrite sqrt_mult, sqrt_square by nra.
    assert (0 < sqrt (1 - q * q)) by (apply sqrt_lt_R0; nra). field. lra. }
  assert (SE : shorter R c = 2 * R * a) by (unfold shorter; rewrite AS; reflexivity).
  assert (PD : 45 <= 180 / PI <= 60).
  { split; apply (Rmult_le_reg_r PI); try lra; unfold Rdiv; rewrite Rmult_assoc, Rinv_l by lra; lra. }
  assert (A2 : a < PI / 2) by apply atan_bound.
  set (al := a * (180 / PI) * 2) in *.
  assert (ALB : / 100000000000000 <= al <= 180).
  { split; [unfold al; nra|]. unfold al. replace (a * (180 / PI) * 2) with (a * (360 / PI)) by (field; lra).
    apply Rle_trans with (PI / 2 * (360 / PI)); [apply Rmult_le_compat_r; [|lra]|right; field; lra].
    left. apply Rdiv_lt_0_compat; lra. }
  set (AL := arc_angle tan_ r (ddiv (line2_to x y x' y') (dz 2))) in *.
  unfold arc_length. fold AL.
  assert (TO : dltb (cabs (dsub (ddiv (dmul (dmul (dz 2) m_pi) r) (dz 2)) r)) tolerance = false).
  { rewrite CA. apply (not_close _ (2 * PI * R / 2 - R)); [|nra]. apply (rel_more (24 + 2)); [|lra].
    apply (rel_sub 11 0); [|exact XR|nra|nra|lra|apply some_mid; split; nra].
    replace 11 with (7 + 0 + 4) by ring. apply rel_div; [|apply rel_2|lra|lra|apply some_mid; split; nra].
    replace 7 with (4 + 0 + 3) by ring. apply rel_mul; [apply rel_two_pi|exact XR|lra|lra|apply some_mid; split; nra]. }
  rewrite TO, !CA, AP.
  assert (FIN : forall z w, rel 285 z w -> / 100000000000000 <= w <= 360 -> rel 300 (dmul (dmul (ddiv z (dz 180)) m_pi) r) (w / 180 * PI * R)).
  { intros z w Z W. assert (W1 : / 10 ^ 17 <= w / 180 <= 2) by lra.
    assert (W2 : / 10 ^ 17 * 3 <= w / 180 * PI <= 2 * 4) by (split; apply Rmult_le_compat; lra).
    assert (W3 : / 10 ^ 17 * 3 * / 1000000 <= w / 180 * PI * R <= 2 * 4 * 1000000) by (split; apply Rmult_le_compat; lra).
    apply (rel_more (293 + 0 + 3)); [|lra]. apply rel_mul; [|exact XR|lra|lra|apply some_mid; lra].
    replace 293 with (289 + 1 + 3) by ring. apply rel_mul; [|apply rel_pi|lra|lra|apply some_mid; lra].
    replace 289 with (285 + 0 + 4) by ring. apply rel_div; [exact Z|apply rel_int|lra|lra|apply some_mid; lra]. }
  destruct long.
  - replace (longer R c) with ((360 - al) / 180 * PI * R) by (unfold longer; rewrite SE; unfold al; field; lra).
    apply FIN; [|lra]. replace 285 with (283 + 2) by ring. apply (rel_sub 0 283); [apply rel_int|exact XA|lra|lra|lra|apply some_mid; lra].
  - replace (shorter R c) with (al / 180 * PI * R) by (rewrite SE; unfold al; field; lra).
    apply FIN; [|lra]. apply (rel_more 283); [exact XA|lra].
Qed.
