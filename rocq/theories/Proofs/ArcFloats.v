(** Errors of the length of a circle. *)
From Coq Require Import Reals Lra Psatz Machin Ratan.
From Flocq Require Import Core Relative Plus_error Mult_error BinarySingleNaN.
From Verif Require Import Model.Base Model.Double Model.PathGeom Spec.DoubleSpec Proofs.Tactics Proofs.DoubleFacts Proofs.FloatReal Proofs.MotionFloats
  Proofs.DrillFloats.

Open Scope R_scope.

Lemma pi_above : PI <= 884279719003555 / 281474976710656 + / 2 ^ 52.
Proof.
  pose proof (proj2 (PI_2_3_7_ineq 9)) as H.
  unfold sum_f_R0, tg_alt, PI_2_3_7_tg, Ratan_seq in H. cbn [Nat.mul Nat.add INR pow] in H. lra.
Qed.

Lemma pi_below : 884279719003555 / 281474976710656 - / 2 ^ 52 <= PI.
Proof.
  pose proof (proj1 (PI_2_3_7_ineq 9)) as H.
  unfold sum_f_R0, tg_alt, PI_2_3_7_tg, Ratan_seq in H. cbn [Nat.mul Nat.add INR pow] in H. lra.
Qed.

Lemma fR_pi : fR m_pi = 884279719003555 / 281474976710656.
Proof. replace m_pi with (S754_finite false 7074237752028440 (-51)) by (vm_compute; reflexivity). unfold fR, SF2R, F2R, cond_Zopp. cbn. lra. Qed.

(** The double twice pi. *)
Definition two_pi : dbl := dmul (ddiv (dz 360) (dz 180)) m_pi.
Lemma fR_two_pi : fR two_pi = 2 * fR m_pi.
Proof.
  rewrite fR_pi. replace two_pi with (S754_finite false 7074237752028440 (-50)) by (vm_compute; reflexivity). unfold fR, SF2R, F2R, cond_Zopp. cbn. lra.
Qed.

Lemma two_pi_close : finite two_pi /\ Rabs (fR two_pi - 2 * PI) <= 4 * u.
Proof.
  split; [vm_compute; reflexivity|]. rewrite fR_two_pi, fR_pi. pose proof pi_above. pose proof pi_below. unfold u. apply Rabs_le. lra.
Qed.

Lemma squares_pos a b : 0 <= a * a + b * b.
Proof. pose proof (Rle_0_sqr a). pose proof (Rle_0_sqr b). unfold Rsqr in *. lra. Qed.

Lemma sqrt_dist X Y I J : Rabs (sqrt (X * X + Y * Y) - sqrt (I * I + J * J)) <= Rabs (X - I) + Rabs (Y - J).
Proof.
  assert (T : forall a b c d, sqrt (a * a + b * b) <= sqrt (c * c + d * d) + (Rabs (a - c) + Rabs (b - d))).
  { intros a b c d.
    assert (M : sqrt (a * a + b * b) <= sqrt (c * c + d * d) + sqrt ((a - c) * (a - c) + (b - d) * (b - d))).
    { set (n := sqrt (c * c + d * d)). set (m := sqrt ((a - c) * (a - c) + (b - d) * (b - d))).
      assert (Hn : n * n = c * c + d * d) by (apply sqrt_sqrt, squares_pos).
      assert (Hm : m * m = (a - c) * (a - c) + (b - d) * (b - d)) by (apply sqrt_sqrt, squares_pos).
      assert (Pn : 0 <= n) by apply sqrt_pos. assert (Pm : 0 <= m) by apply sqrt_pos.
      apply Rsqr_incr_0_var; [|lra]. rewrite Rsqr_sqrt by apply squares_pos. unfold Rsqr.
      assert (CS : c * (a - c) + d * (b - d) <= n * m).
      { apply Rsqr_incr_0_var; [|nra]. unfold Rsqr. replace (n * m * (n * m)) with ((n * n) * (m * m)) by ring. rewrite Hn, Hm.
        pose proof (Rle_0_sqr (c * (b - d) - d * (a - c))). unfold Rsqr in H. nra. }
      nra. }
    eapply Rle_trans; [exact M|]. apply Rplus_le_compat_l. apply line2_bound. }
  pose proof (T X Y I J). pose proof (T I J X Y). rewrite (Rabs_minus_sym I X), (Rabs_minus_sym J Y) in H0. apply Rabs_le. lra.
Qed.

(** The radius as calculated: the centre is added to the start and taken off again. *)
Lemma radius_close xp yp i j : finite xp -> finite yp -> finite i -> finite j ->
  Rabs (fR xp) <= limit -> Rabs (fR yp) <= limit -> Rabs (fR i) <= limit / 4 -> Rabs (fR j) <= limit / 4 ->
  let s := Rabs (fR xp) + Rabs (fR yp) + Rabs (fR i) + Rabs (fR j) in
  close 20 (bpow radix2 (-500)) (dsqrt (dadd (sq (dsub (dadd xp i) xp)) (sq (dsub (dadd yp j) yp)))) (sqrt (fR i * fR i + fR j * fR j)) (3 * s).
Proof.
  intros Fx Fy Fi Fj Bx By Bi Bj s. pose proof limit_1 as L1. pose proof u_small as U. pose proof u_pos as U0. pose proof tiny_1 as T1.
  pose proof (bpow_gt_0 radix2 (-500)) as T0.
  assert (ST : forall x k, finite x -> finite k -> Rabs (fR x) <= limit -> Rabs (fR k) <= limit / 4 ->
    finite (dsub (dadd x k) x) /\ Rabs (fR (dsub (dadd x k) x)) <= limit /\ Rabs (fR (dsub (dadd x k) x) - fR k) <= 4 * u * (2 * Rabs (fR x) + Rabs (fR k))).
  { intros x k F Fk B Bk.
    pose proof (close_self x F B) as C1. pose proof (close_self k Fk ltac:(lra)) as C2.
    pose proof (close_add _ _ _ _ _ _ _ _ _ C1 C2 ltac:(lra) ltac:(lra) ltac:(lra)) as C3.
    assert (C1' : close (0 + 2) 0 x (fR x) (Rabs (fR x))) by (eapply close_more; [exact C1|lra|lra|lra]).
    pose proof (close_sub _ _ _ _ _ _ _ _ _ C3 C1' ltac:(lra) ltac:(lra) ltac:(lra)) as (F4 & E4 & _).
    replace (fR x + fR k - fR x) with (fR k) in E4 by ring.
    assert (E5 : Rabs (fR (dsub (dadd x k) x) - fR k) <= 4 * u * (2 * Rabs (fR x) + Rabs (fR k))) by (eapply Rle_trans; [exact E4|lra]).
    split; [exact F4|]. split; [|exact E5].
    assert (A : 4 * u * (2 * Rabs (fR x) + Rabs (fR k)) <= 4 * / 1000 * (2 * limit + limit)).
    { apply Rmult_le_compat; try lra. pose proof (Rabs_pos (fR x)). pose proof (Rabs_pos (fR k)). lra. }
    pose proof (Rabs_triang (fR (dsub (dadd x k) x) - fR k) (fR k)) as TR. replace (fR (dsub (dadd x k) x) - fR k + fR k) with (fR (dsub (dadd x k) x)) in TR by ring. lra. }
  destruct (ST xp i Fx Fi Bx Bi) as (FX & BX & EX). destruct (ST yp j Fy Fj By Bj) as (FY & BY & EY).
  set (X := dsub (dadd xp i) xp) in *. set (Y := dsub (dadd yp j) yp) in *.
  pose proof (line2_near X Y _ _ (rounded_self X FX BX) (rounded_self Y FY BY)) as [F N]. unfold line2 in F, N.
  pose proof (sqrt_dist (fR X) (fR Y) (fR i) (fR j)) as D.
  assert (S0 : 0 <= s) by (unfold s; pose proof (Rabs_pos (fR xp)); pose proof (Rabs_pos (fR yp)); pose proof (Rabs_pos (fR i)); pose proof (Rabs_pos (fR j)); lra).
  assert (R0 : sqrt (fR i * fR i + fR j * fR j) <= s).
  { eapply Rle_trans; [apply line2_bound|]. unfold s. pose proof (Rabs_pos (fR xp)). pose proof (Rabs_pos (fR yp)). lra. }
  assert (D2 : Rabs (sqrt (fR X * fR X + fR Y * fR Y) - sqrt (fR i * fR i + fR j * fR j)) <= 8 * u * s).
  { eapply Rle_trans; [exact D|]. eapply Rle_trans; [apply Rplus_le_compat; [exact EX|exact EY]|]. unfold s.
    pose proof (Rmult_le_pos u (Rabs (fR i)) ltac:(lra) (Rabs_pos _)). pose proof (Rmult_le_pos u (Rabs (fR j)) ltac:(lra) (Rabs_pos _)). lra. }
  assert (R1 : sqrt (fR X * fR X + fR Y * fR Y) <= 2 * s).
  { assert (8 * u * s <= 8 * / 1000 * s) by (apply Rmult_le_compat_r; lra). apply Rabs_le_inv in D2. lra. }
  assert (SL : s <= 3 * limit) by (unfold s; lra).
  split; [exact F|]. split; [|split; [rewrite Rabs_pos_eq by apply sqrt_pos; lra|split; [lra|split; lra]]].
  assert (U8 : 8 * u = / 2 ^ 50) by (unfold u; lra). rewrite <- U8 in N.
  assert (8 * u * sqrt (fR X * fR X + fR Y * fR Y) <= 8 * u * (2 * s)) by (apply Rmult_le_compat_l; lra).
  set (V := fR (dsqrt (dadd (sq X) (sq Y)))) in *. apply Rabs_le_inv in N. apply Rabs_le_inv in D2. apply Rabs_le. lra.
Qed.

Theorem circle_close r R s : close 20 (bpow radix2 (-500)) r R s -> 0 <= R -> s <= limit * 9 -> close 30 (8 * bpow radix2 (-500)) (dmul two_pi r) (2 * PI * R) (8 * s).
Proof.
  intros C R0 SL. pose proof (close_bound _ _ _ _ _ C) as B. destruct C as (F & E & A & L & _). destruct two_pi_close as [F2 E2].
  pose proof limit_1 as L1. pose proof u_small as U. pose proof u_pos as U0. pose proof tiny_1 as T1. pose proof (bpow_gt_0 radix2 (-500)) as T0.
  pose proof pi_above as PA. pose proof pi_below as PB. rewrite Rabs_pos_eq in A by exact R0.
  assert (P1 : 62 / 10 <= fR two_pi <= 63 / 10) by (rewrite fR_two_pi, fR_pi; lra).
  destruct (mul_parts two_pi r F2 F) as (F3 & e & h & He & Hh & Q).
  { rewrite Rabs_mult, (Rabs_pos_eq (fR two_pi)) by lra. pose proof big_enough. pose proof (Rabs_pos (fR r)). nra. }
  split; [exact F3|].
  assert (S0 : 0 <= s) by lra.
  split; [|split; [rewrite Rabs_pos_eq by (apply Rmult_le_pos; lra); apply (Rle_trans _ (63 / 10 * R)); [apply Rmult_le_compat_r; [exact R0|lra]|lra]|split; [lra|split; lra]]].
  rewrite Q. pose proof eta_500 as H5. pose proof eta_pos as H6.
  replace (fR two_pi * fR r * (1 + e) + h - 2 * PI * R) with (fR two_pi * (fR r - R) + (fR two_pi - 2 * PI) * R + fR two_pi * fR r * e + h) by ring.
  assert (X1 : Rabs (fR two_pi * (fR r - R)) <= 63 / 10 * (20 * u * s + bpow radix2 (-500))).
  { rewrite Rabs_mult, (Rabs_pos_eq (fR two_pi)) by lra. apply Rmult_le_compat; [lra|apply Rabs_pos|lra|exact E]. }
  assert (X2 : Rabs ((fR two_pi - 2 * PI) * R) <= 4 * u * s).
  { rewrite Rabs_mult, (Rabs_pos_eq R R0). apply Rmult_le_compat; [apply Rabs_pos|exact R0|exact E2|exact A]. }
  assert (X3 : Rabs (fR two_pi * fR r * e) <= 63 / 10 * (11 / 10 * s + bpow radix2 (-500)) * u).
  { rewrite !Rabs_mult, (Rabs_pos_eq (fR two_pi)) by lra. apply Rmult_le_compat; [apply Rmult_le_pos; [lra|apply Rabs_pos]|apply Rabs_pos| |exact He].
    apply Rmult_le_compat; [lra|apply Rabs_pos|lra|exact B]. }
  assert (X4 : 63 / 10 * bpow radix2 (-500) * u <= 63 / 10 * bpow radix2 (-500) * / 1000) by (apply Rmult_le_compat_l; lra).
  assert (X5 : 0 <= u * s) by (apply Rmult_le_pos; lra).
  eapply Rle_trans; [apply Rabs_triang|]. eapply Rle_trans; [apply Rplus_le_compat_r, Rabs_triang|].
  eapply Rle_trans; [apply Rplus_le_compat_r, Rplus_le_compat_r, Rabs_triang|]. lra.
Qed.
