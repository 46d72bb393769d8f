(** The length calculated for a spiral. *)
From Coq Require Import Reals Lra.
From Flocq Require Import Core BinarySingleNaN.
From Verif Require Import Model.Base Model.Double Model.PathGeom Spec.DoubleSpec Spec.MotionSpec Spec.SpiralSpec
  Proofs.FloatReal Proofs.MotionFloats Proofs.ArcFloats Proofs.RelFloats.

Open Scope R_scope.

Lemma mid_of a b r : (-900 <= a)%Z -> (b <= 900)%Z -> bpow radix2 a <= r <= bpow radix2 b -> mid r.
Proof. intros A B [L U]. split; (eapply Rle_trans; [|eassumption || exact L]) || idtac; [apply bpow_le; lia|]. eapply Rle_trans; [exact U|apply bpow_le; lia]. Qed.

Lemma bpow_mul a b : bpow radix2 a * bpow radix2 b = bpow radix2 (a + b). Proof. symmetry. apply bpow_plus. Qed.

Lemma range_mul a b c d r s : bpow radix2 a <= r <= bpow radix2 b -> bpow radix2 c <= s <= bpow radix2 d ->
  bpow radix2 (a + c) <= r * s <= bpow radix2 (b + d).
Proof.
  intros R S. rewrite !bpow_plus. pose proof (bpow_gt_0 radix2 a). pose proof (bpow_gt_0 radix2 c). split; apply Rmult_le_compat; lra.
Qed.

Lemma range_inv a b r : bpow radix2 a <= r <= bpow radix2 b -> bpow radix2 (- b) <= / r <= bpow radix2 (- a).
Proof. intros R. rewrite !bpow_opp. pose proof (bpow_gt_0 radix2 a). split; apply Rinv_le; lra. Qed.

Lemma ln_below y : 0 < y -> ln y <= y - 1.
Proof. intro P. pose proof (exp_ineq1_le (ln y)) as H. rewrite exp_ln in H by exact P. lra. Qed.

Lemma ln_near e : Rabs e <= / 1000000 -> Rabs (ln (1 + e)) <= 101 / 100 * Rabs e.
Proof.
  intros E. pose proof (Rabs_le_inv _ _ E) as [E1 E2]. apply Rabs_le. split.
  - assert (H : ln (/ (1 + e)) <= / (1 + e) - 1) by (apply ln_below; apply Rinv_0_lt_compat; lra).
    rewrite ln_Rinv in H by lra. assert (/ (1 + e) - 1 <= 101 / 100 * Rabs e); [|lra].
    apply (Rmult_le_reg_l (1 + e)); [lra|]. rewrite Rmult_minus_distr_l, Rinv_r by lra. unfold Rabs. destruct (Rcase_abs e); nra.
  - pose proof (ln_below (1 + e) ltac:(lra)). pose proof (Rle_abs e). pose proof (Rabs_pos e). lra.
Qed.

Lemma rel_ln log n x r : good_log log -> rel n x r -> 0 <= n <= 60 -> 4 <= r -> rel (102 / 100 * n + 9) (log x) (ln r).
Proof.
  intros G X N R. pose proof (rel_pos n x r X ltac:(lra)) as VP. destruct (rel_factor _ _ _ X) as (e & E & Q). destruct X as (F & P & _).
  assert (NU : 0 <= n * u <= / 1000000) by (rewrite u_val; split; nra). pose proof (Rabs_le_inv _ _ E) as [E1 E2].
  destruct (G x F) as [FL H]. { change (amount x) with (fR x). lra. }
  change (amount x) with (fR x) in H. change (amount (log x)) with (fR (log x)) in H.
  assert (L1 : 1 <= ln r).
  { rewrite <- (ln_exp 1). destruct (Rle_lt_or_eq_dec (exp 1) r) as [L|L]; [pose proof exp_le_3; lra|left; apply ln_increasing; [apply exp_pos|exact L]|rewrite L; lra]. }
  split; [exact FL|]. split; [lra|].
  rewrite Q, ln_mult in H by lra. pose proof (ln_near e ltac:(lra)) as D. set (l := ln (1 + e)) in *. set (lr := ln r) in *.
  assert (T : bpow radix2 (-500) <= u / 10). { eapply Rle_trans; [apply (bpow_le radix2 (-500) (-60)); lia|]. rewrite u_val. cbn. lra. }
  assert (D2 : Rabs l <= 101 / 100 * (n * u)) by lra.
  assert (K : / 2 ^ 50 = 8 * u) by (unfold u; lra). rewrite K in H. pose proof u_pos as U.
  assert (UL : u <= u * lr) by nra. assert (NL : n * u <= n * u * lr) by nra.
  assert (U2 : 8 * u * (lr + l) <= 8 * u * lr + u / 10).
  { assert (u * l <= u * (/ 100)); [|lra]. apply Rmult_le_compat_l; [lra|]. pose proof (Rle_abs l). lra. }
  apply Rabs_le_inv in H. apply Rabs_le_inv in D2. apply Rabs_le.
  assert (Q3 : (102 / 100 * n + 9) * u * lr = 102 / 100 * (n * u * lr) + 9 * (u * lr)) by ring. rewrite Q3. split; lra.
Qed.

Theorem archimedes_near log l x L R : good_log log -> rel 13 l L -> rel 9 x R ->
  1 <= L <= bpow radix2 300 -> a_length R -> rel 128 (archimedes log l x) (spiral_length R L).
Proof.
  intros G RL RX BL BR. unfold archimedes. set (T := 2 * PI * L).
  assert (PB : 3 <= PI <= 4) by (pose proof pi_above; pose proof pi_below; lra).
  assert (T6 : 6 <= T) by (unfold T; nra).
  assert (TB : bpow radix2 2 <= T <= bpow radix2 303).
  { change (bpow radix2 2) with 4. split; [lra|]. change 303%Z with (300 + 3)%Z. rewrite bpow_plus. replace (bpow radix2 3) with 8 by (cbn; lra). unfold T.
    pose proof (bpow_gt_0 radix2 300). nra. }
  assert (L300 : bpow radix2 0 <= L <= bpow radix2 300) by (change (bpow radix2 0) with 1; exact BL).
  assert (A1 : rel 16 (dmul l (dz 2)) (L * 2)).
  { eapply rel_more; [apply (rel_mul 13 0 _ _ _ _ RL rel_2); [lra|lra|]|lra]. apply (mid_of (0 + 1) (300 + 1)); [lia..|].
    apply range_mul; [exact L300|]. change (bpow radix2 1) with 2. lra. }
  assert (A2 : rel 20 (dmul (dmul l (dz 2)) m_pi) T).
  { replace T with (L * 2 * PI) by (unfold T; ring). eapply rel_more; [apply (rel_mul 16 1 _ _ _ _ A1 rel_pi); [lra|lra|]|lra].
    replace (L * 2 * PI) with T by (unfold T; ring). apply (mid_of 2 303); [lia..|exact TB]. }
  set (turns := dmul (dmul l (dz 2)) m_pi) in *.
  assert (TT : bpow radix2 4 <= T * T <= bpow radix2 606) by exact (range_mul _ _ _ _ _ _ TB TB).
  assert (A3 : rel 43 (sq turns) (T * T)).
  { eapply rel_more; [apply (rel_mul 20 20 _ _ _ _ A2 A2); [lra|lra|]|lra]. refine (mid_of _ _ _ _ _ TT); lia. }
  assert (R1 : bpow radix2 4 <= 1 + T * T <= bpow radix2 607).
  { split; [lra|]. change 607%Z with (606 + 1)%Z. rewrite bpow_plus. change (bpow radix2 1) with 2. assert (1 <= bpow radix2 606); [|lra]. change 1 with (bpow radix2 0). apply bpow_le. lia. }
  assert (A4 : rel 45 (dadd (dz 1) (sq turns)) (1 + T * T)).
  { apply (rel_more (43 + 2)); [|lra]. apply rel_add; [apply (rel_more 0); [apply rel_1|lra]|exact A3|lra|]. refine (mid_of _ _ _ _ _ R1); lia. }
  assert (S1 : T <= sqrt (1 + T * T) <= 2 * T).
  { split.
    - rewrite <- (sqrt_square T) at 1 by lra. apply sqrt_le_1_alt. lra.
    - rewrite <- (sqrt_square (2 * T)) by lra. apply sqrt_le_1_alt. nra. }
  set (S := sqrt (1 + T * T)) in *.
  assert (SB : bpow radix2 2 <= S <= bpow radix2 304).
  { split; [lra|]. change 304%Z with (303 + 1)%Z. rewrite bpow_plus. change (bpow radix2 1) with 2. lra. }
  assert (A5 : rel 47 (dsqrt (dadd (dz 1) (sq turns))) S).
  { apply (rel_more (45 + 2)); [|lra]. apply rel_sqrt; [exact A4|lra|]. fold S. refine (mid_of _ _ _ _ _ SB); lia. }
  set (root := dsqrt (dadd (dz 1) (sq turns))) in *.
  assert (TS : bpow radix2 4 <= T * S <= bpow radix2 607) by exact (range_mul _ _ _ _ _ _ TB SB).
  assert (A6 : rel 70 (dmul turns root) (T * S)).
  { eapply rel_more; [apply (rel_mul 20 47 _ _ _ _ A2 A5); [lra|lra|]|lra]. refine (mid_of _ _ _ _ _ TS); lia. }
  assert (SumB : bpow radix2 2 <= T + S <= bpow radix2 305).
  { split; [change (bpow radix2 2) with 4; lra|]. change 305%Z with (304 + 1)%Z. rewrite bpow_plus. change (bpow radix2 1) with 2.
    assert (bpow radix2 303 <= bpow radix2 304) by (apply bpow_le; lia). lra. }
  assert (A7 : rel 49 (dadd turns root) (T + S)).
  { apply (rel_more (47 + 2)); [|lra]. apply rel_add; [apply (rel_more 20); [exact A2|lra]|exact A5|lra|]. refine (mid_of _ _ _ _ _ SumB); lia. }
  assert (A8 : rel 70 (log (dadd turns root)) (ln (T + S))).
  { eapply rel_more; [apply (rel_ln log 49 _ _ G A7); [lra|]|lra]. lra. }
  pose proof A8 as (_ & LN0 & _). pose proof (ln_below (T + S) ltac:(lra)) as LN1.
  assert (W : bpow radix2 4 <= T * S + ln (T + S) <= bpow radix2 608).
  { split; [lra|]. change 608%Z with (607 + 1)%Z. rewrite bpow_plus. change (bpow radix2 1) with 2.
    assert (bpow radix2 305 <= bpow radix2 607) by (apply bpow_le; lia). lra. }
  assert (A9 : rel 72 (dadd (dmul turns root) (log (dadd turns root))) (T * S + ln (T + S))).
  { apply (rel_more (70 + 2)); [|lra]. apply rel_add; [exact A6|exact A8|lra|]. refine (mid_of _ _ _ _ _ W); lia. }
  assert (RT : bpow radix2 (-403) <= R / T <= bpow radix2 98) by exact (range_mul _ _ _ _ _ _ BR (range_inv _ _ _ TB)).
  assert (A10 : rel 33 (ddiv x turns) (R / T)).
  { eapply rel_more; [apply (rel_div 9 20 _ _ _ _ RX A2); [lra|lra|]|lra]. refine (mid_of _ _ _ _ _ RT); lia. }
  assert (H2 : bpow radix2 (-1) <= / 2 <= bpow radix2 (-1)) by (replace (bpow radix2 (-1)) with (/ 2) by (cbn; lra); lra).
  assert (RT2 : bpow radix2 (-404) <= R / T / 2 <= bpow radix2 97) by exact (range_mul _ _ _ _ _ _ RT H2).
  assert (A11 : rel 37 (ddiv (ddiv x turns) (dz 2)) (R / T / 2)).
  { eapply rel_more; [apply (rel_div 33 0 _ _ _ _ A10 rel_2); [lra|lra|]|lra]. refine (mid_of _ _ _ _ _ RT2); lia. }
  unfold spiral_length. fold T. unfold spiral. fold S.
  eapply rel_more; [apply (rel_mul 37 72 _ _ _ _ A11 A9); [lra|lra|]|lra].
  pose proof (range_mul _ _ _ _ _ _ RT2 W) as FW. cbv zeta. refine (mid_of _ _ _ _ _ FW); lia.
Qed.
