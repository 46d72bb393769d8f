(** Numbers with a relative error of some roundings. *)
From Coq Require Import Reals Lra.
From Flocq Require Import Core BinarySingleNaN.
From Verif Require Import Model.Base Model.Double Model.PathGeom Spec.DoubleSpec Proofs.FloatReal Proofs.MotionFloats Proofs.ArcFloats.

Open Scope R_scope.

(** [x] is [r] with an error of [n] roundings. *)
Definition rel (n : R) (x : dbl) (r : R) : Prop := finite x /\ 0 < r /\ Rabs (fR x - r) <= n * u * r.

(** Far from the ends of the doubles. *)
Definition mid (r : R) : Prop := bpow radix2 (-900) <= r <= bpow radix2 900.

Lemma rel_more n m x r : rel n x r -> n <= m -> rel m x r.
Proof.
  intros (F & P & E) L. split; [exact F|]. split; [exact P|]. eapply Rle_trans; [exact E|]. pose proof u_pos.
  apply Rmult_le_compat_r; [lra|]. apply Rmult_le_compat_r; lra.
Qed.

Lemma rel_self x : finite x -> 0 < fR x -> rel 0 x (fR x).
Proof. intros F P. split; [exact F|]. split; [exact P|]. replace (fR x - fR x) with 0 by ring. rewrite Rabs_R0. lra. Qed.

(** As a factor. *)
Lemma rel_factor n x r : rel n x r -> exists e, Rabs e <= n * u /\ fR x = r * (1 + e).
Proof.
  intros (F & P & E). exists ((fR x - r) / r). split; [|field; lra].
  unfold Rdiv. rewrite Rabs_mult, (Rabs_pos_eq (/ r)) by (left; now apply Rinv_0_lt_compat).
  apply (Rmult_le_reg_r r); [exact P|]. rewrite Rmult_assoc, Rinv_l by lra. lra.
Qed.

Lemma factor_rel n x r e : finite x -> 0 < r -> Rabs e <= n * u -> fR x = r * (1 + e) -> rel n x r.
Proof.
  intros F P E Q. split; [exact F|]. split; [exact P|]. rewrite Q. replace (r * (1 + e) - r) with (r * e) by ring.
  rewrite Rabs_mult, (Rabs_pos_eq r) by lra. rewrite (Rmult_comm _ r). apply Rmult_le_compat_l; lra.
Qed.

Lemma u_val : u = / 9007199254740992. Proof. unfold u. lra. Qed.

(** Rounding a number that has an error already. *)
Lemma round_again z v n r e : rounds_to z v -> 0 <= n <= 1000 -> 0 < r -> mid r -> Rabs e <= n * u -> v = r * (1 + e) -> rel (n + 2) z r.
Proof.
  intros RZ N P [ML MU] E Q.
  assert (NU : 0 <= n * u <= / 1000000) by (rewrite u_val; split; nra).
  assert (V : r / 2 <= v <= 2 * r). { subst v. apply Rabs_le_inv in E. split; nra. }
  assert (B1 : 2 * bpow radix2 900 <= bpow radix2 1023).
  { change 2 with (bpow radix2 1). rewrite <- bpow_plus. apply bpow_le. lia. }
  assert (B2 : bpow radix2 (-1022) <= bpow radix2 (-900) / 2).
  { replace (bpow radix2 (-900) / 2) with (bpow radix2 (-901)); [apply bpow_le; lia|]. change (-901)%Z with (-900 + -1)%Z. rewrite bpow_plus. cbn. lra. }
  destruct (rounds_normal z v RZ) as [F H].
  { split; rewrite Rabs_pos_eq by lra; lra. }
  split; [exact F|]. split; [exact P|]. rewrite (Rabs_pos_eq v) in H by lra. change (/ 2 ^ 53) with u in H.
  assert (D : Rabs (v - r) <= n * u * r).
  { subst v. replace (r * (1 + e) - r) with (r * e) by ring. rewrite Rabs_mult, (Rabs_pos_eq r) by lra. rewrite (Rmult_comm _ r). apply Rmult_le_compat_l; lra. }
  assert (U2 : u * v <= u * (2 * r)) by (apply Rmult_le_compat_l; [pose proof u_pos|]; lra).
  apply Rabs_le_inv in H. apply Rabs_le_inv in D. apply Rabs_le. lra.
Qed.

Lemma rel_mul n m x y r s : rel n x r -> rel m y s -> 0 <= n <= 400 -> 0 <= m <= 400 -> mid (r * s) -> rel (n + m + 3) (dmul x y) (r * s).
Proof.
  intros X Y N M B. destruct (rel_factor _ _ _ X) as (e & E & Qx). destruct (rel_factor _ _ _ Y) as (f & Fb & Qy).
  destruct X as (Fx & Px & _). destruct Y as (Fy & Py & _). pose proof u_pos as U.
  replace (n + m + 3) with ((n + m + 1) + 2) by ring.
  apply (round_again (dmul x y) (fR x * fR y) (n + m + 1) (r * s) (e + f + e * f)); [now apply dmul_rounds|lra|now apply Rmult_lt_0_compat|exact B| |rewrite Qx, Qy; ring].
  assert (P : Rabs (e * f) <= u).
  { rewrite Rabs_mult. apply Rle_trans with ((400 * u) * (400 * u)); [|rewrite u_val; lra].
    apply Rmult_le_compat; try apply Rabs_pos; [eapply Rle_trans; [exact E|]|eapply Rle_trans; [exact Fb|]]; apply Rmult_le_compat_r; lra. }
  apply Rabs_le_inv in P. apply Rabs_le_inv in E. apply Rabs_le_inv in Fb. apply Rabs_le. lra.
Qed.

Lemma rel_inv_bound f m : 0 <= m <= 400 -> Rabs f <= m * u -> exists g, Rabs g <= (m + 1) * u /\ / (1 + f) = 1 + g.
Proof.
  intros M Fb. assert (NU : 0 <= m * u <= / 1000000) by (rewrite u_val; split; nra).
  pose proof (Rabs_le_inv _ _ Fb) as [F1 F2]. exists (- f / (1 + f)). split; [|field; lra].
  unfold Rdiv. rewrite Rabs_mult, Rabs_Ropp, (Rabs_pos_eq (/ (1 + f))) by (left; apply Rinv_0_lt_compat; lra).
  apply (Rmult_le_reg_r (1 + f)); [lra|]. rewrite Rmult_assoc, Rinv_l, Rmult_1_r by lra.
  assert ((m + 1) * u * f >= - u / 10).
  { assert (Rabs ((m + 1) * u * f) <= u / 10); [|apply Rabs_le_inv in H; lra].
    rewrite Rabs_mult, Rabs_pos_eq by (pose proof u_pos; nra). apply Rle_trans with ((401 * u) * (400 * u)); [|rewrite u_val; lra].
    pose proof u_pos. apply Rmult_le_compat; [nra|apply Rabs_pos|apply Rmult_le_compat_r; lra|]. eapply Rle_trans; [exact Fb|]. apply Rmult_le_compat_r; lra. }
  pose proof u_pos. nra.
Qed.

Lemma rel_div n m x y r s : rel n x r -> rel m y s -> 0 <= n <= 400 -> 0 <= m <= 399 -> mid (r / s) -> rel (n + m + 4) (ddiv x y) (r / s).
Proof.
  intros X Y N M B. destruct (rel_factor _ _ _ X) as (e & E & Qx). destruct (rel_factor _ _ _ Y) as (f & Fb & Qy).
  destruct X as (Fx & Px & _). destruct Y as (Fy & Py & _). pose proof u_pos as U.
  destruct (rel_inv_bound f m ltac:(lra) Fb) as (g & G & Qg).
  assert (NU : 0 <= m * u <= / 1000000) by (rewrite u_val; split; nra).
  assert (F1 : 0 < 1 + f) by (apply Rabs_le_inv in Fb; lra).
  replace (n + m + 4) with ((n + m + 2) + 2) by ring.
  apply (round_again (ddiv x y) (fR x / fR y) (n + m + 2) (r / s) (e + g + e * g)).
  - apply ddiv_rounds; try assumption. rewrite Qy. apply Rmult_integral_contrapositive_currified; lra.
  - lra.
  - apply Rdiv_lt_0_compat; assumption.
  - exact B.
  - assert (P : Rabs (e * g) <= u).
    { rewrite Rabs_mult. apply Rle_trans with ((400 * u) * (400 * u)); [|rewrite u_val; lra].
      apply Rmult_le_compat; try apply Rabs_pos; [eapply Rle_trans; [exact E|]|eapply Rle_trans; [exact G|]]; apply Rmult_le_compat_r; lra. }
    apply Rabs_le_inv in P. apply Rabs_le_inv in E. apply Rabs_le_inv in G. apply Rabs_le. lra.
  - rewrite Qx, Qy. unfold Rdiv. rewrite Rinv_mult. rewrite Qg. ring.
Qed.

Lemma rel_add n x y r s : rel n x r -> rel n y s -> 0 <= n <= 900 -> mid (r + s) -> rel (n + 2) (dadd x y) (r + s).
Proof.
  intros X Y N B. destruct X as (Fx & Px & Ex). destruct Y as (Fy & Py & Ey). pose proof u_pos as U.
  apply (round_again (dadd x y) (fR x + fR y) n (r + s) ((fR x + fR y - (r + s)) / (r + s))); [now apply dadd_rounds|lra|lra|exact B| |field; lra].
  unfold Rdiv. rewrite Rabs_mult, (Rabs_pos_eq (/ (r + s))) by (left; apply Rinv_0_lt_compat; lra).
  apply (Rmult_le_reg_r (r + s)); [lra|]. rewrite Rmult_assoc, Rinv_l, Rmult_1_r by lra.
  apply Rabs_le_inv in Ex. apply Rabs_le_inv in Ey. apply Rabs_le. lra.
Qed.

Lemma rel_pos n x r : rel n x r -> 0 <= n <= 1000 -> r / 2 <= fR x <= 2 * r.
Proof.
  intros X N. destruct (rel_factor _ _ _ X) as (e & E & Q). destruct X as (_ & P & _).
  assert (NU : 0 <= n * u <= / 1000000) by (rewrite u_val; split; nra). apply Rabs_le_inv in E. rewrite Q. split; nra.
Qed.

Lemma rel_sqrt n x r : rel n x r -> 0 <= n <= 900 -> mid (sqrt r) -> rel (n + 2) (dsqrt x) (sqrt r).
Proof.
  intros X N B. pose proof (rel_pos n x r X ltac:(lra)) as VP. destruct (rel_factor _ _ _ X) as (e & E & Q). destruct X as (F & P & _).
  pose proof (sqrt_lt_R0 r P) as SP. destruct (dsqrt_rounds x F ltac:(lra)) as [F2 Q2].
  assert (NU : 0 <= n * u <= / 1000000) by (rewrite u_val; split; nra).
  pose proof (Rabs_le_inv _ _ E) as [E1 E2].
  assert (RZ : rounds_to (dsqrt x) (sqrt (fR x))).
  { unfold rounds_to. rewrite <- Q2, Rlt_bool_true by apply (proj2 (fR_format _ F2)). split; [exact F2|reflexivity]. }
  apply (round_again (dsqrt x) (sqrt (fR x)) n (sqrt r) (sqrt (1 + e) - 1)); [exact RZ|lra|exact SP|exact B| |].
  - assert (S1 : sqrt (1 + e) - 1 = e / (sqrt (1 + e) + 1)).
    { pose proof (sqrt_pos (1 + e)). apply (Rmult_eq_reg_r (sqrt (1 + e) + 1)); [|lra]. unfold Rdiv. rewrite Rmult_assoc, Rinv_l by lra.
      replace ((sqrt (1 + e) - 1) * (sqrt (1 + e) + 1)) with (sqrt (1 + e) * sqrt (1 + e) - 1) by ring. rewrite sqrt_sqrt by lra. ring. }
    rewrite S1. unfold Rdiv. rewrite Rabs_mult. pose proof (sqrt_pos (1 + e)) as SQ. rewrite (Rabs_pos_eq (/ _)) by (left; apply Rinv_0_lt_compat; lra).
    assert (/ (sqrt (1 + e) + 1) <= 1). { apply (Rmult_le_reg_l (sqrt (1 + e) + 1)); [lra|]. rewrite Rinv_r by lra. lra. }
    assert (0 < / (sqrt (1 + e) + 1)) by (apply Rinv_0_lt_compat; lra). pose proof (Rabs_pos e). nra.
  - rewrite Q, sqrt_mult by lra. ring.
Qed.

Lemma rel_pi : rel 1 m_pi PI.
Proof.
  pose proof pi_above. pose proof pi_below. assert (3 <= PI) by lra. split; [vm_compute; reflexivity|]. split; [lra|]. rewrite fR_pi.
  unfold u. apply Rabs_le. lra.
Qed.

Lemma rel_1 : rel 0 (dz 1) 1.
Proof.
  replace 1 with (fR (dz 1)) at 1; [apply rel_self; [vm_compute; reflexivity|]|];
    (change (dz 1) with (S754_finite false 4503599627370496 (-52)); unfold fR, SF2R, F2R, cond_Zopp; cbn; lra).
Qed.

Lemma rel_2 : rel 0 (dz 2) 2.
Proof. replace 2 with (fR (dz 2)) at 1 by apply fR_2. apply rel_self; [vm_compute; reflexivity|rewrite fR_2; lra]. Qed.
