(** Errors of drilling ways. *)
From Coq Require Import Reals Lra Psatz.
From Flocq Require Import Core Relative Plus_error Mult_error BinarySingleNaN.
From Verif Require Import Model.Base Model.Double Model.PathGeom Spec.DoubleSpec Proofs.Tactics Proofs.DoubleFacts Proofs.FloatReal Proofs.MotionFloats.

Open Scope R_scope.

(** [x] is [r] but for [k] roundings of numbers of size [s] and for [h]. *)
Definition close (k h : R) (x : dbl) (r s : R) : Prop :=
  finite x /\ Rabs (fR x - r) <= k * u * s + h /\ Rabs r <= s /\ s <= 100 * limit /\ 0 <= k <= 30 /\ 0 <= h <= 1.

Lemma close_bound k h x r s : close k h x r s -> Rabs (fR x) <= 11 / 10 * s + h.
Proof.
  intros (F & E & B & L & K & H). pose proof u_small as U. pose proof u_pos as U0.
  assert (0 <= s) by (pose proof (Rabs_pos r); lra). assert (k * u * s <= / 10 * s) by (apply Rmult_le_compat_r; [lra|]; nra).
  abs_ineq. lra.
Qed.

Lemma big_enough : 1000 * limit <= bpow radix2 1023.
Proof. pose proof limit_sq. pose proof limit_1. assert (10 <= limit). { unfold limit. eapply Rle_trans; [|apply (bpow_le radix2 4); lia]. cbn. lra. } nra. Qed.

Lemma close_self x : finite x -> Rabs (fR x) <= limit -> close 0 0 x (fR x) (Rabs (fR x)).
Proof.
  intros F B. pose proof limit_1. split; [exact F|]. replace (fR x - fR x) with 0 by ring. rewrite Rabs_R0.
  split; [lra|]. split; [lra|]. split; [lra|]. split; lra.
Qed.

Lemma close_more k h k' h' x r s s' : close k h x r s -> k <= k' <= 30 -> h <= h' <= 1 -> s <= s' <= 100 * limit -> close k' h' x r s'.
Proof.
  intros (F & E & B & L & K & H) K' H' S. pose proof u_pos. split; [exact F|]. assert (0 <= s) by (pose proof (Rabs_pos r); lra).
  split; [|split; [lra|split; [lra|split; lra]]]. eapply Rle_trans; [exact E|].
  assert (k * u * s <= k' * u * s') by (apply Rmult_le_compat; [nra|lra|nra|lra]). lra.
Qed.

Lemma close_sum k h1 h2 x y z a b s t e : close k h1 x a s -> close k h2 y b t -> s + t <= 100 * limit -> k <= 25 -> h1 + h2 <= / 4 ->
  finite z -> Rabs e <= u -> fR z = (fR x + fR y) * (1 + e) -> close (k + 2) (2 * (h1 + h2)) z (a + b) (s + t).
Proof.
  intros Cx Cy L K H F E Q. pose proof (close_bound _ _ _ _ _ Cx) as Bx. pose proof (close_bound _ _ _ _ _ Cy) as By.
  destruct Cx as (Fx & Ex & Ax & Lx & Kx & Hx). destruct Cy as (Fy & Ey & Ay & Ly & Ky & Hy).
  pose proof u_small as U. pose proof u_pos as U0. split; [exact F|].
  split; [|split; [eapply Rle_trans; [apply Rabs_triang|lra]|split; [exact L|split; lra]]].
  rewrite Q. replace ((fR x + fR y) * (1 + e) - (a + b)) with ((fR x - a) + (fR y - b) + (fR x + fR y) * e) by ring.
  eapply Rle_trans; [apply Rabs_triang|]. eapply Rle_trans; [apply Rplus_le_compat_r, Rabs_triang|]. rewrite Rabs_mult.
  assert (V : Rabs (fR x + fR y) <= 11 / 10 * (s + t) + (h1 + h2)) by (eapply Rle_trans; [apply Rabs_triang|lra]).
  assert (W : Rabs (fR x + fR y) * Rabs e <= (11 / 10 * (s + t) + (h1 + h2)) * u) by (apply Rmult_le_compat; try apply Rabs_pos; assumption).
  assert (0 <= s + t) by (pose proof (Rabs_pos a); pose proof (Rabs_pos b); lra).
  assert (0 <= (s + t) * u) by (apply Rmult_le_pos; lra). assert ((h1 + h2) * u <= (h1 + h2) * / 1000) by (apply Rmult_le_compat_l; lra). lra.
Qed.

Lemma close_add k h1 h2 x y a b s t : close k h1 x a s -> close k h2 y b t -> s + t <= 100 * limit -> k <= 25 -> h1 + h2 <= / 4 ->
  close (k + 2) (2 * (h1 + h2)) (dadd x y) (a + b) (s + t).
Proof.
  intros Cx Cy L K H. pose proof (close_bound _ _ _ _ _ Cx) as Bx. pose proof (close_bound _ _ _ _ _ Cy) as By.
  destruct (add_parts x y (proj1 Cx) (proj1 Cy)) as (F & e & E & Q).
  { pose proof big_enough. pose proof limit_1. eapply Rle_trans; [apply Rabs_triang|]. lra. }
  eapply close_sum; eassumption.
Qed.

Lemma dopp_finite x : finite x -> finite (dopp x). Proof. destruct x; exact (fun H => H). Qed.

Lemma close_opp k h x a s : close k h x a s -> close k h (dopp x) (- a) s.
Proof.
  intros (F & E & B & R). split; [now apply dopp_finite|]. rewrite dopp_fR, Rabs_Ropp. split; [|split; [exact B|exact R]].
  replace (- fR x - - a) with (- (fR x - a)) by ring. rewrite Rabs_Ropp. exact E.
Qed.

Lemma close_sub k h1 h2 x y a b s t : close k h1 x a s -> close k h2 y b t -> s + t <= 100 * limit -> k <= 25 -> h1 + h2 <= / 4 ->
  close (k + 2) (2 * (h1 + h2)) (dsub x y) (a - b) (s + t).
Proof.
  intros Cx Cy L K H. pose proof (close_bound _ _ _ _ _ Cx) as Bx. pose proof (close_bound _ _ _ _ _ Cy) as By.
  destruct (sub_parts x y (proj1 Cx) (proj1 Cy)) as (F & e & E & Q).
  { pose proof big_enough. pose proof limit_1. unfold Rminus. eapply Rle_trans; [apply Rabs_triang|]. rewrite Rabs_Ropp. lra. }
  apply (close_sum k h1 h2 x (dopp y) _ a (- b) s t e); try assumption; [now apply close_opp|]. rewrite dopp_fR. exact Q.
Qed.

Lemma dabs_finite x : finite x -> finite (dabs x). Proof. destruct x; exact (fun H => H). Qed.
Lemma dabs_fR x : fR (dabs x) = Rabs (fR x).
Proof.
  destruct x as [s|s| |s m e]; cbn; try (now rewrite Rabs_R0). unfold fR, SF2R. rewrite <- F2R_Zabs. f_equal. destruct s; reflexivity.
Qed.

Lemma close_abs k h x a s : close k h x a s -> close k h (dabs x) (Rabs a) s.
Proof.
  intros (F & E & B & R). split; [now apply dabs_finite|]. rewrite dabs_fR, Rabs_Rabsolu. split; [|split; [exact B|exact R]].
  eapply Rle_trans; [apply Rabs_triang_inv2|exact E].
Qed.

Lemma close_twice k h x a s : close k h x a s -> 2 * s <= 100 * limit -> h <= / 4 -> close k (2 * h) (twice x) (2 * a) (2 * s).
Proof.
  intros C L H. pose proof (close_bound _ _ _ _ _ C) as B. destruct C as (F & E & A & LL & K & H0). unfold twice.
  assert (F2 : finite (dz 2)) by (vm_compute; reflexivity).
  destruct (rounds_finite (dmul (dz 2) x) (2 * fR x)) as [F3 Q].
  { pose proof (dmul_rounds (dz 2) x F2 F) as R. rewrite fR_2 in R. exact R. }
  { rewrite Rabs_mult, (Rabs_pos_eq 2) by lra. pose proof big_enough. pose proof limit_1. lra. }
  assert (Q2 : fR (dmul (dz 2) x) = 2 * fR x).
  { rewrite Q. apply round_generic; [apply valid_rnd_N|]. replace (2 * fR x) with (fR x * bpow radix2 1) by (cbn; lra).
    apply mult_bpow_pos_exact_FLT; [exact (proj1 (fR_format x F))|lia]. }
  split; [exact F3|]. rewrite Q2, <- Rmult_minus_distr_l, !Rabs_mult, (Rabs_pos_eq 2) by lra.
  split; [|split; [lra|split; [lra|split; lra]]]. lra.
Qed.

Lemma close_zero : close 0 0 dzero 0 0.
Proof. pose proof limit_1. split; [exact Logic.I|]. unfold fR, dzero, SF2R. rewrite Rminus_0_r, Rabs_R0. repeat split; lra. Qed.

(** The way in a plane. *)
Theorem line2_near x y X Y : rounded x X -> rounded y Y -> near_length (line2 x y) (sqrt (X * X + Y * Y)).
Proof.
  intros Rx Ry. unfold line2.
  destruct (sq_ap x X Rx) as [Fx Ax]. destruct (sq_ap y Y Ry) as [Fy Ay].
  pose proof (rounded_sq _ _ Rx) as Bx. pose proof (rounded_sq _ _ Ry) as By.
  pose proof u_small as U. pose proof u_pos as U0. pose proof eta_pos as H0. pose proof eta_1 as H1.
  pose proof limit_sq as L. pose proof limit_1 as L1. assert (LL : 1 <= limit * limit) by nra.
  assert (Nx : forall w W, rounded w W -> 0 <= fR (sq w)).
  { intros w W (F & B & _). apply square_nonneg; [exact F|]. rewrite Rabs_mult. pose proof (Rabs_pos (fR w)). nra. }
  pose proof (Nx x X Rx) as Px. pose proof (Nx y Y Ry) as Py.
  pose proof (ap_add _ _ _ _ _ _ _ Ax Ay) as A1.
  assert (B1 : Rabs (fR (sq x) + fR (sq y)) <= bpow radix2 1023).
  { eapply Rle_trans; [eapply (ap_bound _ _ _ _ (32 * (limit * limit)) A1); lra|]. lra. }
  destruct (add_parts _ _ Fx Fy B1) as (F1 & e1 & E1 & Q1).
  pose proof (add_nonneg _ _ Fx Fy Px Py B1) as P1.
  apply (ap_round _ _ _ _ e1) in A1; [|lra|lra|exact E1]. rewrite <- Q1 in A1.
  apply root_near; [exact F1|exact P1|]. eapply ap_more; [exact A1|lra|lra].
Qed.

Lemma line2_bound X Y : sqrt (X * X + Y * Y) <= Rabs X + Rabs Y.
Proof.
  apply Rsqr_incr_0_var; [|pose proof (Rabs_pos X); pose proof (Rabs_pos Y); lra]. rewrite Rsqr_sqrt by nra. unfold Rsqr.
  pose proof (Rabs_pos X). pose proof (Rabs_pos Y).
  assert (X * X = Rabs X * Rabs X) by (rewrite <- Rabs_mult; symmetry; apply Rabs_pos_eq; nra).
  assert (Y * Y = Rabs Y * Rabs Y) by (rewrite <- Rabs_mult; symmetry; apply Rabs_pos_eq; nra). nra.
Qed.

Lemma tiny_1 : bpow radix2 (-500) <= / 1000.
Proof. eapply Rle_trans; [apply (bpow_le radix2 _ (-10)); lia|cbn; lra]. Qed.

Lemma near_close x r s : near_length x r -> 0 <= r <= s -> s <= 100 * limit -> close 8 (bpow radix2 (-500)) x r s.
Proof.
  intros [F N] B L. pose proof tiny_1. pose proof (bpow_gt_0 radix2 (-500)). pose proof u_pos.
  split; [exact F|]. rewrite (Rabs_pos_eq r) by lra. split; [|split; [lra|split; [exact L|split; lra]]].
  eapply Rle_trans; [exact N|]. assert (8 * u = / 2 ^ 50) by (unfold u; lra). nra.
Qed.
