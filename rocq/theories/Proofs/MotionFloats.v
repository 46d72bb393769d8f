(** Errors of sums, products and roots of doubles, and of the length of a
    straight line. *)
From Coq Require Import Reals Lra Psatz.
From Flocq Require Import Core Relative Plus_error Mult_error BinarySingleNaN.
From Verif Require Import Model.Base Model.Double Model.PathGeom Spec.DoubleSpec Proofs.Tactics Proofs.DoubleFacts Proofs.FloatReal.

Open Scope R_scope.

Definition u : R := / 2 ^ 53.
Definition eta : R := / 2 * bpow radix2 (-1074).

Lemma u_pos : 0 < u. Proof. unfold u. lra. Qed.
Lemma u_small : u <= / 1000. Proof. unfold u. lra. Qed.
Lemma eta_pos : 0 < eta. Proof. unfold eta. pose proof (bpow_gt_0 radix2 (-1074)). lra. Qed.

Lemma u_bpow : / 2 * bpow radix2 (Z.opp 53 + 1) = u. Proof. unfold u. cbn. lra. Qed.

Lemma div_u : u / (1 + u) <= u.
Proof. pose proof u_pos. apply (Rmult_le_reg_r (1 + u)); [lra|]. unfold Rdiv. rewrite Rmult_assoc, Rinv_l by lra. nra. Qed.

Lemma rnd_parts r : exists e h, Rabs e <= u /\ Rabs h <= eta /\ rnd r = r * (1 + e) + h.
Proof.
  destruct (error_N_FLT radix2 (-1074) 53 eq_refl (fun x => negb (Z.even x)) r) as (e & h & E & H & _ & Q).
  exists e, h. rewrite u_bpow in E. split; [exact E|]. split; [exact H|]. exact Q.
Qed.

(** A result below the largest double is finite. *)
Lemma rounds_finite z r : rounds_to z r -> Rabs r <= bpow radix2 1023 -> finite z /\ fR z = rnd r.
Proof.
  intros H U. unfold rounds_to in H. rewrite Rlt_bool_true in H; [exact H|].
  eapply Rle_lt_trans; [apply (rnd_lt r 1023); [lia|exact U]|]. now apply bpow_lt.
Qed.

Lemma add_parts x y : finite x -> finite y -> Rabs (fR x + fR y) <= bpow radix2 1023 ->
  finite (dadd x y) /\ exists e, Rabs e <= u /\ fR (dadd x y) = (fR x + fR y) * (1 + e).
Proof.
  intros Fx Fy B. destruct (rounds_finite _ _ (dadd_rounds x y Fx Fy) B) as [F E]. split; [exact F|].
  destruct (FLT_plus_error_N_ex radix2 (-1074) 53 (fun x => negb (Z.even x)) (fR x) (fR y)) as (e & L & Q);
    [apply fR_format; assumption|apply fR_format; assumption|].
  exists e. split.
  - eapply Rle_trans; [exact L|]. unfold u_ro. rewrite u_bpow. apply div_u.
  - rewrite E. exact Q.
Qed.

Lemma sub_parts x y : finite x -> finite y -> Rabs (fR x - fR y) <= bpow radix2 1023 ->
  finite (dsub x y) /\ exists e, Rabs e <= u /\ fR (dsub x y) = (fR x - fR y) * (1 + e).
Proof.
  intros Fx Fy B. destruct (rounds_finite _ _ (dsub_rounds x y Fx Fy) B) as [F E]. split; [exact F|].
  destruct (FLT_plus_error_N_ex radix2 (-1074) 53 (fun x => negb (Z.even x)) (fR x) (- fR y)) as (e & L & Q);
    [apply fR_format; assumption|apply generic_format_opp; apply fR_format; assumption|].
  exists e. split.
  - eapply Rle_trans; [exact L|]. unfold u_ro. rewrite u_bpow. apply div_u.
  - rewrite E. exact Q.
Qed.

Lemma mul_parts x y : finite x -> finite y -> Rabs (fR x * fR y) <= bpow radix2 1023 ->
  finite (dmul x y) /\ exists e h, Rabs e <= u /\ Rabs h <= eta /\ fR (dmul x y) = fR x * fR y * (1 + e) + h.
Proof.
  intros Fx Fy B. destruct (rounds_finite _ _ (dmul_rounds x y Fx Fy) B) as [F E]. split; [exact F|].
  rewrite E. apply rnd_parts.
Qed.

Lemma div_parts x y : finite x -> finite y -> fR y <> 0 -> Rabs (fR x / fR y) <= bpow radix2 1023 ->
  finite (ddiv x y) /\ exists e h, Rabs e <= u /\ Rabs h <= eta /\ fR (ddiv x y) = fR x / fR y * (1 + e) + h.
Proof.
  intros Fx Fy N B. destruct (rounds_finite _ _ (ddiv_rounds x y Fx Fy N) B) as [F E]. split; [exact F|].
  rewrite E. apply rnd_parts.
Qed.

Lemma sqrt_parts x : finite x -> 0 <= fR x ->
  finite (dsqrt x) /\ exists e h, Rabs e <= u /\ Rabs h <= eta /\ fR (dsqrt x) = sqrt (fR x) * (1 + e) + h.
Proof.
  intros F P. destruct (dsqrt_rounds x F P) as [F2 E]. split; [exact F2|]. rewrite E. apply rnd_parts.
Qed.

(** ** Approximate numbers *)

(** [v] is [r] but for [k] times [r] and [h]. *)
Definition ap (k h v r : R) : Prop := 0 <= r /\ Rabs (v - r) <= k * r + h.

Ltac abs_ineq := repeat match goal with
  | H : Rabs _ <= _ |- _ => apply Rabs_le_inv in H
  end; try (apply Rabs_le).

Lemma ap_add k h1 h2 v w r s : ap k h1 v r -> ap k h2 w s -> ap k (h1 + h2) (v + w) (r + s).
Proof. intros [P A] [Q B]. split; [lra|]. abs_ineq. lra. Qed.

Lemma ap_more k k' h h' v r : ap k h v r -> k <= k' -> h <= h' -> ap k' h' v r.
Proof. intros [P A] K H. split; [exact P|]. nra. Qed.

Lemma ap_round k h v r e : 0 <= k <= / 10 -> 0 <= h -> Rabs e <= u -> ap k h v r -> ap (k + 11 / 10 * u) (2 * h) (v * (1 + e)) r.
Proof.
  intros K H E [P A]. split; [exact P|]. pose proof u_pos as U. pose proof u_small as V.
  assert (W : Rabs v <= 11 / 10 * r + h). { abs_ineq. nra. }
  assert (X : Rabs (v * e) <= u * (11 / 10 * r + h)).
  { rewrite Rabs_mult. rewrite (Rmult_comm u). apply Rmult_le_compat; try apply Rabs_pos; assumption. }
  replace (v * (1 + e) - r) with ((v - r) + v * e) by ring.
  eapply Rle_trans; [apply Rabs_triang|].
  assert (Y : u * h <= / 1000 * h) by (apply Rmult_le_compat_r; lra). nra.
Qed.

Lemma ap_eta k h v r g : ap k h v r -> Rabs g <= eta -> ap k (h + eta) (v + g) r.
Proof. intros [P A] G. split; [exact P|]. abs_ineq. lra. Qed.

(** The root of an approximate number. *)
Lemma ap_sqrt k h v r : 0 <= k <= / 10 -> 0 <= h -> 0 <= v -> ap k h v r -> ap k (sqrt h) (sqrt v) (sqrt r).
Proof.
  intros K H V [P A]. split; [apply sqrt_pos|].
  assert (Sub : forall a b, 0 <= a -> 0 <= b -> sqrt (a + b) <= sqrt a + sqrt b).
  { intros a b A0 B0. apply Rsqr_incr_0_var; [|pose proof (sqrt_pos a); pose proof (sqrt_pos b); lra].
    rewrite Rsqr_sqrt by lra. unfold Rsqr. pose proof (sqrt_pos a); pose proof (sqrt_pos b).
    pose proof (sqrt_sqrt a A0). pose proof (sqrt_sqrt b B0). nra. }
  abs_ineq. destruct A as [A1 A2]. pose proof (sqrt_pos r) as R0. pose proof (sqrt_sqrt r P) as RR.
  split.
  - (* sqrt r (1-k) <= sqrt v + sqrt h *)
    assert (X : (1 - k) * sqrt r <= sqrt (v + h)).
    { apply Rsqr_incr_0_var; [|apply sqrt_pos]. rewrite Rsqr_sqrt by lra. unfold Rsqr. nra. }
    pose proof (Sub v h V H). lra.
  - assert (X : sqrt v <= sqrt ((1 + k) * (1 + k) * r + h)) by (apply sqrt_le_1; nra).
    pose proof (Sub ((1 + k) * (1 + k) * r) h ltac:(nra) H) as Y.
    assert (Z : sqrt ((1 + k) * (1 + k) * r) = (1 + k) * sqrt r).
    { rewrite sqrt_mult by nra. rewrite sqrt_square by lra. reflexivity. }
    lra.
Qed.

(** ** Lines *)

Definition limit : R := bpow radix2 400.

Lemma limit_sq : 100 * (limit * limit) <= bpow radix2 1023.
Proof. unfold limit. rewrite <- bpow_plus. change (400 + 400)%Z with 800%Z. pose proof (bpow_gt_0 radix2 800).
  replace (bpow radix2 1023) with (bpow radix2 800 * bpow radix2 223) by (rewrite <- bpow_plus; reflexivity).
  assert (100 <= bpow radix2 223). { eapply Rle_trans; [|apply (bpow_le radix2 7); lia]. cbn. lra. } nra.
Qed.
Lemma limit_1 : 1 <= limit. Proof. unfold limit. change 1 with (bpow radix2 0). apply bpow_le. lia. Qed.

(** A coordinate difference: [x] is [X] with a relative error of one rounding. *)
Definition rounded (x : dbl) (X : R) : Prop :=
  finite x /\ Rabs (fR x) <= 3 * limit /\ exists e, Rabs e <= u /\ fR x = X * (1 + e).

Lemma rounded_self x : finite x -> Rabs (fR x) <= limit -> rounded x (fR x).
Proof. intros F B. split; [exact F|]. split; [pose proof limit_1; lra|]. exists 0. rewrite Rabs_R0. split; [pose proof u_pos; lra|ring]. Qed.

Lemma rounded_sub x y : finite x -> finite y -> Rabs (fR x) <= limit -> Rabs (fR y) <= limit -> rounded (dsub x y) (fR x - fR y).
Proof.
  intros Fx Fy Bx By.
  assert (D : Rabs (fR x - fR y) <= 2 * limit) by (abs_ineq; lra).
  destruct (sub_parts x y Fx Fy) as (F & e & E & Q).
  { pose proof limit_sq. pose proof limit_1. nra. }
  split; [exact F|]. split; [|exists e; split; assumption].
  rewrite Q, Rabs_mult. pose proof u_small. assert (Rabs (1 + e) <= 3 / 2) by (abs_ineq; lra).
  pose proof (Rabs_pos (1 + e)). pose proof (Rabs_pos (fR x - fR y)). nra.
Qed.

Lemma sq_ap x X : rounded x X -> finite (sq x) /\ ap (42 / 10 * u) eta (fR (sq x)) (X * X).
Proof.
  intros (F & B & e & E & Q). unfold sq. pose proof u_small as U. pose proof u_pos as U0.
  destruct (mul_parts x x F F) as (F2 & e2 & h & E2 & H & Q2).
  { rewrite Rabs_mult. pose proof limit_sq. pose proof (Rabs_pos (fR x)). pose proof limit_1. nra. }
  split; [exact F2|]. rewrite Q2.
  assert (A : ap (3 * u) 0 (fR x * fR x) (X * X)).
  { split; [nra|]. rewrite Q. replace (X * (1 + e) * (X * (1 + e)) - X * X) with (X * X * (2 * e + e * e)) by ring.
    rewrite Rabs_mult, (Rabs_pos_eq (X * X)) by nra.
    assert (Rabs (2 * e + e * e) <= 3 * u). { abs_ineq. nra. } nra. }
  apply (ap_round _ _ _ _ e2) in A; [|lra|lra|exact E2].
  apply (ap_eta _ _ _ _ h) in A; [|exact H]. eapply ap_more; [exact A|lra|lra].
Qed.

Lemma ap_bound k h v r b : ap k h v r -> k <= / 10 -> h <= 1 -> r <= b -> Rabs v <= 2 * b + 1.
Proof. intros [P A] K H B. abs_ineq. nra. Qed.

Lemma eta_1 : 100 * eta <= / 10.
Proof. unfold eta. assert (bpow radix2 (-1074) <= bpow radix2 (-20)) by (apply bpow_le; lia). cbn in H. cbn. lra. Qed.

Lemma sqrt_eta : 3 * sqrt (10 * eta) + 2 * eta <= bpow radix2 (-500).
Proof.
  assert (A : sqrt (10 * eta) <= bpow radix2 (-502)).
  { apply Rsqr_incr_0_var; [|apply bpow_ge_0]. rewrite Rsqr_sqrt by (pose proof eta_pos; lra). unfold Rsqr.
    rewrite <- bpow_plus. unfold eta.
    replace (bpow radix2 (-502 + -502)) with (bpow radix2 (-1074) * bpow radix2 70) by (rewrite <- bpow_plus; reflexivity).
    pose proof (bpow_gt_0 radix2 (-1074)). assert (100 <= bpow radix2 70). { eapply Rle_trans; [|apply (bpow_le radix2 7); lia]. cbn. lra. } nra. }
  assert (B : 2 * eta <= bpow radix2 (-502)).
  { unfold eta. pose proof (bpow_le radix2 (-1074) (-502) ltac:(lia)). lra. }
  replace (bpow radix2 (-500)) with (4 * bpow radix2 (-502)).
  - lra.
  - change (-500)%Z with (2 + -502)%Z. rewrite bpow_plus. cbn [bpow]. cbn. ring.
Qed.

(** What a length should be and how far the calculated one may be off. *)
Definition near_length (x : dbl) (r : R) : Prop := finite x /\ Rabs (fR x - r) <= / 2 ^ 50 * r + bpow radix2 (-500).

Lemma root_near s S : finite s -> 0 <= fR s -> ap (64 / 10 * u) (10 * eta) (fR s) S -> near_length (dsqrt s) (sqrt S).
Proof.
  intros F P A. destruct (sqrt_parts s F P) as (F2 & e & h & E & H & Q). split; [exact F2|]. rewrite Q.
  pose proof u_small as U. pose proof u_pos as U0. pose proof eta_pos as H0.
  apply ap_sqrt in A; [|lra|lra|exact P].
  apply (ap_round _ _ _ _ e) in A; [|lra|apply sqrt_pos|exact E].
  apply (ap_eta _ _ _ _ h) in A; [|exact H].
  destruct A as [S0 A]. eapply Rle_trans; [exact A|].
  assert (64 / 10 * u + 11 / 10 * u <= / 2 ^ 50). { unfold u. lra. }
  pose proof sqrt_eta. pose proof (sqrt_pos (10 * eta)). nra.
Qed.

Lemma sum_nonneg k h v r : ap k h v r -> v < 0 -> k <= / 10 -> - h <= v.
Proof. intros [P A] N K. abs_ineq. nra. Qed.

Lemma square_nonneg x : finite x -> Rabs (fR x * fR x) <= bpow radix2 1023 -> 0 <= fR (sq x).
Proof.
  intros F B. unfold sq. destruct (rounds_finite _ _ (dmul_rounds x x F F) B) as [_ ->].
  unfold rnd. apply round_ge_generic; [apply FLT_exp_valid; reflexivity|apply valid_rnd_N|apply generic_format_0|nra].
Qed.

Lemma add_nonneg x y : finite x -> finite y -> 0 <= fR x -> 0 <= fR y -> Rabs (fR x + fR y) <= bpow radix2 1023 -> 0 <= fR (dadd x y).
Proof.
  intros Fx Fy Px Py B. destruct (rounds_finite _ _ (dadd_rounds x y Fx Fy) B) as [_ ->].
  unfold rnd. apply round_ge_generic; [apply FLT_exp_valid; reflexivity|apply valid_rnd_N|apply generic_format_0|lra].
Qed.

Lemma rounded_real x X : rounded x X -> Rabs X <= 4 * limit.
Proof.
  intros (F & B & e & E & Q). pose proof u_small. rewrite Q in B. rewrite Rabs_mult in B.
  assert (9 / 10 <= Rabs (1 + e)). { abs_ineq. rewrite Rabs_pos_eq; lra. } pose proof (Rabs_pos X). pose proof limit_1. nra.
Qed.

Lemma rounded_sq x X : rounded x X -> X * X <= 16 * (limit * limit).
Proof. intro R. apply rounded_real in R. abs_ineq. pose proof limit_1. nra. Qed.

Theorem line3_near x y z X Y Z : rounded x X -> rounded y Y -> rounded z Z ->
  near_length (line3 x y z) (sqrt (X * X + Y * Y + Z * Z)).
Proof.
  intros Rx Ry Rz. unfold line3.
  destruct (sq_ap x X Rx) as [Fx Ax]. destruct (sq_ap y Y Ry) as [Fy Ay]. destruct (sq_ap z Z Rz) as [Fz Az].
  pose proof (rounded_sq _ _ Rx) as Bx. pose proof (rounded_sq _ _ Ry) as By. pose proof (rounded_sq _ _ Rz) as Bz.
  pose proof u_small as U. pose proof u_pos as U0. pose proof eta_pos as H0. pose proof eta_1 as H1.
  pose proof limit_sq as L. pose proof limit_1 as L1. assert (LL : 1 <= limit * limit) by nra.
  assert (Nx : forall w W, rounded w W -> 0 <= fR (sq w)).
  { intros w W (F & B & _). apply square_nonneg; [exact F|]. rewrite Rabs_mult. pose proof (Rabs_pos (fR w)). nra. }
  pose proof (Nx x X Rx) as Px. pose proof (Nx y Y Ry) as Py. pose proof (Nx z Z Rz) as Pz.
  pose proof (ap_add _ _ _ _ _ _ _ Ax Ay) as A1.
  assert (B1 : Rabs (fR (sq x) + fR (sq y)) <= bpow radix2 1023).
  { eapply Rle_trans; [eapply (ap_bound _ _ _ _ (32 * (limit * limit)) A1); lra|]. lra. }
  destruct (add_parts _ _ Fx Fy B1) as (F1 & e1 & E1 & Q1).
  pose proof (add_nonneg _ _ Fx Fy Px Py B1) as P1.
  apply (ap_round _ _ _ _ e1) in A1; [|lra|lra|exact E1]. rewrite <- Q1 in A1.
  assert (A2 : ap (42 / 10 * u + 11 / 10 * u) (2 * (eta + eta) + eta) (fR (dadd (sq x) (sq y)) + fR (sq z)) (X * X + Y * Y + Z * Z)).
  { apply ap_add; [exact A1|]. eapply ap_more; [exact Az|lra|lra]. }
  assert (B2 : Rabs (fR (dadd (sq x) (sq y)) + fR (sq z)) <= bpow radix2 1023).
  { eapply Rle_trans; [eapply (ap_bound _ _ _ _ (48 * (limit * limit)) A2); lra|]. lra. }
  destruct (add_parts _ _ F1 Fz B2) as (F2 & e2 & E2 & Q2).
  pose proof (add_nonneg _ _ F1 Fz P1 Pz B2) as P2.
  apply (ap_round _ _ _ _ e2) in A2; [|lra|lra|exact E2]. rewrite <- Q2 in A2.
  apply root_near; [exact F2|exact P2|]. eapply ap_more; [exact A2| |lra].
  lra.
Qed.

(** Half a number is exact. *)
Lemma fR_2 : fR (dz 2) = 2.
Proof. change (dz 2) with (S754_finite false 4503599627370496 (-51)). unfold fR, SF2R, F2R, cond_Zopp. cbn. lra. Qed.

Lemma half_exact x : finite x -> (fR x = 0 \/ bpow radix2 (-400) <= Rabs (fR x) <= limit) ->
  finite (ddiv x (dz 2)) /\ fR (ddiv x (dz 2)) = fR x / 2 /\ Rabs (fR x / 2) <= limit.
Proof.
  intros F B. assert (F2 : finite (dz 2)) by (vm_compute; reflexivity).
  assert (L : Rabs (fR x / 2) <= limit).
  { pose proof limit_1. unfold Rdiv. rewrite Rabs_mult, (Rabs_pos_eq (/ 2)) by lra. destruct B as [->|[_ B]]; [rewrite Rabs_R0; lra|].
    pose proof (Rabs_pos (fR x)). lra. }
  destruct (rounds_finite (ddiv x (dz 2)) (fR x / 2)) as [F3 E].
  { pose proof (ddiv_rounds x (dz 2) F F2) as R. rewrite fR_2 in R. apply R. lra. }
  { eapply Rle_trans; [exact L|]. unfold limit. apply bpow_le. lia. }
  split; [exact F3|]. split; [|exact L]. rewrite E. apply round_generic; [apply valid_rnd_N|].
  replace (fR x / 2) with (fR x * bpow radix2 (-1)) by (cbn; lra).
  destruct B as [->|[B _]]; [rewrite Rmult_0_l; apply generic_format_0|].
  apply mult_bpow_exact_FLT; [exact (proj1 (fR_format x F))|].
  assert (mag radix2 (fR x) > -400)%Z; [|lia]. apply Z.lt_gt. apply mag_gt_bpow. exact B.
Qed.

(** A time: sixty times a way by a feed. *)
Lemma ap_scale k h v r a : 0 <= a -> ap k h v r -> ap k (a * h) (a * v) (a * r).
Proof. intros A [P B]. split; [nra|]. rewrite <- Rmult_minus_distr_l, Rabs_mult, (Rabs_pos_eq a A). nra. Qed.

Lemma fR_60 : fR (dz 60) = 60.
Proof. change (dz 60) with (S754_finite false 8444249301319680 (-47)). unfold fR, SF2R, F2R, cond_Zopp. cbn. lra. Qed.

Lemma ap_near k h x r : finite x -> ap k h (fR x) r -> k <= 8 * u -> h <= bpow radix2 (-500) -> near_length x r.
Proof.
  intros F [P A] K H. split; [exact F|]. eapply Rle_trans; [exact A|].
  assert (8 * u = / 2 ^ 50) by (unfold u; lra). nra.
Qed.

Lemma eta_500 : 1000 * eta <= bpow radix2 (-500).
Proof.
  unfold eta. replace (bpow radix2 (-1074)) with (bpow radix2 (-500) * bpow radix2 (-574)) by (rewrite <- bpow_plus; reflexivity).
  assert (H : bpow radix2 (-574) <= / 1048576) by (eapply Rle_trans; [apply (bpow_le radix2 _ (-20)); lia|cbn; lra]).
  pose proof (bpow_gt_0 radix2 (-500)) as P. set (a := bpow radix2 (-500)) in *. set (b := bpow radix2 (-574)) in *. clearbody a b. nra.
Qed.

Lemma sixty_near k h v r : finite v -> ap k h (fR v) r -> 0 <= k <= 65 / 10 * u -> 0 <= h <= 4 * eta -> r <= bpow radix2 1000 -> near_length (dmul (dz 60) v) (60 * r).
Proof.
  intros F A K H B. pose proof u_small as U. pose proof u_pos as U0. pose proof eta_pos as H0. pose proof eta_1 as H1. pose proof eta_500 as H2.
  assert (F60 : finite (dz 60)) by (vm_compute; reflexivity).
  assert (O : 1 <= bpow radix2 1000) by (change 1 with (bpow radix2 0); apply bpow_le; lia).
  destruct (mul_parts (dz 60) v F60 F) as (F2 & e & g & E & G & Q).
  { rewrite fR_60. replace (bpow radix2 1023) with (bpow radix2 1000 * bpow radix2 23) by (rewrite <- bpow_plus; reflexivity).
    assert (V : Rabs (fR v) <= 2 * bpow radix2 1000 + 1) by (eapply (ap_bound _ _ _ _ _ A); lra).
    rewrite Rabs_mult, (Rabs_pos_eq 60) by lra. replace (bpow radix2 23) with 8388608 by (cbn; lra). lra. }
  rewrite fR_60 in Q. apply (ap_scale _ _ _ _ 60) in A; [|lra].
  apply (ap_round _ _ _ _ e) in A; [|lra|lra|exact E]. apply (ap_eta _ _ _ _ g) in A; [|exact G]. rewrite <- Q in A.
  eapply ap_near; [exact F2|exact A|lra|lra].
Qed.

Lemma quotient_ap w f : finite w -> finite f -> 0 <= fR w -> 0 < fR f -> fR w / fR f <= bpow radix2 1000 ->
  finite (ddiv w f) /\ ap u eta (fR (ddiv w f)) (fR w / fR f).
Proof.
  intros Fw Ff W P B. assert (Z0 : 0 <= fR w / fR f) by (apply Rmult_le_pos; [exact W|left; apply Rinv_0_lt_compat; exact P]).
  destruct (div_parts w f Fw Ff) as (F & e & h & E & H & Q); [lra| |].
  { rewrite Rabs_pos_eq by exact Z0. eapply Rle_trans; [exact B|]. apply bpow_le. lia. }
  split; [exact F|]. split; [exact Z0|]. rewrite Q. replace (_ - _) with (fR w / fR f * e + h) by ring.
  eapply Rle_trans; [apply Rabs_triang|]. rewrite Rabs_mult, (Rabs_pos_eq _ Z0). nra.
Qed.

Theorem time_near w f : finite w -> finite f -> 0 <= fR w -> 0 < fR f -> fR w / fR f <= bpow radix2 1000 ->
  near_length (dmul (dz 60) (ddiv w f)) (60 * (fR w / fR f)).
Proof.
  intros Fw Ff W P B. destruct (quotient_ap w f Fw Ff W P B) as [F A]. pose proof u_pos. pose proof eta_pos.
  eapply sixty_near; [exact F|exact A|lra|lra|exact B].
Qed.

(** The same with a feed per turn. *)
Lemma product_rate f s : finite f -> finite s -> bpow radix2 (-100) <= fR f <= bpow radix2 100 -> bpow radix2 (-100) <= fR s <= bpow radix2 100 ->
  finite (dmul f s) /\ exists e, Rabs e <= 11 / 10 * u /\ fR (dmul f s) = fR f * fR s * (1 + e).
Proof.
  intros Ff Fs Bf Bs. pose proof (bpow_gt_0 radix2 (-100)) as P. pose proof (bpow_gt_0 radix2 100) as P2.
  assert (L : bpow radix2 (-200) <= fR f * fR s). { change (-200)%Z with (-100 + -100)%Z. rewrite bpow_plus. apply Rmult_le_compat; lra. }
  assert (U : fR f * fR s <= bpow radix2 200). { change 200%Z with (100 + 100)%Z. rewrite bpow_plus. apply Rmult_le_compat; lra. }
  pose proof (bpow_gt_0 radix2 (-200)) as P3.
  destruct (mul_parts f s Ff Fs) as (F & e & h & E & H & Q).
  { rewrite Rabs_pos_eq by lra. eapply Rle_trans; [exact U|]. apply bpow_le. lia. }
  split; [exact F|]. exists (e + h / (fR f * fR s)). split; [|rewrite Q; field; split; intro X; lra].
  eapply Rle_trans; [apply Rabs_triang|]. unfold Rdiv. rewrite Rabs_mult.
  assert (A : Rabs (/ (fR f * fR s)) <= bpow radix2 200).
  { rewrite Rabs_pos_eq by (left; apply Rinv_0_lt_compat; lra). replace (bpow radix2 200) with (/ bpow radix2 (-200)) by (rewrite <- bpow_opp; reflexivity).
    apply Rinv_le; [exact P3|exact L]. }
  assert (B : eta * bpow radix2 200 <= / 10 * u).
  { unfold eta. rewrite Rmult_assoc, <- bpow_plus. change (-1074 + 200)%Z with (-874)%Z.
    assert (bpow radix2 (-874) <= bpow radix2 (-57)) by (apply bpow_le; lia). unfold u.
    replace (bpow radix2 (-57)) with (/ 2 ^ 57) in H0 by (cbn; lra). lra. }
  pose proof (Rabs_pos h). pose proof (Rabs_pos (/ (fR f * fR s))). pose proof eta_pos. nra.
Qed.

Theorem time_per_turn w f s : finite w -> finite f -> finite s -> 0 <= fR w <= limit ->
  bpow radix2 (-100) <= fR f <= bpow radix2 100 -> bpow radix2 (-100) <= fR s <= bpow radix2 100 ->
  near_length (dmul (dz 60) (ddiv w (dmul f s))) (60 * (fR w / (fR f * fR s))).
Proof.
  intros Fw Ff Fs Bw Bf Bs. destruct (product_rate f s Ff Fs Bf Bs) as (F & e & E & Q).
  pose proof (bpow_gt_0 radix2 (-100)) as P. pose proof u_small as U. pose proof u_pos as U0. pose proof eta_pos as H0.
  assert (L : bpow radix2 (-200) <= fR f * fR s). { change (-200)%Z with (-100 + -100)%Z. rewrite bpow_plus. apply Rmult_le_compat; lra. }
  pose proof (bpow_gt_0 radix2 (-200)) as P3.
  set (p := fR f * fR s) in *. clearbody p. assert (Pp : 0 < p) by lra.
  assert (E1 : 9 / 10 <= 1 + e <= 11 / 10) by (abs_ineq; lra).
  assert (Pq : 0 < p * (1 + e)) by nra.
  assert (A : 0 <= fR w / p) by (apply Rmult_le_pos; [lra|left; apply Rinv_0_lt_compat; exact Pp]).
  assert (V : fR w / p <= bpow radix2 600).
  { change 600%Z with (400 + 200)%Z. rewrite bpow_plus. unfold Rdiv. apply Rmult_le_compat; [lra|left; apply Rinv_0_lt_compat; exact Pp|apply Bw|].
    replace (bpow radix2 200) with (/ bpow radix2 (-200)) by (rewrite <- bpow_opp; reflexivity). apply Rinv_le; [exact P3|exact L]. }
  assert (R : fR w / (p * (1 + e)) = fR w / p * / (1 + e)) by (field; lra).
  assert (I : / (1 + e) <= 1 + 13 / 10 * u /\ 1 - 13 / 10 * u <= / (1 + e)).
  { assert (/ (1 + e) * (1 + e) = 1) by (field; lra). assert (0 < / (1 + e)) by (apply Rinv_0_lt_compat; lra). abs_ineq. nra. }
  destruct (quotient_ap w (dmul f s) Fw F) as [F2 A2]; [lra|rewrite Q; exact Pq| |].
  { rewrite Q, R. eapply Rle_trans; [|apply (bpow_le radix2 601); lia]. change 601%Z with (600 + 1)%Z. rewrite bpow_plus.
    change (bpow radix2 1) with 2. apply Rmult_le_compat; [exact A|left; apply Rinv_0_lt_compat; lra|exact V|lra]. }
  assert (A3 : ap (3 * u) eta (fR (ddiv w (dmul f s))) (fR w / p)).
  { split; [exact A|]. destruct A2 as [_ A2]. rewrite Q, R in A2. set (q := fR w / p) in *. clearbody q. set (i := / (1 + e)) in *. clearbody i.
    assert (I1 : q * i <= q * (1 + 13 / 10 * u)) by (apply Rmult_le_compat_l; lra).
    assert (I2 : q * (1 - 13 / 10 * u) <= q * i) by (apply Rmult_le_compat_l; lra).
    assert (I3 : u * (q * i) <= u * (q * (11 / 10))) by (apply Rmult_le_compat_l; [lra|]; apply Rmult_le_compat_l; lra).
    assert (I4 : 0 <= u * q) by (apply Rmult_le_pos; lra).
    abs_ineq. split; lra. }
  eapply sixty_near; [exact F2|exact A3|lra|lra|]. eapply Rle_trans; [exact V|]. apply bpow_le. lia.
Qed.
