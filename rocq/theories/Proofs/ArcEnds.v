(** The length of an arc with a centre in doubles. *)
From Coq Require Import Reals Lra.
From Flocq Require Import Core BinarySingleNaN.
From Verif Require Import Model.Base Model.Double Model.PathGeom Spec.DoubleSpec Spec.MotionSpec Spec.DrillSpec Spec.ArcSpec Spec.RadiusSpec Proofs.DoubleFacts Proofs.FloatReal Proofs.MotionFloats
  Proofs.DrillFloats Proofs.ArcFloats Proofs.RelFloats Proofs.SpiralFloats Proofs.ArcProofs Proofs.RadiusFloats.

Open Scope R_scope.

Lemma asin_near q q' : 0 <= q <= 15 / 16 -> 0 <= q' <= 15 / 16 -> Rabs (asin q - asin q') <= 3 * Rabs (q - q').
Proof.
  assert (K : forall a b, 0 <= a -> a < b -> b <= 15 / 16 -> Rabs (asin b - asin a) <= 3 * (b - a)).
  { intros a b A L B. destruct (MVT_cor2 asin (fun c => 1 / sqrt (1 - Rsqr c)) a b L) as (c & E & C).
    - intros c C. assert (R : -1 < c < 1) by lra. apply (derive_pt_eq_1 asin c _ (derivable_pt_asin c R)). apply derive_pt_asin.
    - rewrite E. assert (S : / 3 <= sqrt (1 - Rsqr c)).
      { rewrite <- (sqrt_square (/ 3)) by lra. apply sqrt_le_1_alt. unfold Rsqr. nra. }
      assert (I : 0 < 1 / sqrt (1 - Rsqr c) <= 3).
      { unfold Rdiv. rewrite Rmult_1_l. split; [apply Rinv_0_lt_compat; lra|]. replace 3 with (/ / 3) by field. apply Rinv_le; lra. }
      rewrite Rabs_pos_eq by (apply Rmult_le_pos; lra). apply Rmult_le_compat_r; lra. }
  intros Q Q'. destruct (Rtotal_order q q') as [L|[->|L]].
  - rewrite Rabs_minus_sym, (Rabs_minus_sym q). rewrite (Rabs_pos_eq (q' - q)) by lra. apply K; lra.
  - rewrite !Rminus_eq_0, Rabs_R0. lra.
  - rewrite (Rabs_pos_eq (q - q')) by lra. apply K; lra.
Qed.

Lemma shorter_near c r r' : 0 < c -> c <= 15 / 8 * r -> c <= 15 / 8 * r' -> Rabs (shorter r c - shorter r' c) <= 10 * Rabs (r - r') /\ Rabs (longer r c - longer r' c) <= 18 * Rabs (r - r').
Proof.
  intros C A B. unfold longer. assert (P : 0 < r) by lra. assert (P' : 0 < r') by lra.
  assert (S : Rabs (shorter r c - shorter r' c) <= 10 * Rabs (r - r')).
  { unfold shorter. set (q := c / (2 * r)). set (q' := c / (2 * r')).
    assert (Q : 0 < q <= 15 / 16). { unfold q. split; [apply Rdiv_lt_0_compat; lra|]. apply (Rmult_le_reg_r (2 * r)); [lra|]. unfold Rdiv at 1. rewrite Rmult_assoc, Rinv_l by lra. lra. }
    assert (Q' : 0 < q' <= 15 / 16). { unfold q'. split; [apply Rdiv_lt_0_compat; lra|]. apply (Rmult_le_reg_r (2 * r')); [lra|]. unfold Rdiv at 1. rewrite Rmult_assoc, Rinv_l by lra. lra. }
    pose proof (asin_near q q' ltac:(lra) ltac:(lra)) as N. pose proof (asin_bound_lt q ltac:(lra)) as AB. pose proof pi_range as PR.
    assert (D : r' * (q - q') = q * (r' - r)) by (unfold q, q'; field; lra).
    replace (2 * r * asin q - 2 * r' * asin q') with (2 * (asin q * (r - r') + r' * (asin q - asin q'))) by ring.
    rewrite Rabs_mult, (Rabs_pos_eq 2) by lra.
    assert (T1 : Rabs (asin q * (r - r')) <= 2 * Rabs (r - r')).
    { rewrite Rabs_mult. apply Rmult_le_compat_r; [apply Rabs_pos|]. apply Rabs_le. lra. }
    assert (T2 : Rabs (r' * (asin q - asin q')) <= 3 * Rabs (r - r')).
    { rewrite Rabs_mult, (Rabs_pos_eq r') by lra. apply Rle_trans with (r' * (3 * Rabs (q - q'))); [apply Rmult_le_compat_l; lra|].
      replace (r' * (3 * Rabs (q - q'))) with (3 * Rabs (r' * (q - q'))) by (rewrite Rabs_mult, (Rabs_pos_eq r') by lra; ring).
      rewrite D, Rabs_mult, (Rabs_pos_eq q), (Rabs_minus_sym r') by lra. pose proof (Rabs_pos (r - r')). nra. }
    pose proof (Rabs_triang (asin q * (r - r')) (r' * (asin q - asin q'))). lra. }
  split; [exact S|]. pose proof pi_range as PR.
  replace (2 * PI * r - shorter r c - (2 * PI * r' - shorter r' c)) with (2 * PI * (r - r') + - (shorter r c - shorter r' c)) by ring.
  eapply Rle_trans; [apply Rabs_triang|]. rewrite Rabs_Ropp, Rabs_mult, (Rabs_pos_eq (2 * PI)) by lra.
  pose proof (Rabs_pos (r - r')). nra.
Qed.

(** Signs. *)
Lemma ltb_below x y : finite x -> finite y -> dltb x y = true <-> fR x < fR y.
Proof.
  intros Fx Fy. rewrite (dltb_lt _ _ Fx Fy). pose proof (bpow_gt_0 radix2 1074) as P. split; intro H.
  - apply IZR_lt in H. rewrite !sval_fR in H by assumption. apply Rmult_lt_reg_r in H; [exact H|exact P].
  - apply lt_IZR. rewrite !sval_fR by assumption. apply Rmult_lt_compat_r; assumption.
Qed.

Definition quarter_of (x y : R) : Z :=
  if Rlt_dec 0 x then if Rlt_dec 0 y then 1 else 4 else if Rlt_dec 0 y then 2 else 3.

Lemma quadrant_of x y : finite x -> finite y -> fR x <> 0 -> fR y <> 0 -> quadrant x y = quarter_of (fR x) (fR y).
Proof.
  intros Fx Fy Nx Ny. assert (F0 : finite dzero) by exact Logic.I. assert (Z0 : fR dzero = 0) by reflexivity.
  assert (K : forall a, finite a -> fR a <> 0 -> (0 < fR a /\ dgtb a dzero = true /\ dltb a dzero = false) \/ (fR a < 0 /\ dgtb a dzero = false /\ dltb a dzero = true)).
  { intros a F N. change (dgtb a dzero) with (dltb dzero a). pose proof (ltb_below dzero a F0 F) as A. pose proof (ltb_below a dzero F F0) as B. rewrite Z0 in A, B.
    destruct (Rtotal_order (fR a) 0) as [L|[L|L]]; [right|contradiction|left]; (split; [exact L|]).
    - split; [destruct (dltb dzero a); [destruct A as [A _]; specialize (A eq_refl); lra|reflexivity]|now apply B].
    - split; [now apply A|destruct (dltb a dzero); [destruct B as [B _]; specialize (B eq_refl); lra|reflexivity]]. }
  unfold quadrant, quarter_of.
  destruct (K x Fx Nx) as [(L & -> & ->)|(L & -> & ->)], (K y Fy Ny) as [(M & -> & ->)|(M & -> & ->)]; cbn [andb];
    destruct (Rlt_dec 0 (fR x)), (Rlt_dec 0 (fR y)); try lra; reflexivity.
Qed.

Lemma long_of g px py cx cy tp tc : (g = 2 \/ g = 3)%Z -> neighbours px py cx cy ->
  long_arc g (quarter_of px py) (quarter_of cx cy) tp tc = if Rlt_dec 0 (if (g =? 3)%Z then cross px py cx cy else - cross px py cx cy) then false else true.
Proof.
  intros G N. unfold quarter_of, cross.
  destruct N as [[A B]|[A B]]; destruct (Rlt_dec 0 px), (Rlt_dec 0 py), (Rlt_dec 0 cx), (Rlt_dec 0 cy); try nra;
    destruct G as [-> | ->]; cbn; destruct (Rlt_dec 0 _); try reflexivity; exfalso; nra.
Qed.

Lemma quarter_same x y x' y' : (0 < x <-> 0 < x') -> (0 < y <-> 0 < y') -> quarter_of x y = quarter_of x' y'.
Proof. intros X Y. unfold quarter_of. destruct (Rlt_dec 0 x), (Rlt_dec 0 x'), (Rlt_dec 0 y), (Rlt_dec 0 y'); try reflexivity; tauto. Qed.

(** A coordinate seen from the centre, which is at [xp + i]. *)
Lemma seen xp i a (b : bool) : on_machine xp -> on_machine i -> on_machine a -> (b = true -> deqb (dadd xp i) dzero = true) ->
  / 1000 <= Rabs (fR a - (fR xp + fR i)) ->
  let d := if negb b then dsub a (dadd xp i) else a in finite d /\ fR d <> 0 /\ (0 < fR d <-> 0 < fR a - (fR xp + fR i)) /\
    Rabs (fR d - (fR a - (fR xp + fR i))) <= / 1000000 * Rabs (fR a - (fR xp + fR i)).
Proof.
  intros [F1 B1] [F2 B2] [F3 B3] M L d. unfold size in *. change (amount xp) with (fR xp) in *. change (amount i) with (fR i) in *. change (amount a) with (fR a) in *.
  pose proof u_val as U.
  assert (BB : 100000000 <= bpow radix2 1023) by (eapply Rle_trans; [|apply (bpow_le radix2 40); lia]; cbn; lra).
  pose proof (Rabs_triang (fR xp) (fR i)) as T. destruct (add_parts xp i F1 F2 ltac:(lra)) as (Fm & e & E & Q).
  assert (EM : Rabs (fR (dadd xp i) - (fR xp + fR i)) <= / 2000000000).
  { rewrite Q. replace ((fR xp + fR i) * (1 + e) - (fR xp + fR i)) with ((fR xp + fR i) * e) by ring. rewrite Rabs_mult.
    apply Rle_trans with (2000000 * u); [apply Rmult_le_compat; try apply Rabs_pos; lra|rewrite U; lra]. }
  assert (D : finite d /\ exists f, Rabs f <= u /\ fR d = (fR a - fR (dadd xp i)) * (1 + f)).
  { destruct b; cbn [negb] in d.
    - subst d. split; [exact F3|]. exists 0. rewrite Rabs_R0. split; [rewrite U; lra|].
      specialize (M eq_refl). apply (deqb_eq _ dzero Fm Logic.I) in M. assert (Z0 : IZR (DoubleSpec.sval (dadd xp i)) = 0) by (rewrite M; reflexivity).
      rewrite sval_fR in Z0 by exact Fm. pose proof (bpow_gt_0 radix2 1074). apply Rmult_integral in Z0 as [Z0|Z0]; [|lra]. rewrite Z0. ring.
    - apply sub_parts; [exact F3|exact Fm|]. apply Rabs_le_inv in EM. apply Rabs_le_inv in T || idtac.
      apply Rle_trans with 100000000; [|exact BB]. apply Rabs_le. pose proof (Rabs_le_inv _ _ B1). pose proof (Rabs_le_inv _ _ B2). pose proof (Rabs_le_inv _ _ B3). lra. }
  destruct D as (FD & f & Ef & QD). split; [exact FD|]. clearbody d. rewrite QD. apply Rabs_le_inv in Ef. apply Rabs_le_inv in EM.
  set (w := fR a - (fR xp + fR i)) in *. assert (W : - / 2000000000 <= (fR a - fR (dadd xp i)) - w <= / 2000000000) by (unfold w; lra).
  set (v := fR a - fR (dadd xp i)) in *. rewrite U in Ef. unfold Rabs in L. unfold Rabs at 2. destruct (Rcase_abs w) as [S|S].
  - split; [nra|]. split; [split; intro H; [exfalso; nra|lra]|]. apply Rabs_le. split; nra.
  - split; [nra|]. split; [split; intro H; [lra|nra]|]. apply Rabs_le. split; nra.
Qed.

Theorem arc_ij_core tan_ cabs g xp yp xc yc i j : good_atan tan_ -> (forall x, cabs x = dabs x) ->
  on_machine xp -> on_machine yp -> on_machine xc -> on_machine yc -> on_machine i -> on_machine j ->
  let cx := fR xc - (fR xp + fR i) in let cy := fR yc - (fR yp + fR j) in let R := sqrt (fR i * fR i + fR j * fR j) in
  let c := chord (fR xp) (fR yp) (fR xc) (fR yc) in
  let long := if Rlt_dec 0 (if (g =? 3)%Z then cross (- fR i) (- fR j) cx cy else - cross (- fR i) (- fR j) cx cy) then false else true in
  R <= 999999 -> / 1000 <= c <= 7 / 4 * R ->
  let r := dsqrt (dadd (sq (dsub (dadd xp i) xp)) (sq (dsub (dadd yp j) yp))) in
  finite (arc_length tan_ cabs xp yp xc yc r long) /\ Rabs (fR (arc_length tan_ cabs xp yp xc yc r long) - turned g (- fR i) (- fR j) cx cy R c) <= / 1000000.
Proof.
  intros GA CA OX OY OX' OY' OI OJ cx cy R c long RB CB. cbv zeta. set (xm := dadd xp i). set (ym := dadd yp j). unfold long. clear long.
  destruct OX as [FX BX], OY as [FY BY], OX' as [FX' BX'], OY' as [FY' BY'], OI as [FI BI], OJ as [FJ BJ].
  unfold size in *. change (amount xp) with (fR xp) in *. change (amount yp) with (fR yp) in *. change (amount xc) with (fR xc) in *. change (amount yc) with (fR yc) in *.
  change (amount i) with (fR i) in *. change (amount j) with (fR j) in *.
  assert (L : 1000000 * 1000 <= limit). { unfold limit. eapply Rle_trans; [|apply (bpow_le radix2 40); lia]. cbn. lra. }
  pose proof (radius_close xp yp i j FX FY FI FJ ltac:(lra) ltac:(lra) ltac:(lra) ltac:(lra)) as C. cbv zeta in C. fold R in C. fold xm ym in C.
  set (r := dsqrt (dadd (sq (dsub xm xp)) (sq (dsub ym yp)))) in *. destruct C as (Fr & Er & _). pose proof u_val as U.
  assert (T : bpow radix2 (-500) <= / 1000000000000). { eapply Rle_trans; [apply (bpow_le radix2 (-500) (-60)); lia|]. cbn. lra. }
  assert (Er' : Rabs (fR r - R) <= / 37000000) by (eapply Rle_trans; [exact Er|]; rewrite U; lra). clear Er.
  pose proof (Rabs_le_inv _ _ Er') as RI.
  pose proof (arc_near tan_ cabs xp yp xc yc r (if Rlt_dec 0 (if (g =? 3)%Z then cross (- fR i) (- fR j) cx cy else - cross (- fR i) (- fR j) cx cy) then false else true)
    GA CA FX FY FX' FY' ltac:(lra) ltac:(lra) ltac:(lra) ltac:(lra) Fr ltac:(lra)) as A. cbv zeta in A. fold c in A. specialize (A ltac:(lra)).
  destruct A as (FA & PA & EA). split; [exact FA|].
  destruct (shorter_near c (fR r) R ltac:(lra) ltac:(lra) ltac:(lra)) as [NS NL].
  unfold turned. pose proof pi_range as PR.
  assert (SB : - (4 * fR r) <= shorter (fR r) c <= 4 * fR r).
  { unfold shorter. pose proof (asin_bound_lt (c / (2 * fR r))) as AB.
    assert (Q : 0 < c / (2 * fR r) < 1).
    { split; [apply Rdiv_lt_0_compat; lra|]. apply (Rmult_lt_reg_r (2 * fR r)); [lra|]. unfold Rdiv at 1. rewrite Rmult_assoc, Rinv_l by lra. lra. }
    specialize (AB ltac:(lra)). set (s := asin _) in *. split; nra. }
  assert (LB : longer (fR r) c <= 12 * fR r) by (unfold longer; nra).
  assert (K : forall v w, Rabs (v - w) <= 300 * u * w -> w <= 12 * fR r -> Rabs (v - w) <= 41 / 100000000).
  { intros v w H W. eapply Rle_trans; [exact H|]. rewrite U. lra. }
  destruct (Rlt_dec 0 (if (g =? 3)%Z then _ else _)) as [D|D]; cbn beta iota in EA |- *.
  - pose proof (K _ _ EA ltac:(lra)) as E. apply Rabs_le_inv in E. apply Rabs_le_inv in NS. apply Rabs_le. lra.
  - pose proof (K _ _ EA ltac:(lra)) as E. apply Rabs_le_inv in E. apply Rabs_le_inv in NL. apply Rabs_le. lra.
Qed.

Theorem arc_ij_near tan_ cabs g xp yp xc yc i j : good_atan tan_ -> (forall x, cabs x = dabs x) -> (g = 2 \/ g = 3)%Z ->
  on_machine xp -> on_machine yp -> on_machine xc -> on_machine yc -> on_machine i -> on_machine j ->
  let cx := fR xc - (fR xp + fR i) in let cy := fR yc - (fR yp + fR j) in let R := sqrt (fR i * fR i + fR j * fR j) in
  let c := chord (fR xp) (fR yp) (fR xc) (fR yc) in
  / 1000 <= Rabs (fR i) -> / 1000 <= Rabs (fR j) -> / 1000 <= Rabs cx -> / 1000 <= Rabs cy -> neighbours (- fR i) (- fR j) cx cy ->
  R <= 999999 -> / 1000 <= c <= 7 / 4 * R ->
  finite (arc_ij tan_ cabs g xp yp xc yc i j) /\ Rabs (fR (arc_ij tan_ cabs g xp yp xc yc i j) - turned g (- fR i) (- fR j) cx cy R c) <= / 1000000.
Proof.
  intros GA CA G OX OY OX' OY' OI OJ cx cy R c MI MJ MX MY NB RB CB.
  unfold arc_ij. set (xm := dadd xp i). set (ym := dadd yp j). set (mv := negb (deqb xm dzero) || negb (deqb ym dzero)).
  assert (B1 : negb mv = true -> deqb xm dzero = true). { unfold mv. destruct (deqb xm dzero); [reflexivity|discriminate]. }
  assert (B2 : negb mv = true -> deqb ym dzero = true). { unfold mv. destruct (deqb xm dzero), (deqb ym dzero); try reflexivity; discriminate. }
  pose proof (seen xp i xp (negb mv) OX OI OX B1) as S1. pose proof (seen yp j yp (negb mv) OY OJ OY B2) as S2.
  pose proof (seen xp i xc (negb mv) OX OI OX' B1) as S3. pose proof (seen yp j yc (negb mv) OY OJ OY' B2) as S4. rewrite negb_involutive in S1, S2, S3, S4.
  replace (fR xp - (fR xp + fR i)) with (- fR i) in S1 by ring. replace (fR yp - (fR yp + fR j)) with (- fR j) in S2 by ring. rewrite Rabs_Ropp in S1, S2.
  specialize (S1 MI). specialize (S2 MJ). specialize (S3 MX). specialize (S4 MY). cbv zeta in S1, S2, S3, S4. fold xm in S1, S3. fold ym in S2, S4.
  destruct S1 as (F1 & N1 & E1 & _). destruct S2 as (F2 & N2 & E2 & _). destruct S3 as (F3 & N3 & E3 & _). destruct S4 as (F4 & N4 & E4 & _).
  rewrite (quadrant_of _ _ F1 F2 N1 N2), (quadrant_of _ _ F3 F4 N3 N4), (quarter_same _ _ _ _ E1 E2), (quarter_same _ _ _ _ E3 E4).
  fold cx cy. rewrite (long_of g (- fR i) (- fR j) cx cy _ _ G NB).
  exact (arc_ij_core tan_ cabs g xp yp xc yc i j GA CA OX OY OX' OY' OI OJ RB CB).
Qed.
