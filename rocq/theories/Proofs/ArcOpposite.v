(** The direction of an arc between opposite quadrants in doubles. *)
From Coq Require Import Reals Lra.
From Flocq Require Import Core BinarySingleNaN.
From Verif Require Import Model.Base Model.Double Model.PathGeom Spec.DoubleSpec Spec.MotionSpec Spec.DrillSpec Spec.ArcSpec Spec.RadiusSpec Proofs.DoubleFacts Proofs.FloatReal Proofs.MotionFloats
  Proofs.DrillFloats Proofs.ArcFloats Proofs.RelFloats Proofs.SpiralFloats Proofs.ArcProofs Proofs.RadiusFloats Proofs.ArcEnds.

Open Scope R_scope.

Lemma whole_good tan_ : whole_atan tan_ -> good_atan tan_.
Proof.
  intros W x F L. destruct (W x F) as [FL H]. split; [exact FL|]. rewrite (Rabs_pos_eq (atan (amount x))) in H; [exact H|].
  destruct L as [L|<-]; [rewrite <- atan_0; left; now apply atan_increasing|rewrite atan_0; lra].
Qed.

Lemma atan_near_any t e : t <> 0 -> Rabs e <= / 1000 -> Rabs (atan (t * (1 + e)) - atan t) <= 101 / 100 * Rabs e * Rabs (atan t).
Proof.
  assert (P : forall t, 0 < t -> 0 < atan t) by (intros s S; rewrite <- atan_0; now apply atan_increasing).
  intros N E. destruct (Rtotal_order t 0) as [L|[L|L]]; [|contradiction|].
  - pose proof (atan_near (- t) e ltac:(lra) E) as H. pose proof (P (- t) ltac:(lra)) as A. replace (- t * (1 + e)) with (- (t * (1 + e))) in H by ring. rewrite !atan_opp in *.
    replace (- atan (t * (1 + e)) - - atan t) with (- (atan (t * (1 + e)) - atan t)) in H by ring. rewrite Rabs_Ropp in H. rewrite (Rabs_left (atan t)) by lra. exact H.
  - rewrite (Rabs_pos_eq (atan t)) by (left; now apply P). now apply atan_near.
Qed.

Lemma atan_small t : Rabs (atan t) <= 2.
Proof. pose proof (atan_bound t). pose proof pi_range. apply Rabs_le. lra. Qed.

(** The angle as it is calculated from coordinates that are a little off. *)
Lemma angle_near tan_ px py X Y : whole_atan tan_ -> finite px -> finite py -> / 1000 <= Rabs X <= 10000000 -> / 1000 <= Rabs Y <= 10000000 ->
  Rabs (fR px - X) <= / 1000000 * Rabs X -> Rabs (fR py - Y) <= / 1000000 * Rabs Y ->
  finite (dmul (tan_ (ddiv py px)) deg) /\ Rabs (fR (dmul (tan_ (ddiv py px)) deg) - atan (Y / X) * fR deg) <= / 100.
Proof.
  intros W Fx Fy BX BY EX EY.
  assert (NX : X <> 0) by (intros ->; rewrite Rabs_R0 in BX; lra). assert (NY : Y <> 0) by (intros ->; rewrite Rabs_R0 in BY; lra).
  assert (FA : forall v V, V <> 0 -> Rabs (v - V) <= / 1000000 * Rabs V -> exists e, Rabs e <= / 1000000 /\ v = V * (1 + e)).
  { intros v V N H. exists ((v - V) / V). split; [|field; exact N]. unfold Rdiv. rewrite Rabs_mult, Rabs_inv. pose proof (Rabs_pos_lt V N) as P.
    apply (Rmult_le_reg_r (Rabs V)); [exact P|]. rewrite Rmult_assoc, Rinv_l by lra. lra. }
  destruct (FA _ _ NX EX) as (e & E & Qx). destruct (FA _ _ NY EY) as (f & F & Qy). clear FA EX EY.
  pose proof (Rabs_le_inv _ _ E) as E'. pose proof (Rabs_le_inv _ _ F) as F'.
  assert (N1 : fR px <> 0) by (rewrite Qx; apply Rmult_integral_contrapositive_currified; lra).
  pose proof (ddiv_rounds py px Fy Fx N1) as D.
  assert (Q : exists h, Rabs h <= 3 / 1000000 /\ fR py / fR px = Y / X * (1 + h)).
  { exists ((f - e) / (1 + e)). split.
    - unfold Rdiv. rewrite Rabs_mult, Rabs_inv, (Rabs_pos_eq (1 + e)) by lra. apply (Rmult_le_reg_r (1 + e)); [lra|]. rewrite Rmult_assoc, Rinv_l by lra.
      rewrite Rmult_1_r. apply Rabs_le. lra.
    - rewrite Qx, Qy. field. split; lra. }
  destruct Q as (h & H & Qq). pose proof (Rabs_le_inv _ _ H) as H'.
  set (t := Y / X) in *.
  assert (T0 : t <> 0) by (unfold t, Rdiv; apply Rmult_integral_contrapositive_currified; [exact NY|now apply Rinv_neq_0_compat]).
  assert (TB : / 10000000000 <= Rabs t <= 10000000000).
  { unfold t, Rdiv. rewrite Rabs_mult, Rabs_inv. pose proof (Rabs_pos_lt X NX) as P. split; apply (Rmult_le_reg_r (Rabs X)); try exact P; rewrite ?Rmult_assoc, ?Rinv_l by lra; nra. }
  assert (QB : Rabs (fR py / fR px) = Rabs t * (1 + h)) by (rewrite Qq, Rabs_mult, (Rabs_pos_eq (1 + h)) by lra; reflexivity).
  assert (B1 : bpow radix2 (-1022) <= / 100000000000). { eapply Rle_trans; [apply (bpow_le radix2 (-1022) (-40)); lia|]. cbn. lra. }
  assert (B2 : 100000000000 <= bpow radix2 1023). { eapply Rle_trans; [|apply (bpow_le radix2 40 1023); lia]. cbn. lra. }
  destruct (rounds_normal _ _ D) as [FD ED].
  { unfold normal. rewrite QB. split; nra. }
  assert (ND : exists k, Rabs k <= / 100000 /\ fR (ddiv py px) = t * (1 + k)).
  { exists ((fR (ddiv py px) - t) / t). split; [|field; exact T0]. unfold Rdiv. rewrite Rabs_mult, Rabs_inv. pose proof (Rabs_pos_lt t T0) as P.
    apply (Rmult_le_reg_r (Rabs t)); [exact P|]. rewrite Rmult_assoc, Rinv_l, Rmult_1_r by lra. rewrite QB in ED.
    replace (fR (ddiv py px) - t) with ((fR (ddiv py px) - fR py / fR px) + t * h) by (rewrite Qq; ring).
    eapply Rle_trans; [apply Rabs_triang|]. rewrite (Rabs_mult t h). cbn [pow] in ED. nra. }
  destruct ND as (k & K & Qk). clear D ED QB Qq H H' h.
  destruct (W _ FD) as [FT ET]. change (amount (tan_ (ddiv py px))) with (fR (tan_ (ddiv py px))) in ET. change (amount (ddiv py px)) with (fR (ddiv py px)) in ET. rewrite Qk in ET.
  pose proof (atan_near_any t k T0 ltac:(lra)) as A. pose proof (atan_small t) as S1. pose proof (atan_small (t * (1 + k))) as S2.
  assert (B3 : bpow radix2 (-500) <= / 100000000000). { eapply Rle_trans; [apply (bpow_le radix2 (-500) (-40)); lia|]. cbn. lra. }
  assert (A' : Rabs (atan (t * (1 + k)) - atan t) <= 3 / 100000). { eapply Rle_trans; [exact A|]. pose proof (Rabs_pos k). pose proof (Rabs_pos (atan t)). nra. }
  set (T := tan_ (ddiv py px)) in *.
  assert (ET' : Rabs (fR T - atan t) <= 5 / 100000).
  { replace (fR T - atan t) with ((fR T - atan (t * (1 + k))) + (atan (t * (1 + k)) - atan t)) by ring. eapply Rle_trans; [apply Rabs_triang|].
    cbn [pow] in ET. lra. }
  assert (DG : 57 <= fR deg <= 58).
  { replace deg with (S754_finite false 8063664102031864 (-47)) by (vm_compute; reflexivity). unfold fR, SF2R, F2R, cond_Zopp. cbn. lra. }
  assert (FG : finite deg) by (vm_compute; exact Logic.I || reflexivity).
  assert (M : Rabs (fR T * fR deg) <= 200).
  { rewrite Rabs_mult, (Rabs_pos_eq (fR deg)) by lra. apply Rabs_le_inv in ET'. apply Rabs_le_inv in S1. assert (Rabs (fR T) <= 3) by (apply Rabs_le; lra). nra. }
  assert (RM : finite (dmul T deg) /\ Rabs (fR (dmul T deg) - fR T * fR deg) <= / 1000).
  { destruct (mul_parts T deg FT FG ltac:(lra)) as (FM & e' & h' & E1 & H1 & Q1). split; [exact FM|]. rewrite Q1. pose proof eta_500 as ET5. pose proof u_val as U. pose proof eta_pos as EP.
    replace (fR T * fR deg * (1 + e') + h' - fR T * fR deg) with (fR T * fR deg * e' + h') by ring. eapply Rle_trans; [apply Rabs_triang|]. rewrite Rabs_mult.
    assert (Rabs (fR T * fR deg) * Rabs e' <= 200 * u) by (apply Rmult_le_compat; try apply Rabs_pos; lra). lra. }
  destruct RM as [FM EM]. split; [exact FM|].
  replace (fR (dmul T deg) - atan t * fR deg) with ((fR (dmul T deg) - fR T * fR deg) + (fR T - atan t) * fR deg) by ring.
  eapply Rle_trans; [apply Rabs_triang|]. rewrite (Rabs_mult (fR T - atan t)), (Rabs_pos_eq (fR deg)) by lra. nra.
Qed.

(** The sine of the angle between two directions. *)
Lemma angle_apart px py cx cy : px <> 0 -> cx <> 0 -> (px * px + py * py) * (cx * cx + cy * cy) <= 16 * (cross px py cx cy * cross px py cx cy) ->
  / 4 <= Rabs (atan (cy / cx) - atan (py / px)).
Proof.
  intros P C H. set (a := atan (cy / cx)). set (b := atan (py / px)).
  assert (SQ : forall w v, w <> 0 -> sqrt (1 + Rsqr (v / w)) * sqrt (1 + Rsqr (v / w)) = (w * w + v * v) / (w * w)).
  { intros w v N. rewrite sqrt_sqrt; [unfold Rsqr; field; exact N|]. pose proof (Rle_0_sqr (v / w)). lra. }
  assert (SP : forall w v, 0 < sqrt (1 + Rsqr (v / w))). { intros w v. apply sqrt_lt_R0. pose proof (Rle_0_sqr (v / w)). lra. }
  assert (S : sin (a - b) * (sqrt (1 + Rsqr (cy / cx)) * sqrt (1 + Rsqr (py / px)) * (px * cx)) = cross px py cx cy).
  { rewrite sin_minus. unfold a, b. rewrite !sin_atan, !cos_atan. pose proof (SP cx cy). pose proof (SP px py).
    set (u1 := sqrt (1 + Rsqr (cy / cx))) in *. set (u2 := sqrt (1 + Rsqr (py / px))) in *. unfold cross. field. repeat split; lra. }
  assert (PP : 0 < px * px) by nra. assert (CC : 0 < cx * cx) by nra.
  assert (S2 : sin (a - b) * sin (a - b) * ((px * px + py * py) * (cx * cx + cy * cy)) = cross px py cx cy * cross px py cx cy).
  { rewrite <- S. pose proof (SQ cx cy C) as Q1. pose proof (SQ px py P) as Q2. set (u1 := sqrt (1 + Rsqr (cy / cx))) in *. set (u2 := sqrt (1 + Rsqr (py / px))) in *.
    replace (sin (a - b) * (u1 * u2 * (px * cx)) * (sin (a - b) * (u1 * u2 * (px * cx)))) with (sin (a - b) * sin (a - b) * ((u1 * u1) * (u2 * u2) * (px * px * (cx * cx)))) by ring.
    rewrite Q1, Q2. field. split; assumption. }
  set (M := (px * px + py * py) * (cx * cx + cy * cy)) in *.
  assert (MP : 0 < M) by (unfold M; apply Rmult_lt_0_compat; nra).
  assert (SS : / 16 <= sin (a - b) * sin (a - b)). { apply (Rmult_le_reg_r M); [exact MP|]. rewrite S2. lra. }
  assert (LE : Rabs (sin (a - b)) <= Rabs (a - b)).
  { destruct (Rtotal_order (a - b) 0) as [L|[L|L]].
    - pose proof (sin_lt_x (- (a - b)) ltac:(lra)) as Q. rewrite sin_neg in Q. rewrite (Rabs_left (a - b)) by lra. apply Rabs_le. split; [lra|].
      destruct (Rle_dec (- (a - b)) PI) as [K|K].
      + pose proof (sin_ge_0 (- (a - b)) ltac:(lra) K) as Z. rewrite sin_neg in Z. lra.
      + pose proof (SIN_bound (a - b)). pose proof pi_range. lra.
    - rewrite L, sin_0, Rabs_R0. lra.
    - pose proof (sin_lt_x (a - b) L) as Q. rewrite (Rabs_pos_eq (a - b)) by lra. apply Rabs_le. split; [|lra].
      destruct (Rle_dec (a - b) PI) as [K|K].
      + pose proof (sin_ge_0 (a - b) ltac:(lra) K). lra.
      + pose proof (SIN_bound (a - b)). pose proof pi_range. lra. }
  eapply Rle_trans; [|exact LE]. pose proof (Rabs_pos (sin (a - b))) as A0.
  assert (AA : Rabs (sin (a - b)) * Rabs (sin (a - b)) = sin (a - b) * sin (a - b)) by (rewrite <- Rabs_mult; apply Rabs_pos_eq; nra). nra.
Qed.

Lemma long_opposite g px py cx cy tp tc : (g = 2 \/ g = 3)%Z -> opposite px py cx cy -> finite tp -> finite tc ->
  Rabs (fR tp - atan (py / px) * fR deg) <= / 100 -> Rabs (fR tc - atan (cy / cx) * fR deg) <= / 100 ->
  long_arc g (quarter_of px py) (quarter_of cx cy) tp tc = if Rlt_dec 0 (if (g =? 3)%Z then cross px py cx cy else - cross px py cx cy) then false else true.
Proof.
  intros G (A & B & H) Fp Fc Ep Ec. assert (P : px <> 0) by nra. assert (C : cx <> 0) by nra.
  pose proof (angle_apart px py cx cy P C H) as D.
  assert (DG : 57 <= fR deg <= 58).
  { replace deg with (S754_finite false 8063664102031864 (-47)) by (vm_compute; reflexivity). unfold fR, SF2R, F2R, cond_Zopp. cbn. lra. }
  assert (X : cross px py cx cy = px * cx * (cy / cx - py / px)) by (unfold cross; field; split; assumption).
  apply Rabs_le_inv in Ep. apply Rabs_le_inv in Ec.
  pose proof (ltb_below tp tc Fp Fc) as L1. pose proof (ltb_below tc tp Fc Fp) as L2.
  assert (Q : cross px py cx cy < 0 /\ dltb tp tc = true /\ dltb tc tp = false \/ 0 < cross px py cx cy /\ dltb tp tc = false /\ dltb tc tp = true).
  { destruct (Rtotal_order (cy / cx) (py / px)) as [L|[L|L]].
    - right. pose proof (atan_increasing _ _ L) as I. rewrite Rabs_left in D by lra. split; [rewrite X; nra|].
      assert (fR tc < fR tp) by nra. split; [|now apply L2]. destruct (dltb tp tc); [|reflexivity]. destruct L1 as [L1 _]. specialize (L1 eq_refl). lra.
    - rewrite L, Rminus_eq_0, Rabs_R0 in D. lra.
    - left. pose proof (atan_increasing _ _ L) as I. rewrite Rabs_pos_eq in D by lra. split; [rewrite X; nra|].
      assert (fR tp < fR tc) by nra. split; [now apply L1|]. destruct (dltb tc tp); [|reflexivity]. destruct L2 as [L2 _]. specialize (L2 eq_refl). lra. }
  unfold long_arc, quarter_of. change (dgtb tc tp) with (dltb tp tc).
  assert (O : (0 < px /\ cx < 0 \/ px < 0 /\ 0 < cx) /\ (0 < py /\ cy < 0 \/ py < 0 /\ 0 < cy)).
  { assert (K : forall v w, v * w < 0 -> 0 < v /\ w < 0 \/ v < 0 /\ 0 < w).
    { intros v w K. destruct (Rtotal_order v 0) as [L|[->|L]]; [right|lra|left]; (split; [exact L|]); nra. }
    split; now apply K. }
  clear D Ep Ec X H L1 L2 A B. set (w := cross px py cx cy) in *. clearbody w.
  destruct Q as [(Q & -> & ->)|(Q & -> & ->)]; destruct O as [[O1|O1] [O2|O2]]; destruct (Rlt_dec 0 px), (Rlt_dec 0 py), (Rlt_dec 0 cx), (Rlt_dec 0 cy); try lra;
    destruct G as [-> | ->]; cbn; destruct (Rlt_dec 0 _); try reflexivity; exfalso; lra.
Qed.

Theorem arc_ij_opposite tan_ cabs g xp yp xc yc i j : whole_atan tan_ -> (forall x, cabs x = dabs x) -> (g = 2 \/ g = 3)%Z ->
  on_machine xp -> on_machine yp -> on_machine xc -> on_machine yc -> on_machine i -> on_machine j ->
  let cx := fR xc - (fR xp + fR i) in let cy := fR yc - (fR yp + fR j) in let R := sqrt (fR i * fR i + fR j * fR j) in
  let c := chord (fR xp) (fR yp) (fR xc) (fR yc) in
  / 1000 <= Rabs (fR i) -> / 1000 <= Rabs (fR j) -> / 1000 <= Rabs cx -> / 1000 <= Rabs cy -> opposite (- fR i) (- fR j) cx cy ->
  R <= 999999 -> / 1000 <= c <= 7 / 4 * R ->
  finite (arc_ij tan_ cabs g xp yp xc yc i j) /\ Rabs (fR (arc_ij tan_ cabs g xp yp xc yc i j) - turned g (- fR i) (- fR j) cx cy R c) <= / 1000000.
Proof.
  intros GA CA G OX OY OX' OY' OI OJ cx cy R c MI MJ MX MY NB RB CB.
  unfold arc_ij. set (xm := dadd xp i). set (ym := dadd yp j). set (mv := negb (deqb xm dzero) || negb (deqb ym dzero)).
  assert (B1 : negb mv = true -> deqb xm dzero = true). { unfold mv. destruct (deqb xm dzero); [reflexivity|discriminate]. }
  assert (B2 : negb mv = true -> deqb ym dzero = true). { unfold mv. destruct (deqb xm dzero), (deqb ym dzero); try reflexivity; discriminate. }
  pose proof (seen xp i xp (negb mv) OX OI OX B1) as S1. pose proof (seen yp j yp (negb mv) OY OJ OY B2) as S2.
  pose proof (seen xp i xc (negb mv) OX OI OX' B1) as S3. pose proof (seen yp j yc (negb mv) OY OJ OY' B2) as S4. rewrite negb_involutive in S1, S2, S3, S4.
  replace (fR xp - (fR xp + fR i)) with (- fR i) in S1 by ring. replace (fR yp - (fR yp + fR j)) with (- fR j) in S2 by ring.
  assert (MI' : / 1000 <= Rabs (- fR i)) by (rewrite Rabs_Ropp; exact MI). assert (MJ' : / 1000 <= Rabs (- fR j)) by (rewrite Rabs_Ropp; exact MJ).
  specialize (S1 MI'). specialize (S2 MJ'). specialize (S3 MX). specialize (S4 MY). cbv zeta in S1, S2, S3, S4. fold xm in S1, S3. fold ym in S2, S4.
  fold cx in S3. fold cy in S4.
  destruct S1 as (F1 & N1 & E1 & D1). destruct S2 as (F2 & N2 & E2 & D2). destruct S3 as (F3 & N3 & E3 & D3). destruct S4 as (F4 & N4 & E4 & D4).
  assert (BB : forall v, on_machine v -> - 1000000 <= fR v <= 1000000). { intros v [_ Q]. unfold size in Q. change (amount v) with (fR v) in Q. apply Rabs_le_inv in Q. lra. }
  pose proof (BB _ OX). pose proof (BB _ OY). pose proof (BB _ OX'). pose proof (BB _ OY'). pose proof (BB _ OI). pose proof (BB _ OJ).
  assert (UI : Rabs (- fR i) <= 10000000) by (apply Rabs_le; lra). assert (UJ : Rabs (- fR j) <= 10000000) by (apply Rabs_le; lra).
  assert (UX : Rabs cx <= 10000000) by (unfold cx; apply Rabs_le; lra). assert (UY : Rabs cy <= 10000000) by (unfold cy; apply Rabs_le; lra).
  rewrite (quadrant_of _ _ F1 F2 N1 N2), (quadrant_of _ _ F3 F4 N3 N4), (quarter_same _ _ _ _ E1 E2), (quarter_same _ _ _ _ E3 E4).
  destruct (angle_near tan_ _ _ _ _ GA F1 F2 (conj MI' UI) (conj MJ' UJ) D1 D2) as [FP EP].
  destruct (angle_near tan_ _ _ _ _ GA F3 F4 (conj MX UX) (conj MY UY) D3 D4) as [FC EC].
  rewrite (long_opposite g (- fR i) (- fR j) cx cy _ _ G NB FP FC EP EC).
  exact (arc_ij_core tan_ cabs g xp yp xc yc i j (whole_good _ GA) CA OX OY OX' OY' OI OJ RB CB).
Qed.
