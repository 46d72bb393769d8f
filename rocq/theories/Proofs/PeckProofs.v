(** Deep drilling: what a block is reported to have travelled. *)
From Coq Require Import Reals Lra.
From Flocq Require Import Core BinarySingleNaN.
From Verif Require Import Model.Base Model.Attr Model.Double Model.Calc Model.Macro Model.Verifiers Model.Splitter Model.PathGeom Model.PathCalc
  Spec.DoubleSpec Spec.RoundSpec Spec.SplitSpec Spec.PathSpec Spec.MotionSpec Spec.DrillSpec Spec.ArcSpec Proofs.Tactics Proofs.DoubleFacts Proofs.FloatReal Proofs.MotionFloats
  Proofs.MacroAssignProofs Proofs.PathFrame Proofs.DrillFloats Proofs.DrillProofs Proofs.RelFloats Proofs.ArcEnds Proofs.FineProofs.

Open Scope R_scope.

Lemma int_fR x n : is_int x n -> fR x = IZR n.
Proof.
  intros [F V]. pose proof (sval_fR x F) as E. rewrite V in E. unfold scaled, unit_exp in E. rewrite mult_IZR in E.
  change (IZR (2 ^ 1074)) with (IZR (Zpower radix2 1074)) in E. rewrite (IZR_Zpower radix2 1074) in E by lia.
  pose proof (bpow_gt_0 radix2 1074). apply Rmult_eq_reg_r in E; lra.
Qed.

Lemma fR_int x n : finite x -> fR x = IZR n -> is_int x n.
Proof.
  intros F E. split; [exact F|]. apply eq_IZR. rewrite sval_fR, E by exact F. unfold scaled, unit_exp. rewrite mult_IZR.
  change (IZR (2 ^ 1074)) with (IZR (Zpower radix2 1074)). rewrite (IZR_Zpower radix2 1074) by lia. reflexivity.
Qed.

Lemma floor_is x n : finite x -> IZR n <= fR x < IZR n + 1 -> is_int (d_floor x) n.
Proof.
  intros F B. destruct (floor_spec x F) as (k & I & D1 & D2). replace n with k; [exact I|].
  apply IZR_le in D1. apply IZR_lt in D2. rewrite sval_fR in D1, D2 by exact F. unfold scaled, unit_exp in D1, D2. rewrite mult_IZR in D1, D2.
  change (IZR (2 ^ 1074)) with (IZR (Zpower radix2 1074)) in D1, D2. rewrite (IZR_Zpower radix2 1074) in D1, D2 by lia.
  pose proof (bpow_gt_0 radix2 1074). apply Rmult_le_reg_r in D1; [|assumption]. apply Rmult_lt_reg_r in D2; [|assumption]. rewrite plus_IZR in D2.
  assert (k < n + 1)%Z by (apply lt_IZR; rewrite plus_IZR; lra). assert (n < k + 1)%Z by (apply lt_IZR; rewrite plus_IZR; lra). lia.
Qed.

Lemma fmod_is x y n : finite x -> finite y -> 0 < fR y -> (0 <= n)%Z -> 0 < fR x -> IZR n * fR y < fR x < (IZR n + 1) * fR y -> bpow radix2 (-1022) <= fR x - IZR n * fR y -> fR x <= bpow radix2 1000 ->
  finite (d_fmod x y) /\ Rabs (fR (d_fmod x y) - (fR x - IZR n * fR y)) <= / 2 ^ 53 * (fR x - IZR n * fR y).
Proof.
  intros Fx Fy Py N Px B T U.
  destruct x as [sx|sx| |sx mx ex]; try contradiction; [cbn in Px; lra|]. destruct y as [sy|sy| |sy my ey]; try contradiction; [cbn in Py; lra|].
  assert (SG : forall s m e, 0 < fR (S754_finite s m e) -> s = false).
  { intros s m e P. destruct s; [|reflexivity]. exfalso. unfold fR, SF2R, F2R, cond_Zopp in P. cbn [Fnum Fexp] in P. rewrite opp_IZR in P.
    pose proof (bpow_gt_0 radix2 e). pose proof (IZR_lt 0 (Z.pos m) eq_refl). nra. }
  rewrite (SG _ _ _ Px), (SG _ _ _ Py) in *. clear SG. cbn [d_fmod]. set (e := Z.min ex ey).
  set (X := (Z.pos mx * 2 ^ (ex - e))%Z). set (Y := (Z.pos my * 2 ^ (ey - e))%Z).
  assert (V : forall m k, (e <= k)%Z -> fR (S754_finite false m k) = IZR (Z.pos m * 2 ^ (k - e)) * bpow radix2 e).
  { intros m k L. unfold fR, SF2R, F2R, cond_Zopp. cbn [Fnum Fexp]. rewrite mult_IZR. change (2 ^ (k - e))%Z with (Zpower radix2 (k - e)).
    rewrite IZR_Zpower by lia. rewrite Rmult_assoc, <- bpow_plus. do 2 f_equal. lia. }
  pose proof (V mx ex ltac:(lia)) as VX. pose proof (V my ey ltac:(lia)) as VY. fold X in VX. fold Y in VY.
  rewrite VX, VY in *. pose proof (bpow_gt_0 radix2 e) as E.
  assert (B1 : (n * Y < X)%Z) by (apply lt_IZR; rewrite mult_IZR; nra).
  assert (B2 : (X < (n + 1) * Y)%Z) by (apply lt_IZR; rewrite mult_IZR, plus_IZR; nra).
  assert (M : (X mod Y)%Z = (X - n * Y)%Z). { symmetry. apply (Z.mod_unique_pos _ _ n); lia. }
  rewrite M. destruct (Z.eqb_spec (X - n * Y) 0) as [Z0|_]; [lia|].
  pose proof (normalize_rounds (X - n * Y) e false) as R. unfold F2R in R. cbn [Fnum Fexp] in R.
  replace (IZR X * bpow radix2 e - IZR n * (IZR Y * bpow radix2 e)) with (IZR (X - n * Y) * bpow radix2 e) in * by (rewrite minus_IZR, mult_IZR; ring).
  assert (P : 0 <= IZR (X - n * Y) * bpow radix2 e) by (apply Rmult_le_pos; [apply IZR_le; lia|lra]).
  destruct (rounds_normal _ _ R) as [F Q].
  { unfold normal. rewrite Rabs_pos_eq by exact P. split; [exact T|]. apply Rle_trans with (IZR X * bpow radix2 e); [|eapply Rle_trans; [exact U|apply bpow_le; lia]].
    apply Rmult_le_compat_r; [lra|]. apply IZR_le. assert (0 < Y)%Z by (apply lt_IZR; nra). nia. }
  split; [exact F|]. rewrite (Rabs_pos_eq (IZR _ * _)) in Q by exact P. exact Q.
Qed.

(** One operation on numbers below four thousand millions. *)
Definition off (x : dbl) (r d : R) : Prop := finite x /\ Rabs (fR x - r) <= d.

Lemma big_10 : 10000000000 <= bpow radix2 1023.
Proof. eapply Rle_trans; [|apply (bpow_le radix2 40); lia]. cbn. lra. Qed.

Lemma off_add x y a b d d' : off x a d -> off y b d' -> d <= / 1000 -> d' <= / 1000 -> Rabs (a + b) <= 3900000000 -> off (dadd x y) (a + b) (d + d' + / 2000000).
Proof.
  intros [Fx Ex] [Fy Ey] D D' B. pose proof u_val as U. pose proof big_10 as BB. apply Rabs_le_inv in Ex. apply Rabs_le_inv in Ey. apply Rabs_le_inv in B.
  assert (BS : Rabs (fR x + fR y) <= 4000000000) by (apply Rabs_le; lra).
  destruct (add_parts x y Fx Fy ltac:(lra)) as (F & e & E & Q). split; [exact F|]. rewrite Q.
  assert (Rabs ((fR x + fR y) * e) <= / 2000000). { rewrite Rabs_mult. apply Rle_trans with (4000000000 * u); [apply Rmult_le_compat; try apply Rabs_pos; assumption|rewrite U; lra]. }
  apply Rabs_le_inv in H. apply Rabs_le. lra.
Qed.

Lemma off_sub x y a b d d' : off x a d -> off y b d' -> d <= / 1000 -> d' <= / 1000 -> Rabs (a - b) <= 3900000000 -> off (dsub x y) (a - b) (d + d' + / 2000000).
Proof.
  intros [Fx Ex] [Fy Ey] D D' B. pose proof u_val as U. pose proof big_10 as BB. apply Rabs_le_inv in Ex. apply Rabs_le_inv in Ey. apply Rabs_le_inv in B.
  assert (BS : Rabs (fR x - fR y) <= 4000000000) by (apply Rabs_le; lra).
  destruct (sub_parts x y Fx Fy ltac:(lra)) as (F & e & E & Q). split; [exact F|]. rewrite Q.
  assert (Rabs ((fR x - fR y) * e) <= / 2000000). { rewrite Rabs_mult. apply Rle_trans with (4000000000 * u); [apply Rmult_le_compat; try apply Rabs_pos; assumption|rewrite U; lra]. }
  apply Rabs_le_inv in H. apply Rabs_le. lra.
Qed.

Lemma off_mul x y : finite x -> finite y -> Rabs (fR x * fR y) <= 4000000000 -> off (dmul x y) (fR x * fR y) (/ 2000000).
Proof.
  intros Fx Fy B. pose proof u_val as U. pose proof big_10 as BB. pose proof eta_500 as H5. pose proof eta_pos as H0.
  assert (T : bpow radix2 (-500) <= / 1000000000). { eapply Rle_trans; [apply (bpow_le radix2 (-500) (-40)); lia|]. cbn. lra. }
  destruct (mul_parts x y Fx Fy ltac:(lra)) as (F & e & h & E & H & Q). split; [exact F|]. rewrite Q.
  assert (K : Rabs (fR x * fR y * e) <= 4000000000 * u). { rewrite Rabs_mult. apply Rmult_le_compat; try apply Rabs_pos; assumption. }
  rewrite U in K. apply Rabs_le_inv in K. apply Rabs_le_inv in H. apply Rabs_le. lra.
Qed.

Lemma int_mul x y a b : is_int x a -> is_int y b -> (Z.abs (a * b) < 2 ^ 53)%Z -> is_int (dmul x y) (a * b).
Proof.
  intros X Y B. pose proof (int_fR _ _ X) as VX. pose proof (int_fR _ _ Y) as VY. destruct X as [Fx _], Y as [Fy _].
  assert (G : generic_format radix2 (FLT_exp (-1074) 53) (IZR (a * b))).
  { apply generic_format_FLT. exists (Float radix2 (a * b) 0); [unfold F2R; cbn; ring|exact B|cbn; lia]. }
  assert (L : Rabs (IZR (a * b)) <= bpow radix2 1023).
  { rewrite <- abs_IZR. eapply Rle_trans; [apply IZR_le, Z.lt_le_incl, B|]. eapply Rle_trans; [|apply (bpow_le radix2 53); lia]. cbn. lra. }
  rewrite mult_IZR, <- VX, <- VY in L. destruct (rounds_finite _ _ (dmul_rounds x y Fx Fy) L) as [F Q].
  apply fR_int; [exact F|]. rewrite Q, VX, VY, <- mult_IZR. apply round_generic; [apply valid_rnd_N|exact G].
Qed.

Lemma int_add x y a b : is_int x a -> is_int y b -> (Z.abs (a + b) < 2 ^ 53)%Z -> is_int (dadd x y) (a + b).
Proof.
  intros X Y B. pose proof (int_fR _ _ X) as VX. pose proof (int_fR _ _ Y) as VY. destruct X as [Fx _], Y as [Fy _].
  assert (G : generic_format radix2 (FLT_exp (-1074) 53) (IZR (a + b))).
  { apply generic_format_FLT. exists (Float radix2 (a + b) 0); [unfold F2R; cbn; ring|exact B|cbn; lia]. }
  assert (L : Rabs (IZR (a + b)) <= bpow radix2 1023).
  { rewrite <- abs_IZR. eapply Rle_trans; [apply IZR_le, Z.lt_le_incl, B|]. eapply Rle_trans; [|apply (bpow_le radix2 53); lia]. cbn. lra. }
  rewrite plus_IZR, <- VX, <- VY in L. destruct (rounds_finite _ _ (dadd_rounds x y Fx Fy) L) as [F Q].
  apply fR_int; [exact F|]. rewrite Q, VX, VY, <- plus_IZR. apply round_generic; [apply valid_rnd_N|exact G].
Qed.

Lemma strokes_are n q : strokes n q = (INR n * INR n + INR n) * q.
Proof. induction n as [|n IH]; [cbn; lra|]. cbn [strokes]. rewrite IH, S_INR. ring. Qed.

Lemma off_more x r d d' : off x r d -> d <= d' -> off x r d'.
Proof. intros [F E] L. split; [exact F|lra]. Qed.

Lemma peck_near x q y li n ret_ D W w : on_machine q -> / 1000 <= fR q -> off x D (/ 1000000000) -> off y W (/ 1000000000) -> (n <= 1000)%nat -> 0 <= W <= 2000000 ->
  (INR n + / 1000) * fR q <= D <= (INR n + 999 / 1000) * fR q -> D <= 2000000 -> (ret_ = 98 \/ ret_ = 99)%Z ->
  li = peck_linear x q \/ li = chip_linear x q -> peck x q y li ret_ = Ok w ->
  off (fst w) (peck_cut n (fR q) D) (3 / 1000000) /\
  off (snd w) (strokes n (fR q) + 2 * D - peck_cut n (fR q) D + W * if (ret_ =? 98)%Z then 2 else 1) (7 / 1000000).
Proof.
  intros [Fq Bq] Lq [Fx Ex] [Fy Ey] N WB B DB RT LL P. unfold size in Bq. change (amount q) with (fR q) in Bq. rewrite Rabs_pos_eq in Bq by lra.
  assert (NB : 0 <= INR n <= 1000). { split; [apply pos_INR|]. change 1000 with (INR 1000) || replace 1000 with (INR 1000) by (rewrite INR_IZR_INZ; reflexivity). now apply le_INR. }
  assert (NZ : INR n = IZR (Z.of_nat n)) by apply INR_IZR_INZ.
  pose proof (Rabs_le_inv _ _ Ex) as Ex'. pose proof (Rabs_le_inv _ _ Ey) as Ey'. pose proof u_val as U. pose proof big_10 as BB.
  set (Q := fR q) in *. set (v := INR n) in *.
  assert (NQ : 0 <= v * Q) by (apply Rmult_le_pos; lra). assert (NQ2 : v * Q <= 2000000) by lra.
  assert (NNQ : v * (v * Q) <= 2000000000) by nra. assert (NNQ0 : 0 <= v * (v * Q)) by nra.
  assert (XL : (v + / 2000) * Q <= fR x) by nra. assert (XU : fR x <= (v + 1999 / 2000) * Q) by nra. assert (XP : 0 < fR x) by nra.
  (* how many strokes *)
  assert (QR : v + / 2000 <= fR x / Q <= v + 1999 / 2000).
  { split; apply (Rmult_le_reg_r Q); try lra; unfold Rdiv; rewrite Rmult_assoc, Rinv_l by lra; lra. }
  assert (B1 : bpow radix2 (-1022) <= / 1000000000). { eapply Rle_trans; [apply (bpow_le radix2 (-1022) (-40)); lia|]. cbn. lra. }
  destruct (rounds_normal _ _ (ddiv_rounds x q Fx Fq ltac:(fold Q; lra))) as [FD ED].
  { fold Q. unfold normal. rewrite Rabs_pos_eq by lra. lra. }
  fold Q in ED. rewrite (Rabs_pos_eq (fR x / Q)) in ED by lra.
  assert (ED' : Rabs (fR (ddiv x q) - fR x / Q) <= / 1000000). { eapply Rle_trans; [exact ED|]. cbn [pow]. lra. }
  apply Rabs_le_inv in ED'.
  assert (FL : is_int (d_floor (ddiv x q)) (Z.of_nat n)) by (apply floor_is; [exact FD|]; rewrite <- NZ; fold v; lra).
  pose proof (int_fR _ _ FL) as FV. rewrite <- NZ in FV. fold v in FV.
  set (k := d_floor (ddiv x q)) in *.
  (* what remains *)
  assert (FM : off (d_fmod x q) (D - v * Q) (/ 100000000) /\ 0 < fR (d_fmod x q)).
  { destruct (fmod_is x q (Z.of_nat n) Fx Fq ltac:(fold Q; lra) ltac:(lia) XP) as [F E].
    - rewrite <- NZ. fold v Q. nra.
    - rewrite <- NZ. fold v Q. nra.
    - eapply Rle_trans; [|apply (bpow_le radix2 40 1000); lia]. cbn. lra.
    - rewrite <- NZ in E. fold v Q in E.
      assert (K : Rabs (fR (d_fmod x q) - (fR x - v * Q)) <= / 1000000000 /\ Rabs (fR (d_fmod x q) - (fR x - v * Q)) <= / 2 * (fR x - v * Q)).
      { assert (0 <= fR x - v * Q) by nra. split; eapply Rle_trans; [exact E| |exact E|]; cbn [pow]; nra. }
      destruct K as [K1 K2]. apply Rabs_le_inv in K1. apply Rabs_le_inv in K2. split; [split; [exact F|apply Rabs_le; lra]|nra]. }
  destruct FM as [OM PM].
  (* cutting *)
  assert (Fk : finite k) by (destruct FL; assumption).
  assert (F5 : finite (dz 5)) by (vm_compute; reflexivity).
  assert (V5 : fR (dz 5) = 5) by (apply (int_fR _ 5), d_of_Z_int; lia).
  destruct (rounds_normal _ _ (ddiv_rounds q (dz 5) Fq F5 ltac:(lra))) as [Fd Ed].
  { rewrite V5. fold Q. unfold normal. rewrite Rabs_pos_eq by lra. lra. }
  rewrite V5 in Ed. fold Q in Ed. rewrite (Rabs_pos_eq (Q / 5)) in Ed by lra. set (d := ddiv q (dz 5)) in *.
  assert (Ed' : Rabs (fR d - Q / 5) <= / 1000000000). { eapply Rle_trans; [exact Ed|]. cbn [pow]. lra. }
  assert (O1 : off (dmul q k) (v * Q) (/ 2000000)).
  { pose proof (off_mul q k Fq Fk) as O. rewrite FV in O. fold Q in O. replace (Q * v) with (v * Q) in O by ring. apply O. apply Rabs_le. lra. }
  assert (O2 : off (dmul d k) (v * (Q / 5)) (/ 2000000 + / 500000000)).
  { apply Rabs_le_inv in Ed'. pose proof (off_mul d k Fd Fk) as O. rewrite FV in O. destruct O as [F O]; [apply Rabs_le; split; nra|].
    assert (DV : Rabs (fR d * v - v * (Q / 5)) <= / 500000000).
    { replace (fR d * v - v * (Q / 5)) with (v * (fR d - Q / 5)) by ring. rewrite Rabs_mult, (Rabs_pos_eq v) by lra.
      assert (Z0 : Rabs (fR d - Q / 5) <= / 2 ^ 53 * (Q / 5)) by exact Ed. apply Rle_trans with (v * (/ 2 ^ 53 * (Q / 5))); [apply Rmult_le_compat_l; lra|].
      cbn [pow]. nra. }
    split; [exact F|]. apply Rabs_le_inv in O. apply Rabs_le_inv in DV. apply Rabs_le. lra. }
  pose proof (off_add _ _ _ _ _ _ O1 O2 ltac:(lra) ltac:(lra) ltac:(apply Rabs_le; lra)) as O3.
  pose proof (off_add _ _ _ _ _ _ O3 OM ltac:(lra) ltac:(lra) ltac:(apply Rabs_le; lra)) as O4.
  assert (LI : off li (peck_cut n Q D) (21 / 10000000)).
  { unfold peck_cut. fold v. destruct LL as [-> | ->].
    - unfold peck_linear. fold k d. replace (D + v * (Q / 5)) with (v * Q + v * (Q / 5) + (D - v * Q)) by ring. eapply off_more; [exact O4|lra].
    - unfold chip_linear. fold k d. eapply off_more; [apply (off_add x _ D _ (/ 1000000000) _ (conj Fx Ex) O2); [lra|lra|apply Rabs_le; lra]|lra]. }
  (* the whole way *)
  assert (I2 : is_int (dadd (dmul k k) k) (Z.of_nat n * Z.of_nat n + Z.of_nat n)).
  { apply int_add; [apply int_mul; [exact FL|exact FL|nia]|exact FL|nia]. }
  unfold peck in P. fold k in P. unfold d_to_int in P. rewrite (d_trunc_int _ _ I2) in P.
  replace ((int_min <=? _) && (_ <=? int_max))%Z with true in P by (symmetry; apply andb_true_intro; unfold int_min, int_max; split; apply Z.leb_le; nia).
  cbn [bind] in P. set (s := (Z.of_nat n * Z.of_nat n + Z.of_nat n)%Z) in *.
  assert (SI : is_int (dz s) s) by (apply d_of_Z_int; unfold s; nia).
  assert (SV : fR (dz s) = v * v + v) by (rewrite (int_fR _ _ SI); unfold s; rewrite plus_IZR, mult_IZR, <- NZ; reflexivity).
  assert (G : dgtb (d_fmod x q) dzero = true) by (change (dltb dzero (d_fmod x q) = true); apply ltb_below; [exact Logic.I|destruct OM; assumption|exact PM]).
  rewrite G in P. injection P as <-. cbn [fst snd]. split; [eapply off_more; [exact LI|lra]|].
  assert (O5 : off (dmul (dz s) q) ((v * v + v) * Q) (/ 2000000)).
  { pose proof (off_mul (dz s) q ltac:(destruct SI; assumption) Fq) as O. rewrite SV in O. fold Q in O. apply O. apply Rabs_le. split; nra. }
  assert (TW : forall z Z0 dd, off z Z0 dd -> Rabs Z0 <= 2000000 -> dd <= / 1000 -> off (dmul (dz 2) z) (2 * Z0) (2 * dd + / 2000000)).
  { intros z Z0 dd [Fz Ez] BZ DD. assert (F2 : finite (dz 2)) by (vm_compute; reflexivity). pose proof (off_mul (dz 2) z F2 Fz) as O. rewrite fR_2 in O.
    apply Rabs_le_inv in Ez. apply Rabs_le_inv in BZ. destruct O as [F O]; [apply Rabs_le; lra|]. split; [exact F|]. apply Rabs_le_inv in O. apply Rabs_le. lra. }
  assert (O6 : off (dmul (dz (if (ret_ =? 99)%Z then 1 else 2)) y) (W * if (ret_ =? 98)%Z then 2 else 1) (/ 1900000)).
  { destruct RT as [-> | ->]; cbn [Z.eqb Pos.eqb].
    - replace (W * 2) with (2 * W) by ring. eapply off_more; [apply (TW y W (/ 1000000000)); [split; assumption|apply Rabs_le; lra|lra]|lra].
    - assert (F1 : finite (dz 1)) by (vm_compute; reflexivity). assert (V1 : fR (dz 1) = 1) by (apply (int_fR _ 1), d_of_Z_int; lia).
      pose proof (off_mul (dz 1) y F1 Fy) as O. rewrite V1 in O. destruct O as [F O]; [apply Rabs_le; lra|]. split; [exact F|]. apply Rabs_le_inv in O. apply Rabs_le. lra. }
  assert (RB : 0 <= (W * if (ret_ =? 98)%Z then 2 else 1) <= 4000000) by (destruct (ret_ =? 98)%Z; lra).
  pose proof (off_add _ _ _ _ _ _ O5 O6 ltac:(lra) ltac:(lra) ltac:(apply Rabs_le; split; nra)) as O7.
  assert (O8 : off (twice x) (2 * D) (/ 1900000)). { eapply off_more; [apply (TW x D (/ 1000000000)); [split; assumption|apply Rabs_le; lra|lra]|lra]. }
  pose proof (off_add _ _ _ _ _ _ O7 O8 ltac:(lra) ltac:(lra) ltac:(apply Rabs_le; split; nra)) as O9.
  assert (PB : 0 <= peck_cut n Q D <= 4000000) by (unfold peck_cut; fold v; lra).
  pose proof (off_sub _ _ _ _ _ _ O9 LI ltac:(lra) ltac:(lra) ltac:(apply Rabs_le; split; nra)) as O10.
  rewrite strokes_are. fold v.
  replace ((v * v + v) * Q + 2 * D - peck_cut n Q D + W * (if (ret_ =? 98)%Z then 2 else 1))
    with ((v * v + v) * Q + W * (if (ret_ =? 98)%Z then 2 else 1) + 2 * D - peck_cut n Q D) by ring.
  eapply off_more; [exact O10|lra].
Qed.

Lemma travel_off xp yp x y : on_machine xp -> on_machine yp -> on_machine x -> on_machine y ->
  off (line2_to xp yp x y) (way (amount x - amount xp) (amount y - amount yp) 0) (/ 10000000) /\ 0 <= way (amount x - amount xp) (amount y - amount yp) 0 <= 4000000.
Proof.
  intros [F1 B1] [F2 B2] [F3 B3] [F4 B4]. unfold size in *. change amount with fR in *.
  assert (L : 1000000 * 1000 <= limit). { unfold limit. eapply Rle_trans; [|apply (bpow_le radix2 40); lia]. cbn. lra. }
  pose proof (line2_near _ _ _ _ (rounded_sub xp x F1 F3 ltac:(lra) ltac:(lra)) (rounded_sub yp y F2 F4 ltac:(lra) ltac:(lra))) as N.
  assert (WE : way (fR x - fR xp) (fR y - fR yp) 0 = sqrt ((fR xp - fR x) * (fR xp - fR x) + (fR yp - fR y) * (fR yp - fR y))) by (unfold way; f_equal; ring).
  rewrite WE.
  assert (S : sqrt ((fR xp - fR x) * (fR xp - fR x) + (fR yp - fR y) * (fR yp - fR y)) <= 4000000).
  { eapply Rle_trans; [apply line2_bound|]. apply Rabs_le_inv in B1. apply Rabs_le_inv in B2. apply Rabs_le_inv in B3. apply Rabs_le_inv in B4.
    assert (Rabs (fR xp - fR x) <= 2000000) by (apply Rabs_le; lra). assert (Rabs (fR yp - fR y) <= 2000000) by (apply Rabs_le; lra). lra. }
  assert (C : close 8 (bpow radix2 (-500)) (line2 (dsub xp x) (dsub yp y)) (sqrt ((fR xp - fR x) * (fR xp - fR x) + (fR yp - fR y) * (fR yp - fR y))) 4000000).
  { apply near_close; [exact N|split; [apply sqrt_pos|exact S]|lra]. }
  destruct C as (F & E & _). split; [split; [exact F|]|split; [apply sqrt_pos|exact S]]. eapply Rle_trans; [exact E|]. rewrite u_val.
  assert (T : bpow radix2 (-500) <= / 1000000000). { eapply Rle_trans; [apply (bpow_le radix2 (-500) (-40)); lia|]. cbn. lra. } lra.
Qed.

Lemma apart_off x y : on_machine x -> on_machine y -> off (dabs (dsub x y)) (Rabs (fR x - fR y)) (/ 1000000000) /\ 0 <= Rabs (fR x - fR y) <= 2000000.
Proof.
  intros [Fx Bx] [Fy By]. unfold size in *. change amount with fR in *. apply Rabs_le_inv in Bx. apply Rabs_le_inv in By. pose proof big_10 as BB.
  assert (B : Rabs (fR x - fR y) <= 2000000) by (apply Rabs_le; lra). destruct (sub_parts x y Fx Fy ltac:(lra)) as (F & e & E & Q).
  split; [|split; [apply Rabs_pos|exact B]]. split; [apply dabs_finite; exact F|]. rewrite dabs_fR. eapply Rle_trans; [apply Rabs_triang_inv2|]. rewrite Q.
  replace ((fR x - fR y) * (1 + e) - (fR x - fR y)) with ((fR x - fR y) * e) by ring. rewrite Rabs_mult.
  apply Rle_trans with (2000000 * u); [apply Rmult_le_compat; try apply Rabs_pos; assumption|rewrite u_val; lra].
Qed.

Section Peck.
Open Scope string_scope.
Open Scope list_scope.
Open Scope Z_scope.
Variables tan_ log cabs : dbl -> dbl.
Variable stale : Z.
Variable mc : machine.
Hypothesis axes : proper_axes mc.

Theorem pecked inch line b c mv c' mv' pl ret_ a1 a2 a3 ox oy z r q xp yp zp n : b <> [] -> no_tool b -> plain_codes b -> motion_code b c 83 ->
  in_force (code_of programmings) b (c_prog c) 90 -> in_force (code_of planes) b (c_plane c) pl -> tool_axes pl a1 a2 a3 ->
  in_force (code_of returns) b (c_return c) ret_ -> In ret_ [98; 99] -> mc_no_y mc = false -> cd_z_incremental (mc_cnc mc) = false -> p_holes (c_path c) = 0 ->
  block_value a1 b ox -> block_value a2 b oy -> block_value a3 b (Some z) -> block_value "R" b (Some r) -> block_value "Q" b (Some q) -> block_value "K" b None ->
  evaluate tan_ log cabs stale mc inch line b c mv = (c', mv', None) ->
  position a1 c = Some xp -> position a2 c = Some yp -> position a3 c = Some zp ->
  let x := or_else ox xp in let y := or_else oy yp in
  on_machine xp -> on_machine yp -> on_machine zp -> on_machine x -> on_machine y -> on_machine z -> on_machine r -> on_machine q ->
  let depth := Rabs (amount r - amount z) in
  (n <= 1000)%nat -> (/ 1000 <= amount q)%R -> ((INR n + / 1000) * amount q <= depth <= (INR n + 999 / 1000) * amount q)%R ->
  finite (cut c') /\ (Rabs (amount (cut c') - peck_cut n (amount q) depth) <= / 100000)%R /\
  finite (rapid c') /\
  (Rabs (amount (rapid c') - (peck_rapid n ret_ (amount zp) (amount r) (amount q) depth + way (amount x - amount xp) (amount y - amount yp) 0)) <= / 100000)%R.
Proof.
  intros NE NT PL MC P L TA RT RR NY ZI PH BX BY BZ BR BQ BK E X0 Y0 Z0 x y MXp MYp MZp MX MY MZ MR MQ depth N LQ B.
  destruct (fine_block tan_ log cabs stale mc axes inch line b c mv c' mv' 83 pl ret_ a1 a2 a3 ox oy z r q NE NT PL MC ltac:(cbn; auto) P L TA RT NY PH BX BY BZ BR BQ BK E)
    as (zp' & xp' & yp' & w & A & A1 & A2 & W & M).
  rewrite X0 in A1. rewrite Y0 in A2. rewrite Z0 in A. injection A as <-. injection A1 as <-. injection A2 as <-. rewrite ZI in W.
  fold x y in M. unfold hole_to, moved in M. injection M as M1 M2. unfold cut, rapid. rewrite M1, M2.
  destruct (apart_off r z MR MZ) as [OD DB]. destruct (apart_off zp r MZp MR) as [OW WB]. change (fR r - fR z)%R with (amount r - amount z)%R in OD, DB. fold depth in OD, DB.
  unfold drill_q in W. cbn [Z.eqb Pos.eqb] in W.
  assert (RT' : ret_ = 98 \/ ret_ = 99) by (cbn in RR; intuition).
  destruct (peck_near _ q _ _ n ret_ _ _ w MQ LQ OD OW N WB B ltac:(lra) RT' (or_introl eq_refl) W) as [O1 O2]. change (fR q) with (amount q) in O1, O2.
  destruct (travel_off xp yp x y MXp MYp MX MY) as [OT TB].
  destruct O1 as [F1 E1]. split; [exact F1|]. split; [eapply Rle_trans; [exact E1|lra]|].
  assert (SB : (0 <= INR n <= 1000)%R). { split; [apply pos_INR|]. replace 1000%R with (INR 1000) by (rewrite INR_IZR_INZ; reflexivity). now apply le_INR. }
  set (T := way _ _ _) in *. change (Rabs (fR zp - fR r)) with (Rabs (amount zp - amount r)) in *.
  assert (RB : (Rabs (peck_rapid n ret_ (amount zp) (amount r) (amount q) depth + T) <= 3900000000)%R).
  { unfold peck_rapid, peck_cut. rewrite strokes_are. set (v := INR n) in *. set (Q := amount q) in *. set (WW := Rabs (amount zp - amount r)) in *. clearbody v Q WW T depth.
    assert (NQ : (0 <= v * Q <= 2000000)%R) by (split; [apply Rmult_le_pos; lra|lra]). assert (NN : (0 <= v * (v * Q) <= 2000000000)%R) by (split; [apply Rmult_le_pos; lra|]; apply Rle_trans with (1000 * 2000000)%R; [apply Rmult_le_compat; lra|lra]).
    assert (R2 : (0 <= WW * (if ret_ =? 98 then 2 else 1) <= 4000000)%R) by (destruct (ret_ =? 98); lra).
    replace ((v * v + v) * Q)%R with (v * (v * Q) + v * Q)%R by ring. apply Rabs_le. lra. }
  pose proof (off_add _ _ _ _ _ _ O2 OT ltac:(lra) ltac:(lra) RB) as [F2 E2]. split; [exact F2|]. eapply Rle_trans; [exact E2|lra].
Qed.
End Peck.
