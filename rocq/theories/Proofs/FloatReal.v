(** The operations of [Model.Double] are the correctly rounded real
    operations: a bridge from SpecFloat to Flocq's theorems. *)
From Coq Require Import Reals Lra Psatz.
From Flocq Require Import Core Relative BinarySingleNaN.
From Verif Require Import Model.Base Model.Double Spec.DoubleSpec Proofs.Tactics Proofs.DoubleFacts.

Open Scope R_scope.

Definition fR (x : dbl) : R := SF2R radix2 x.
Definition rnd : R -> R := round radix2 (FLT_exp (-1074) 53) ZnearestE.

Lemma prec_pos : Prec_gt_0 53. Proof. reflexivity. Qed.
Lemma prec_emax : Prec_lt_emax 53 1024. Proof. reflexivity. Qed.
#[global] Existing Instance prec_pos.
#[global] Existing Instance prec_emax.

Lemma round_aux_same s m e l :
  SpecFloat.binary_round_aux 53 1024 s m e l = BinarySingleNaN.binary_round_aux 53 1024 mode_NE s m e l.
Proof.
  unfold SpecFloat.binary_round_aux, BinarySingleNaN.binary_round_aux.
  destruct (shr_fexp 53 1024 m e l) as [r1 e1].
  assert (C : round_nearest_even (shr_m r1) (loc_of_shr_record r1)
              = choice_mode mode_NE s (shr_m r1) (loc_of_shr_record r1)).
  { unfold round_nearest_even, choice_mode, Round.cond_incr, Round.round_N.
    destruct (loc_of_shr_record r1) as [|[]]; try reflexivity. destruct (Z.even (shr_m r1)); reflexivity. }
  rewrite C. destruct (shr_fexp 53 1024 _ e1 loc_Exact) as [r2 e2].
  destruct (shr_m r2); try reflexivity.
Qed.

Lemma finite_valid x : finite x <-> valid_binary 53 1024 x = true /\ is_finite_SF x = true.
Proof.
  destruct x; cbn [finite valid_binary is_finite_SF]; intuition congruence.
Qed.

(** The outcome of a rounding: the rounded value, or an infinity. *)
Definition rounds_to (z : dbl) (r : R) : Prop :=
  if Rlt_bool (Rabs (rnd r)) (bpow radix2 1024) then finite z /\ fR z = rnd r
  else exists s, z = S754_infinity s.

Lemma rounds_intro z r s :
  valid_binary 53 1024 z = true /\
  (if Rlt_bool (Rabs (rnd r)) (bpow radix2 1024) then
    SF2R radix2 z = rnd r /\ is_finite_SF z = true /\ sign_SF z = s
  else z = binary_overflow 53 1024 mode_NE s) -> rounds_to z r.
Proof.
  intros [V H]. unfold rounds_to. destruct (Rlt_bool _ _).
  - destruct H as (H1 & H2 & _). split; [now apply finite_valid|exact H1].
  - exists s. exact H.
Qed.

Lemma rnd_0 : rnd 0 = 0.
Proof. unfold rnd. apply round_0. apply valid_rnd_N. Qed.

Lemma rounds_zero s : rounds_to (S754_zero s) 0.
Proof.
  unfold rounds_to. rewrite rnd_0, Rabs_R0, Rlt_bool_true by apply bpow_gt_0. split; [exact I|reflexivity].
Qed.

Lemma dmul_rounds x y : finite x -> finite y -> rounds_to (dmul x y) (fR x * fR y).
Proof.
  intros Fx Fy. destruct x as [sx|sx| |sx mx ex]; try contradiction;
    destruct y as [sy|sy| |sy my ey]; try contradiction; unfold dmul; cbn [SFmul];
    try (unfold fR; cbn [SF2R]; rewrite ?Rmult_0_l, ?Rmult_0_r; apply rounds_zero).
  apply (rounds_intro _ _ (xorb sx sy)). rewrite round_aux_same.
  exact (Bmult_correct_aux 53 1024 _ _ mode_NE sx mx ex Fx sy my ey Fy).
Qed.

Lemma ddiv_rounds x y : finite x -> finite y -> fR y <> 0 -> rounds_to (ddiv x y) (fR x / fR y).
Proof.
  intros Fx Fy N. destruct y as [sy|sy| |sy my ey]; try contradiction.
  destruct x as [sx|sx| |sx mx ex]; try contradiction; unfold ddiv; cbn [SFdiv].
  - unfold fR, Rdiv; cbn [SF2R]; rewrite Rmult_0_l; apply rounds_zero.
  - apply (rounds_intro _ _ (xorb sx sy)).
    pose proof (Bdiv_correct_aux 53 1024 _ _ mode_NE sx mx ex sy my ey) as H. cbv zeta in H.
    destruct (SFdiv_core_binary _ _ _ _ _ _) as [[mz ez] lz]. rewrite round_aux_same. exact H.
Qed.

Lemma ratio_rounds s num den : (0 <= num)%Z -> (0 < den)%Z ->
  rounds_to (d_of_ratio s num den) ((if s then -1 else 1) * (IZR num / IZR den)).
Proof.
  intros Hn Hd. unfold d_of_ratio. destruct (Z.eqb_spec num 0) as [->|N].
  - unfold Rdiv. rewrite Rmult_0_l, Rmult_0_r. apply rounds_zero.
  - destruct num as [|p|p]; try lia. destruct den as [|q|q]; try lia.
    apply (rounds_intro _ _ s).
    pose proof (Bdiv_correct_aux 53 1024 _ _ mode_NE s p 0 false q 0) as H. cbv zeta in H.
    destruct (SFdiv_core_binary _ _ _ _ _ _) as [[mz ez] lz]. rewrite round_aux_same.
    replace (xorb s false) with s in H by (destruct s; reflexivity).
    replace ((if s then -1 else 1) * (IZR (Z.pos p) / IZR (Z.pos q)))
      with (F2R (Float radix2 (cond_Zopp s (Z.pos p)) 0) / F2R (Float radix2 (cond_Zopp false (Z.pos q)) 0)).
    + exact H.
    + unfold F2R; cbn [Fnum Fexp bpow cond_Zopp]. rewrite !Rmult_1_r.
      destruct s; cbn [cond_Zopp]; [change (Z.neg p) with (- Z.pos p)%Z|]; rewrite ?opp_IZR; unfold Rdiv; ring.
Qed.

Lemma dsqrt_rounds x : finite x -> 0 <= fR x -> finite (dsqrt x) /\ fR (dsqrt x) = rnd (sqrt (fR x)).
Proof.
  intros F P. destruct x as [s|s| |s m e]; try contradiction; unfold dsqrt; cbn [SFsqrt].
  - unfold fR; cbn [SF2R]. rewrite sqrt_0, rnd_0. split; [exact I|reflexivity].
  - destruct s.
    { exfalso. unfold fR in P; cbn [SF2R cond_Zopp] in P. apply (Rle_not_lt _ _ P). now apply F2R_lt_0. }
    pose proof (Bsqrt_correct_aux 53 1024 _ _ mode_NE m e F) as H. cbv zeta in H.
    destruct (SFsqrt_core_binary _ _ _ _) as [[mz ez] lz]. rewrite round_aux_same.
    destruct H as (V & H & K). split; [|exact H]. apply finite_valid. split; [exact V|apply K].
Qed.

(** ** Addition *)

Lemma normalize_rounds z e b : rounds_to (SpecFloat.binary_normalize 53 1024 z e b) (F2R (Float radix2 z e)).
Proof.
  assert (Pos : forall s m, rounds_to (SpecFloat.binary_round 53 1024 s m e)
                              (F2R (Float radix2 (cond_Zopp s (Z.pos m)) e))).
  { intros s m. apply (rounds_intro _ _ s).
    pose proof (binary_round_correct 53 1024 _ _ mode_NE s m e) as H. cbv zeta in H.
    replace (SpecFloat.binary_round 53 1024 s m e) with (BinarySingleNaN.binary_round 53 1024 mode_NE s m e); [exact H|].
    unfold BinarySingleNaN.binary_round, SpecFloat.binary_round.
    unfold shl_align_fexp. destruct (shl_align _ _ _). now rewrite round_aux_same. }
  destruct z as [|m|m]; cbn [SpecFloat.binary_normalize].
  - rewrite F2R_0. apply rounds_zero.
  - exact (Pos false m).
  - exact (Pos true m).
Qed.

Lemma fR_format x : finite x -> generic_format radix2 (FLT_exp (-1074) 53) (fR x) /\ Rabs (fR x) < bpow radix2 1024.
Proof.
  intro F. destruct x as [s|s| |s m e]; try contradiction; unfold fR; cbn [SF2R].
  - split; [apply generic_format_0|]. rewrite Rabs_R0. apply bpow_gt_0.
  - cbn [finite] in F. split.
    + apply generic_format_canonical. now apply (canonical_bounded 53 1024).
    + rewrite <- F2R_Zabs, abs_cond_Zopp. now apply (bounded_lt_emax 53 1024).
Qed.

Lemma finite_rounds x : finite x -> rounds_to x (fR x).
Proof.
  intro F. destruct (fR_format x F) as [G B]. unfold rounds_to.
  assert (E : rnd (fR x) = fR x) by (apply round_generic; [apply valid_rnd_N|exact G]).
  rewrite E, Rlt_bool_true by exact B. auto.
Qed.

Lemma F2R_align s m e ez : (ez <= e)%Z ->
  F2R (Float radix2 (cond_Zopp s (Z.pos (fst (shl_align m e ez)))) ez) = F2R (Float radix2 (cond_Zopp s (Z.pos m)) e).
Proof.
  intro H. rewrite (align_val m e ez H). rewrite (F2R_change_exp radix2 ez _ e) by exact H.
  apply F2R_eq. destruct s; cbn [cond_Zopp]; change (Zpower radix2 (e - ez)) with (2 ^ (e - ez))%Z; ring.
Qed.

Lemma dadd_rounds x y : finite x -> finite y -> rounds_to (dadd x y) (fR x + fR y).
Proof.
  intros Fx Fy. destruct x as [sx|sx| |sx mx ex]; try contradiction;
    destruct y as [sy|sy| |sy my ey]; try contradiction; unfold dadd; cbn [SFadd].
  - unfold fR; cbn [SF2R]. rewrite Rplus_0_l. destruct (Bool.eqb sx sy); apply rounds_zero.
  - unfold fR at 1; cbn [SF2R]. rewrite Rplus_0_l. now apply finite_rounds.
  - unfold fR at 2; cbn [SF2R]. rewrite Rplus_0_r. now apply finite_rounds.
  - set (ez := Z.min ex ey).
    replace (fR (S754_finite sx mx ex) + fR (S754_finite sy my ey)) with
      (F2R (Float radix2 (cond_Zopp sx (Z.pos (fst (shl_align mx ex ez))) + cond_Zopp sy (Z.pos (fst (shl_align my ey ez)))) ez)).
    + apply normalize_rounds.
    + unfold fR; cbn [SF2R]. rewrite <- (F2R_align sx mx ex ez), <- (F2R_align sy my ey ez) by (unfold ez; lia).
      unfold F2R; cbn [Fnum Fexp]. rewrite plus_IZR. ring.
Qed.

Lemma dopp_fR x : fR (dopp x) = - fR x.
Proof.
  destruct x as [s|s| |s m e]; unfold fR, dopp; cbn [SFopp SF2R]; try lra.
  rewrite <- F2R_Zopp. apply F2R_eq. destruct s; reflexivity.
Qed.

Lemma dsub_rounds x y : finite x -> finite y -> rounds_to (dsub x y) (fR x - fR y).
Proof.
  intros Fx Fy. rewrite dsub_dadd by assumption. unfold Rminus. rewrite <- dopp_fR.
  apply dadd_rounds; [exact Fx|]. now apply dopp_val.
Qed.

(** ** Scaled integer values *)

Lemma sval_fR x : finite x -> IZR (sval x) = fR x * bpow radix2 1074.
Proof.
  intro F. destruct x as [s|s| |s m e]; try contradiction; unfold fR, sval; cbn [SF2R].
  - now rewrite Rmult_0_l.
  - cbn [finite] in F. pose proof (bounded_exp _ _ F) as B. unfold F2R; cbn [Fnum Fexp]. unfold unit_exp.
    rewrite Rmult_assoc, <- bpow_plus. rewrite <- (IZR_Zpower radix2) by lia.
    change (Zpower radix2 (e + 1074)) with (2 ^ (e + 1074))%Z. rewrite <- mult_IZR. f_equal.
    destruct s; cbn [cond_Zopp]; ring.
Qed.

(** ** Error of one operation *)

(** A number in the normal range. *)
Definition normal (r : R) : Prop := bpow radix2 (-1022) <= Rabs r <= bpow radix2 1023.

Lemma rnd_error r : bpow radix2 (-1022) <= Rabs r ->
  Rabs (rnd r - r) <= / 2 ^ 53 * Rabs r.
Proof.
  intro H. pose proof (relative_error_N_FLT radix2 (-1074) 53 eq_refl (fun x => negb (Z.even x)) r) as E.
  unfold rnd. eapply Rle_trans; [apply E; exact H|]. apply Rmult_le_compat_r; [apply Rabs_pos|].
  cbn. lra.
Qed.

Lemma rnd_lt r k : (-1022 <= k)%Z -> Rabs r <= bpow radix2 k -> Rabs (rnd r) <= bpow radix2 k.
Proof.
  intros Hk H. unfold rnd. apply abs_round_le_generic; [apply FLT_exp_valid; reflexivity|apply valid_rnd_N| |exact H].
  apply generic_format_bpow. unfold FLT_exp. lia.
Qed.

Lemma rounds_normal z r : rounds_to z r -> normal r ->
  finite z /\ Rabs (fR z - r) <= / 2 ^ 53 * Rabs r.
Proof.
  intros H [L U]. unfold rounds_to in H. rewrite Rlt_bool_true in H.
  - destruct H as [F E]. rewrite E. split; [exact F|]. now apply rnd_error.
  - eapply Rle_lt_trans; [apply (rnd_lt r 1023); [lia|exact U]|]. now apply bpow_lt.
Qed.
