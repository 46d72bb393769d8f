(** Which numbers the settings editor can write, and how. *)
From Coq Require Import Reals Lra Psatz.
From Flocq Require Import Core Relative BinarySingleNaN.
From Verif Require Import Model.Base Model.Double Model.Editor Spec.Text Spec.EnumSpec Spec.SettingsSpec Spec.DoubleSpec Spec.EditorSpec.
From Verif Require Import Proofs.Tactics Proofs.StringFacts Proofs.DoubleFacts Proofs.FloatReal Proofs.SettingsProofs.

Local Open Scope Z_scope.

Lemma rounds_finite z r : rounds_to z r -> (forall b, z <> S754_infinity b) -> finite z.
Proof.
  unfold rounds_to. destruct (Rlt_bool _ _); [tauto|]. intros [s ->] H. now destruct (H s).
Qed.

Lemma ratio_finite s n d : 0 <= n -> 0 < d -> (forall b, d_of_ratio s n d <> S754_infinity b) -> finite (d_of_ratio s n d).
Proof. intros N D. eapply rounds_finite, ratio_rounds; assumption. Qed.

Lemma pow10_pos e : 0 <= e -> 0 < 10 ^ e.
Proof. intros. apply Z.pow_pos_nonneg; lia. Qed.

Lemma decimal_finite neg n e : 0 <= n -> (forall b, decimal neg n e <> S754_infinity b) -> finite (decimal neg n e).
Proof.
  intros N. unfold decimal. destruct (Z.leb_spec 0 e).
  - apply ratio_finite; [|lia]. pose proof (pow10_pos e ltac:(lia)). nia.
  - apply ratio_finite; [exact N|]. apply pow10_pos. lia.
Qed.

Lemma int_finite n : int_min <= n <= int_max -> finite (d_of_Z n).
Proof.
  intros R. pose proof (normalize_rounds n 0 false) as H. unfold d_of_Z.
  unfold rounds_to in H. rewrite Rlt_bool_true in H; [apply H|].
  eapply Rle_lt_trans; [apply (rnd_lt _ 32); [lia|]|apply bpow_lt; lia].
  unfold F2R. cbn [Fnum Fexp bpow]. rewrite Rmult_1_r, <- abs_IZR. change (IZR (Z.abs n) <= IZR 4294967296)%R.
  apply IZR_le. unfold int_min, int_max in R. lia.
Qed.

(** ** Singles *)

Lemma prec24 : Prec_gt_0 24. Proof. reflexivity. Qed.
Lemma emax128 : Prec_lt_emax 24 128. Proof. reflexivity. Qed.

Lemma round_aux_24 s m e l :
  SpecFloat.binary_round_aux 24 128 s m e l = BinarySingleNaN.binary_round_aux 24 128 mode_NE s m e l.
Proof.
  unfold SpecFloat.binary_round_aux, BinarySingleNaN.binary_round_aux.
  destruct (shr_fexp 24 128 m e l) as [r1 e1].
  assert (C : round_nearest_even (shr_m r1) (loc_of_shr_record r1)
              = choice_mode mode_NE s (shr_m r1) (loc_of_shr_record r1)).
  { unfold round_nearest_even, choice_mode, Round.cond_incr, Round.round_N.
    destruct (loc_of_shr_record r1) as [|[]]; try reflexivity. destruct (Z.even (shr_m r1)); reflexivity. }
  rewrite C. destruct (shr_fexp 24 128 _ e1 loc_Exact) as [r2 e2].
  destruct (shr_m r2); try reflexivity.
Qed.

(** Rounding to the nearest single. *)
Definition rnd24 : R -> R := round radix2 (FLT_exp (-149) 24) ZnearestE.

Definition signed_ratio (s : bool) (n d : Z) : R := ((if s then -1 else 1) * (IZR n / IZR d))%R.

Lemma f_ratio_rounds s n d : 0 <= n -> 0 < d ->
  (if Rlt_bool (Rabs (rnd24 (signed_ratio s n d))) (bpow radix2 128)
   then SF2R radix2 (f_of_ratio s n d) = rnd24 (signed_ratio s n d) /\ is_finite_SF (f_of_ratio s n d) = true /\
        valid_binary 24 128 (f_of_ratio s n d) = true
   else f_of_ratio s n d = S754_infinity s).
Proof.
  intros Hn Hd. unfold f_of_ratio, signed_ratio. destruct (Z.eqb_spec n 0) as [->|N].
  - unfold Rdiv. rewrite Rmult_0_l, Rmult_0_r. unfold rnd24. rewrite round_0 by apply valid_rnd_N.
    rewrite Rabs_R0, Rlt_bool_true by apply bpow_gt_0. auto.
  - destruct n as [|p|p]; try lia. destruct d as [|q|q]; try lia.
    pose proof (Bdiv_correct_aux 24 128 prec24 emax128 mode_NE s p 0 false q 0) as H. cbv zeta in H.
    destruct (SFdiv_core_binary _ _ _ _ _ _) as [[mz ez] lz]. rewrite round_aux_24.
    replace (xorb s false) with s in H by (destruct s; reflexivity).
    replace ((if s then -1 else 1) * (IZR (Z.pos p) / IZR (Z.pos q)))%R
      with (F2R (Float radix2 (cond_Zopp s (Z.pos p)) 0) / F2R (Float radix2 (cond_Zopp false (Z.pos q)) 0))%R.
    + change (round radix2 (fexp 24 128) (round_mode mode_NE)) with rnd24 in H.
      destruct (Rlt_bool _ _); [tauto|]. destruct H as [_ H]. exact H.
    + unfold F2R; cbn [Fnum Fexp bpow cond_Zopp]. rewrite !Rmult_1_r.
      destruct s; cbn [cond_Zopp]; [change (Z.neg p) with (- Z.pos p)%Z|]; rewrite ?opp_IZR; unfold Rdiv; ring.
Qed.

(** Widening is exact. *)
Lemma widen_exact f : valid_binary 24 128 f = true -> is_finite_SF f = true -> finite (widen f) /\ fR (widen f) = SF2R radix2 f.
Proof.
  intros V F. destruct f as [s|s| |s m e]; try discriminate; cbn [widen]; [split; [exact I|reflexivity]|].
  cbn [valid_binary] in V.
  assert (G : generic_format radix2 (FLT_exp (-1074) 53) (F2R (Float radix2 (cond_Zopp s (Z.pos m)) e))).
  { apply (generic_inclusion_mag radix2 (FLT_exp (-149) 24)).
    - intros _. unfold FLT_exp. lia.
    - apply generic_format_canonical. now apply (canonical_bounded 24 128). }
  assert (B : (Rabs (F2R (Float radix2 (cond_Zopp s (Z.pos m)) e)) < bpow radix2 1024)%R).
  { rewrite <- F2R_Zabs, abs_cond_Zopp. eapply Rlt_trans; [apply (bounded_lt_emax 24 128), V|]. apply bpow_lt. lia. }
  set (r := F2R (Float radix2 (cond_Zopp s (Z.pos m)) e)) in *.
  assert (K : forall z, rounds_to z r -> finite z /\ fR z = r).
  { intros z H. unfold rounds_to in H. assert (E : rnd r = r) by (apply round_generic; [apply valid_rnd_N|exact G]).
    rewrite E, Rlt_bool_true in H by exact B. exact H. }
  cbn [SF2R]. fold r. destruct (Z.leb_spec 0 e).
  - pose proof (ratio_rounds s (Z.pos m * 2 ^ e) 1 ltac:(nia) ltac:(lia)) as H1.
    apply K. replace r with ((if s then -1 else 1) * (IZR (Z.pos m * 2 ^ e) / IZR 1))%R; [exact H1|].
    unfold r, F2R. cbn [Fnum Fexp]. rewrite mult_IZR. change (2 ^ e) with (radix2 ^ e). rewrite (IZR_Zpower radix2 e) by lia.
    destruct s; cbn [cond_Zopp]; [change (Z.neg m) with (- Z.pos m)%Z; rewrite opp_IZR|]; lra.
  - assert (P : 0 < 2 ^ (- e)) by (apply Z.pow_pos_nonneg; lia).
    pose proof (ratio_rounds s (Z.pos m) (2 ^ (- e)) ltac:(lia) P) as H1.
    apply K. replace r with ((if s then -1 else 1) * (IZR (Z.pos m) / IZR (2 ^ (- e))))%R; [exact H1|].
    unfold r, F2R. cbn [Fnum Fexp]. change (2 ^ (- e)) with (radix2 ^ (- e)). rewrite (IZR_Zpower radix2 (- e)) by lia.
    rewrite bpow_opp. unfold Rdiv. rewrite Rinv_inv.
    destruct s; cbn [cond_Zopp]; [change (Z.neg m) with (- Z.pos m)%Z; rewrite opp_IZR|]; lra.
Qed.

Definition power10 (e : Z) : R := (if 0 <=? e then IZR (10 ^ e) else / IZR (10 ^ (- e)))%R.

(** The value of the axis table: the number rounded to a single. *)
Lemma single_rounds neg n e : 0 <= n -> (forall b, to_single neg n e <> S754_infinity b) ->
  finite (to_single neg n e) /\ fR (to_single neg n e) = rnd24 ((if neg then -1 else 1) * (IZR n * power10 e)).
Proof.
  intros N. unfold to_single, power10.
  assert (K : forall m d, 0 <= m -> 0 < d -> (forall b, widen (f_of_ratio neg m d) <> S754_infinity b) ->
    finite (widen (f_of_ratio neg m d)) /\ fR (widen (f_of_ratio neg m d)) = rnd24 (signed_ratio neg m d)).
  { intros m d M D I. pose proof (f_ratio_rounds neg m d M D) as H. destruct (Rlt_bool _ _).
    - destruct H as (E & F & V). rewrite <- E. now apply widen_exact.
    - rewrite H in I. now destruct (I neg). }
  destruct (Z.leb_spec 0 e); intros I.
  - destruct (K (n * 10 ^ e) 1) as [F E]; [pose proof (pow10_pos e ltac:(lia)); nia|lia|exact I|]. split; [exact F|].
    rewrite E. f_equal. unfold signed_ratio. rewrite mult_IZR. lra.
  - destruct (K n (10 ^ (- e))) as [F E]; [lia|apply pow10_pos; lia|exact I|]. split; [exact F|]. rewrite E. reflexivity.
Qed.

(** ** A text for every number *)

Definition exact_text (d : dbl) : string :=
  match d with
  | S754_zero s => (if s then "-0" else "0")%string
  | S754_finite s m e =>
      ((if s then "-" else "") ++
       if (0 <=? e)%Z then nat_to_string (Z.pos m * 2 ^ e)
       else nat_to_string (Z.pos m * 5 ^ (- e)) ++ "e-" ++ nat_to_string (- e))%string
  | _ => ""%string
  end.

Lemma fR_inj x y : finite x -> finite y -> fR x = fR y -> fR x <> 0%R -> x = y.
Proof.
  intros Fx Fy E N. destruct x as [sx|sx| |sx mx ex]; try contradiction.
  destruct y as [sy|sy| |sy my ey]; try contradiction.
  unfold fR in E. cbn [SF2R finite] in *.
  apply (canonical_bounded 53 1024 sx) in Fx. apply (canonical_bounded 53 1024 sy) in Fy.
  apply (canonical_unique _ _ _ _ Fx Fy) in E. injection E as E1 E2. subst ey.
  destruct sx, sy; cbn [cond_Zopp] in E1; try discriminate; injection E1 as <-; reflexivity.
Qed.

Lemma exact_value s n d x : 0 <= n -> 0 < d -> finite x -> fR x <> 0%R -> signed_ratio s n d = fR x -> d_of_ratio s n d = x.
Proof.
  intros N D F Z E. pose proof (ratio_rounds s n d N D) as H. change (rounds_to (d_of_ratio s n d) (signed_ratio s n d)) in H.
  rewrite E in H. pose proof (finite_rounds x F) as H'. unfold rounds_to in H, H'.
  destruct (Rlt_bool _ _).
  - destruct H as [F1 E1], H' as [_ E2]. apply fR_inj; [exact F1|exact F|congruence|congruence].
  - destruct H' as [b ->]. destruct F.
Qed.

Local Open Scope string_scope.

Lemma exact_text_reads d : finite d -> reads_double (exact_text d) d.
Proof.
  intros F. destruct d as [s|s| |s m e]; try contradiction; cbn [exact_text].
  - exists "", (if s then "-" else ""), s, "0", "", "", "", 0, 0, "". 
    split; [now destruct s|]. do 2 (split; [reflexivity|]). split; [destruct s; constructor|]. do 2 (split; [reflexivity|]).
    split; [now right|]. split; [repeat split; discriminate|]. split; [constructor|]. split; [now destruct s|discriminate].
  - assert (NZ : fR (S754_finite s m e) <> 0%R).
    { unfold fR. cbn [SF2R]. apply F2R_neq_0. destruct s; discriminate. }
    assert (SG : sign_text (if s then "-" else "") s) by (destruct s; constructor).
    destruct (Z.leb_spec 0 e) as [E|E].
    + assert (P : 0 <= Z.pos m * 2 ^ e) by nia. destruct (nat_to_string_spec _ P) as (A & B & C & _).
      exists "", (if s then "-" else ""), s, (nat_to_string (Z.pos m * 2 ^ e)), "", "", "", 0, (Z.pos m * 2 ^ e), "".
      rewrite !string_app_nil. split; [reflexivity|]. do 2 (split; [reflexivity|]). split; [exact SG|]. split; [exact B|]. split; [reflexivity|].
      split; [now right|]. split; [repeat split; auto|]. split; [constructor|].
      assert (V : d_of_ratio s (Z.pos m * 2 ^ e * 10 ^ 0) 1 = S754_finite s m e).
      { apply exact_value; [nia|lia|exact F|exact NZ|]. unfold signed_ratio, fR, F2R. cbn [SF2R]. unfold F2R. cbn [Fnum Fexp].
        rewrite !mult_IZR. change (2 ^ e) with (radix2 ^ e). rewrite (IZR_Zpower radix2 e) by lia.
        destruct s; cbn [cond_Zopp]; [change (Z.neg m) with (- Z.pos m)%Z; rewrite opp_IZR|]; cbn; lra. }
      split; [symmetry; exact V|discriminate].
    + set (k := - e) in *. assert (Pk : 0 < k) by (unfold k; lia).
      assert (P5 : 0 < 5 ^ k) by (apply Z.pow_pos_nonneg; lia).
      assert (P : 0 <= Z.pos m * 5 ^ k) by nia. destruct (nat_to_string_spec _ P) as (A & B & C & _).
      destruct (nat_to_string_spec k ltac:(lia)) as (A' & B' & C' & _).
      exists "", (if s then "-" else ""), s, (nat_to_string (Z.pos m * 5 ^ k)), "", "", ("e-" ++ nat_to_string k), (- k), (Z.pos m * 5 ^ k), "".
      rewrite !string_app_nil. split; [reflexivity|]. do 2 (split; [reflexivity|]). split; [exact SG|]. split; [exact B|]. split; [reflexivity|].
      split; [now right|]. split; [repeat split; auto|].
      split; [apply (exp_some "e" "-" true (nat_to_string k) k); [now left|constructor|repeat split; auto]|].
      assert (V : d_of_ratio s (Z.pos m * 5 ^ k) (10 ^ k) = S754_finite s m e).
      { apply exact_value; [exact P|apply pow10_pos; lia|exact F|exact NZ|]. unfold signed_ratio, fR. cbn [SF2R]. unfold F2R. cbn [Fnum Fexp].
        replace (10 ^ k) with (2 ^ k * 5 ^ k) by (rewrite <- Z.pow_mul_l; reflexivity). rewrite !mult_IZR.
        assert (N5 : IZR (5 ^ k) <> 0%R) by (apply IZR_neq; lia).
        replace e with (- k) by (unfold k; lia). rewrite bpow_opp. change (2 ^ k) with (radix2 ^ k). rewrite (IZR_Zpower radix2 k) by lia.
        assert (NB : bpow radix2 k <> 0%R) by (pose proof (bpow_gt_0 radix2 k); lra).
        destruct s; cbn [cond_Zopp]; [change (Z.neg m) with (- Z.pos m)%Z; rewrite opp_IZR|]; field; auto. }
      unfold decimal. cbn [String.length]. change (Z.of_nat 0) with 0. rewrite Z.sub_0_r.
      destruct (Z.leb_spec 0 (- k)); [lia|]. rewrite Z.opp_involutive. rewrite V. split; [reflexivity|discriminate].
Qed.
