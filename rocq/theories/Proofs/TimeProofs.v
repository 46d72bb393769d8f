(** Formatted times. *)
From Coq Require Import Reals Lra Psatz.
From Flocq Require Import Core BinarySingleNaN.
From Verif Require Import Model.Base Model.Double Model.Calc Model.NCText Spec.Text Spec.DoubleSpec Spec.RoundSpec
  Spec.NCTextSpec Proofs.Tactics Proofs.StringFacts Proofs.DoubleFacts Proofs.FloatReal Proofs.UnitNumberProofs
  Proofs.MacroAssignProofs.

Open Scope Z_scope.

Lemma zero_pad_digits n : all_chars is_digit (zero_pad n) = true.
Proof. induction n; auto. Qed.

Lemma zero_pad_len n : String.length (zero_pad n) = n.
Proof. induction n; cbn; auto. Qed.

Lemma zero_pad_val n s : digits_val (zero_pad n ++ s) = digits_val s.
Proof. induction n; auto. Qed.

Lemma padded_spec w n : (0 < w)%nat -> 0 <= n < 10 ^ Z.of_nat w ->
  denotes (padded w n) n /\ String.length (padded w n) = w.
Proof.
  intros Hw Hn. unfold padded. destruct (nat_to_string_spec n ltac:(lia)) as (N & A & V & _).
  pose proof (nat_to_string_len n (Z.of_nat w) Hn ltac:(lia)) as L.
  assert (L2 : String.length (zero_pad (w - String.length (nat_to_string n)) ++ nat_to_string n) = w).
  { rewrite string_app_length, zero_pad_len. lia. }
  split; [|exact L2]. split; [|split].
  - intros E. rewrite E in L2. cbn in L2. lia.
  - now rewrite all_chars_app, zero_pad_digits, A.
  - now rewrite zero_pad_val.
Qed.

Lemma nat_denotes n : 0 <= n -> denotes (nat_to_string n) n.
Proof. intros H. destruct (nat_to_string_spec n H) as (N & A & V & _). split; auto. Qed.

(** The text for a number of milliseconds. *)
Lemma clock_text ms t x :
  d_trunc (d_round (dmul x (d_of_Z 1000))) = Some ms -> - 2 ^ 63 < ms < 2 ^ 63 ->
  format_time x = Ok t -> clock t ms.
Proof.
  intros E B. unfold format_time. rewrite E.
  assert (Eb : (- 2 ^ 63 <? ms) && (ms <? 2 ^ 63) = true) by (apply andb_true_iff; split; apply Z.ltb_lt; lia).
  rewrite Eb. set (a := Z.abs ms). cbv zeta.
  change (1000 * 60 * 60) with 3600000. change (1000 * 60) with 60000.
  set (h := a / 3600000). set (m := a / 60000 mod 60). set (s := a / 1000 mod 60). set (f := a mod 1000).
  set (sg := if ms <? 0 then "-" else "").
  assert (Ha : 0 <= a) by apply Z.abs_nonneg.
  assert (Hh : 0 <= h) by (apply Z.div_pos; lia).
  assert (Hm : 0 <= m < 60) by (apply Z.mod_pos_bound; lia).
  assert (Hs : 0 <= s < 60) by (apply Z.mod_pos_bound; lia).
  assert (Hf : 0 <= f < 1000) by (apply Z.mod_pos_bound; lia).
  assert (S : a = ((h * 60 + m) * 60 + s) * 1000 + f).
  { unfold h, m, s, f.
    replace 3600000 with (1000 * 60 * 60) by reflexivity. replace 60000 with (1000 * 60) by reflexivity.
    rewrite <- !Z.div_div by lia.
    pose proof (Z.div_mod a 1000 ltac:(lia)). pose proof (Z.div_mod (a / 1000) 60 ltac:(lia)).
    pose proof (Z.div_mod (a / 1000 / 60) 60 ltac:(lia)). lia. }
  assert (Hsg : ms < 0 /\ sg = "-" \/ 0 <= ms /\ sg = "").
  { unfold sg. destruct (Z.ltb_spec ms 0); auto. }
  destruct (padded_spec 2 s ltac:(lia) ltac:(cbn; lia)) as [Ds Ls].
  destruct (padded_spec 3 f ltac:(lia) ltac:(cbn; lia)) as [Df Lf].
  destruct (padded_spec 2 m ltac:(lia) ltac:(cbn; lia)) as [Dm Lm].
  destruct (Z.ltb_spec 0 h) as [Hp|Hp]; intros Ht; injection Ht as <-.
  - exists sg. eexists. exists (padded 2 m), (padded 2 s), (padded 3 f), h.
    split; [reflexivity|]. split; [exact Hsg|]. split.
    + right. exists (nat_to_string h). split; [now apply nat_denotes|]. repeat split; auto.
    + do 2 (split; [assumption|]). exists m, s, f. repeat (split; [assumption || lia|]). exact S.
  - assert (h = 0) by lia.
    exists sg. eexists. exists (nat_to_string m), (padded 2 s), (padded 3 f), 0.
    split; [reflexivity|]. split; [exact Hsg|]. split.
    + left. split; [reflexivity|]. split; [reflexivity|].
      destruct (nat_denotes m ltac:(lia)) as (N & _ & _). split.
      * destruct (nat_to_string m); [contradiction|]. cbn. lia.
      * apply (nat_to_string_len m 2); cbn; lia.
    + do 2 (split; [assumption|]). exists m, s, f. split; [apply nat_denotes; lia|].
      repeat (split; [assumption || lia|]). subst a. lia.
Qed.

Lemma thousand : finite (d_of_Z 1000) /\ fR (d_of_Z 1000) = 1000%R.
Proof.
  destruct (d_of_Z_int 1000 ltac:(cbn; lia)) as [F V]. split; [exact F|].
  pose proof (sval_fR _ F) as H. rewrite V in H. unfold scaled, unit_exp in H. rewrite mult_IZR in H.
  change (2 ^ 1074) with (Zpower radix2 1074) in H. rewrite IZR_Zpower in H by lia.
  pose proof (bpow_gt_0 radix2 1074). nra.
Qed.

Open Scope R_scope.

(** Times of less than 2^62 milliseconds. *)
Lemma product_near x : finite x -> (1000 * Z.abs (sval x) < scaled (2 ^ 62))%Z ->
  finite (dmul x (d_of_Z 1000)) /\
  ((Z.abs (sval (dmul x (d_of_Z 1000)) - 1000 * sval x) * 2 ^ 53 <= Z.abs (1000 * sval x)) \/
   (Z.abs (1000 * sval x) < scaled 1 / 4 /\ Z.abs (sval (dmul x (d_of_Z 1000))) < scaled 1 / 4))%Z.
Proof.
  intros F B. destruct thousand as [F1 E1].
  pose proof (dmul_rounds x _ F F1) as Hr. rewrite E1 in Hr.
  pose proof (sval_fR x F) as V. pose proof (bpow_gt_0 radix2 1074) as P.
  assert (Bx : Rabs (fR x * 1000) < bpow radix2 62).
  { apply IZR_lt in B. rewrite mult_IZR, abs_IZR, V in B. unfold scaled in B. rewrite mult_IZR in B.
    change (2 ^ 62)%Z with (Zpower radix2 62) in B. change (2 ^ unit_exp)%Z with (Zpower radix2 1074) in B.
    rewrite !IZR_Zpower in B by lia. rewrite Rabs_mult, (Rabs_pos_eq (bpow radix2 1074)) in B by lra.
    rewrite Rabs_mult, (Rabs_pos_eq 1000) by lra. nra. }
  assert (Hf : finite (dmul x (d_of_Z 1000)) /\ fR (dmul x (d_of_Z 1000)) = rnd (fR x * 1000)).
  { unfold rounds_to in Hr. rewrite Rlt_bool_true in Hr; [exact Hr|].
    eapply Rle_lt_trans; [apply (rnd_lt _ 62); [lia|lra]|]. now apply bpow_lt. }
  destruct Hf as [Fm Em]. split; [exact Fm|].
  pose proof (sval_fR _ Fm) as Vm.
  destruct (Rle_or_lt (bpow radix2 (-1022)) (Rabs (fR x * 1000))) as [N|N].
  - left. pose proof (rnd_error _ N) as Er. rewrite <- Em in Er.
    apply le_IZR. rewrite mult_IZR, !abs_IZR, minus_IZR, mult_IZR, V, Vm.
    replace (fR (dmul x (d_of_Z 1000)) * bpow radix2 1074 - 1000 * (fR x * bpow radix2 1074))
      with ((fR (dmul x (d_of_Z 1000)) - fR x * 1000) * bpow radix2 1074) by ring.
    replace (1000 * (fR x * bpow radix2 1074)) with (fR x * 1000 * bpow radix2 1074) by ring.
    rewrite (Rabs_mult _ (bpow radix2 1074)), (Rabs_mult (fR x * 1000)), (Rabs_pos_eq (bpow radix2 1074)) by lra.
    change (IZR (2 ^ 53)) with (9007199254740992). 
    assert (Q : / 2 ^ 53 * Rabs (fR x * 1000) * 9007199254740992 = Rabs (fR x * 1000)) by field.
    pose proof (Rabs_pos (fR (dmul x (d_of_Z 1000)) - fR x * 1000)).
    nra.
  - right. assert (T : forall r z, Rabs r <= bpow radix2 (-1022) -> IZR z = r * bpow radix2 1074 ->
                         (Z.abs z < scaled 1 / 4)%Z).
    { intros r z Hr0 Hz. apply lt_IZR. rewrite abs_IZR, Hz, Rabs_mult, (Rabs_pos_eq (bpow radix2 1074)) by lra.
      replace (scaled 1 / 4)%Z with (Zpower radix2 1072) by reflexivity. rewrite IZR_Zpower by lia.
      eapply Rle_lt_trans with (bpow radix2 (-1022) * bpow radix2 1074).
      - apply Rmult_le_compat_r; [lra|exact Hr0].
      - rewrite <- bpow_plus. apply bpow_lt. lia. }
    split.
    + apply (T (fR x * 1000)); [lra|]. rewrite mult_IZR, V. ring.
    + apply (T (rnd (fR x * 1000))); [apply rnd_lt; [lia|lra]|]. rewrite Vm, Em. reflexivity.
Qed.

Open Scope Z_scope.

Lemma scaled_pos : 0 < scaled 1.
Proof. reflexivity. Qed.

Lemma scaled_mul n : scaled n = n * scaled 1.
Proof. unfold scaled. ring. Qed.

(** Pure arithmetic: [u] is one unit, [x] the exact product, [y] the rounded
    one, [n] its nearest integer. *)
Lemma ms_small u x y n : 0 < u -> Z.abs x < 4611686018427387904 * u -> 2 * Z.abs (y - n * u) <= u ->
  Z.abs (y - x) * 9007199254740992 <= Z.abs x \/ Z.abs x < u / 4 /\ Z.abs y < u / 4 ->
  -9223372036854775808 < n < 9223372036854775808 /\
  (2 * Z.abs (x - n * u) - u) * 4503599627370496 <= Z.abs x.
Proof.
  intros U B R H. assert (Q : 4 * (u / 4) <= u) by (apply Z.mul_div_le; lia).
  assert (D : Z.abs (y - x) <= 1024 * u) by lia.
  assert (Nu : Z.abs n * u = Z.abs (n * u)) by (rewrite Z.abs_mul; lia).
  split.
  - assert (Z.abs n * u < 4611686018427400000 * u) by lia.
    apply Z.mul_lt_mono_pos_r in H0; lia.
  - destruct H as [H|[H1 H2]]; [lia|].
    assert (Z.abs n * u < 1 * u) by lia. apply Z.mul_lt_mono_pos_r in H; [|lia].
    assert (n = 0) by lia. subst n. lia.
Qed.

Lemma product_exact x : finite x -> finite (dmul x (d_of_Z 1000)) -> representable (1000 * sval x) ->
  sval (dmul x (d_of_Z 1000)) = 1000 * sval x.
Proof.
  intros F Fm Rp. destruct thousand as [F1 E1].
  pose proof (dmul_rounds x _ F F1) as Hr. rewrite E1 in Hr.
  apply eq_IZR. rewrite sval_fR, mult_IZR, sval_fR by assumption.
  assert (G : rnd (fR x * 1000) = (fR x * 1000)%R).
  { destruct Rp as (m & k & Hk & Hm & Em & _).
    assert (Ev : (fR x * 1000 = IZR m * bpow radix2 (k - 1074))%R).
    { assert (H : (IZR (1000 * sval x) = IZR m * bpow radix2 k)%R).
      { rewrite Em, mult_IZR. change (2 ^ k) with (Zpower radix2 k). now rewrite IZR_Zpower. }
      rewrite mult_IZR, (sval_fR x F) in H. pose proof (bpow_gt_0 radix2 1074) as P1.
      replace (k - 1074) with (k + - (1074)) by lia.
      rewrite bpow_plus, bpow_opp. apply Rmult_eq_reg_r with (bpow radix2 1074); [|lra].
      rewrite !Rmult_assoc, Rinv_l, Rmult_1_r by lra. lra. }
    unfold rnd. apply round_generic; [apply valid_rnd_N|]. rewrite Ev.
    apply generic_format_FLT. exists (Float radix2 m (k - 1074)); cbn; [reflexivity|exact Hm|lia]. }
  unfold rounds_to in Hr. rewrite G in Hr. destruct (Rlt_bool _ _) in Hr.
  - destruct Hr as [_ Hr]. rewrite Hr. ring.
  - destruct Hr as [s Hs]. rewrite Hs in Fm. contradiction.
Qed.

Lemma format_defined x ms : d_trunc (d_round (dmul x (d_of_Z 1000))) = Some ms -> - 2 ^ 63 < ms < 2 ^ 63 ->
  exists t, format_time x = Ok t.
Proof.
  intros T B. unfold format_time. rewrite T.
  assert (Eb : (- 2 ^ 63 <? ms) && (ms <? 2 ^ 63) = true) by (apply andb_true_iff; split; apply Z.ltb_lt; lia).
  rewrite Eb. cbv zeta. destruct (0 <? _); eauto.
Qed.

Lemma abs_thousand z : 1000 * Z.abs z = Z.abs (1000 * z).
Proof. rewrite Z.abs_mul. reflexivity. Qed.

Lemma time_formatted x : finite x -> 1000 * Z.abs (sval x) < scaled (2 ^ 62) ->
  exists t ms, format_time x = Ok t /\ clock t ms /\
    (2 * Z.abs (1000 * sval x - scaled ms) - scaled 1) * 2 ^ 52 <= Z.abs (1000 * sval x) /\
    (representable (1000 * sval x) -> 2 * Z.abs (1000 * sval x - scaled ms) <= scaled 1).
Proof.
  intros F B. destruct (product_near x F B) as [Fm HN].
  destruct (round_spec _ Fm) as (ms & I1 & [R1 R2]). clear R2.
  pose proof (d_trunc_int _ _ I1) as T. clear I1.
  pose proof (product_exact x F Fm) as PE.
  rewrite (scaled_mul ms) in R1. rewrite (scaled_mul (2 ^ 62)), abs_thousand in B.
  destruct (ms_small _ _ _ ms scaled_pos B R1 HN) as [Bm Er].
  destruct (format_defined x ms T Bm) as [t Ht]. exists t, ms. split; [exact Ht|].
  split; [exact (clock_text ms t x T Bm Ht)|].
  rewrite (scaled_mul ms). split; [exact Er|]. intros Rp. rewrite <- (PE Rp). exact R1.
Qed.

(** ** Summaries *)

Lemma app_len a b : Z.of_nat (String.length (a ++ b)) = Z.of_nat (String.length a) + Z.of_nat (String.length b).
Proof. rewrite string_app_length. lia. Qed.

Lemma time_len x t : format_time x = Ok t -> Z.of_nat (String.length t) <= 32.
Proof.
  unfold format_time. destruct (d_trunc _) as [ms|]; [|discriminate].
  destruct ((- 2 ^ 63 <? ms) && (ms <? 2 ^ 63)) eqn:B; [|discriminate].
  apply andb_true_iff in B as [B1 B2]. apply Z.ltb_lt in B1, B2.
  change (2 ^ 63) with 9223372036854775808 in *. cbv zeta. set (a := Z.abs ms).
  change (1000 * 60 * 60) with 3600000. change (1000 * 60) with 60000.
  assert (Ha : 0 <= a < 9223372036854775808) by lia.
  assert (L1 : Z.of_nat (String.length (if ms <? 0 then "-" else "")) <= 1) by (destruct (ms <? 0); cbn; lia).
  assert (L2 : Z.of_nat (String.length (nat_to_string (a / 3600000))) <= 13).
  { apply nat_to_string_len; [|lia]. split; [apply Z.div_pos; lia|].
    apply Z.div_lt_upper_bound; cbn; lia. }
  assert (M : 0 <= a / 60000 mod 60 < 60) by (apply Z.mod_pos_bound; lia).
  assert (S : 0 <= a / 1000 mod 60 < 60) by (apply Z.mod_pos_bound; lia).
  assert (F : 0 <= a mod 1000 < 1000) by (apply Z.mod_pos_bound; lia).
  destruct (padded_spec 2 _ ltac:(lia) (conj (proj1 M) (Z.lt_trans _ _ (10 ^ Z.of_nat 2) (proj2 M) ltac:(reflexivity)))) as [_ L3].
  destruct (padded_spec 2 _ ltac:(lia) (conj (proj1 S) (Z.lt_trans _ _ (10 ^ Z.of_nat 2) (proj2 S) ltac:(reflexivity)))) as [_ L4].
  destruct (padded_spec 3 _ ltac:(lia) F) as [_ L5].
  assert (L6 : Z.of_nat (String.length (nat_to_string (a / 60000 mod 60))) <= 2) by (apply nat_to_string_len; cbn; lia).
  destruct (0 <? a / 3600000); intros H; injection H as <-;
    rewrite ?string_app_length; cbn [String.length append]; rewrite ?string_app_length; cbn [String.length append];
    rewrite ?string_app_length; cbn [String.length append]; rewrite ?string_app_length, ?L3, ?L4, ?L5; lia.
Qed.

(** The text of a path of less than 10^30. *)
Lemma fixed_len n : 0 <= n < 10 ^ 40 -> Z.of_nat (String.length (fixed_string n 2)) <= 43.
Proof.
  intros H. unfold fixed_string. change (2 =? 0) with false. cbv iota zeta.
  assert (Z.of_nat (String.length (nat_to_string (n / 10 ^ 2))) <= 40).
  { apply nat_to_string_len; [|lia]. split; [apply Z.div_pos; lia|].
    apply Z.le_lt_trans with n; [|lia]. apply Z.div_le_upper_bound; [lia|]. change (10 ^ 2) with 100. lia. }
  assert (Z.of_nat (String.length (nat_to_string (n mod 10 ^ 2))) <= 2).
  { apply nat_to_string_len; [|lia]. apply Z.mod_pos_bound. lia. }
  rewrite string_app_length. cbn [String.length append]. rewrite string_app_length, zero_pad_len.
  change (Z.to_nat 2) with 2%nat. lia.
Qed.

Lemma scaled_round_bound m e : 0 <= e + 1074 -> Zpos m * 2 ^ (e + 1074) < 10 ^ 30 * 2 ^ 1074 ->
  0 <= scaled_round (Zpos m) e 2 < 10 ^ 40.
Proof.
  intros He H. unfold scaled_round. destruct (Z.leb_spec 0 e) as [E|E].
  - rewrite Z.pow_add_r in H by lia. rewrite Z.mul_assoc in H. apply Z.mul_lt_mono_pos_r in H; [|reflexivity].
    assert (0 < 2 ^ e) by (apply Z.pow_pos_nonneg; lia).
    split; [nia|]. apply Z.lt_trans with (10 ^ 30 * 10 ^ 2); [|reflexivity].
    apply Z.mul_lt_mono_pos_r; [reflexivity|exact H].
  - assert (P : 2 ^ 1074 = 2 ^ (e + 1074) * 2 ^ (- e)) by (rewrite <- Z.pow_add_r by lia; f_equal; lia).
    rewrite P in H. assert (P1 : 0 < 2 ^ (e + 1074)) by (apply Z.pow_pos_nonneg; lia).
    assert (P2 : 0 < 2 ^ (- e)) by (apply Z.pow_pos_nonneg; lia).
    rewrite (Z.mul_comm (2 ^ (e + 1074))), Z.mul_assoc in H. apply Z.mul_lt_mono_pos_r in H; [|exact P1].
    unfold round_div_even. set (d := 2 ^ (- e)) in *. clearbody d.
    assert (Q0 : 0 <= Zpos m * 10 ^ 2 / d) by (apply Z.div_pos; lia).
    assert (Q1 : Zpos m * 10 ^ 2 / d < 10 ^ 32).
    { apply Z.div_lt_upper_bound; [exact P2|]. change (10 ^ 32) with (10 ^ 30 * 10 ^ 2). lia. }
    assert (Q2 : 10 ^ 32 + 1 < 10 ^ 40) by reflexivity.
    destruct (_ ?= _); [destruct (Z.even _)|..]; lia.
Qed.

Lemma path_len x : moderate_path x -> Z.of_nat (String.length (d_to_fixed 2 x)) <= 44.
Proof.
  intros [F B]. destruct x as [s|s| |s m e]; try contradiction; cbn [d_to_fixed].
  - rewrite app_len. pose proof (fixed_len 0 ltac:(split; [lia|reflexivity])). destruct s; cbn [String.length]; lia.
  - rewrite app_len. pose proof (bounded_exp _ _ F). pose proof (fixed_len (scaled_round (Zpos m) e 2)) as L.
    assert (0 < Zpos m * 2 ^ (e + 1074)) by (apply Z.mul_pos_pos; [lia|apply Z.pow_pos_nonneg; lia]).
    rewrite <- (Z.abs_eq (Zpos m * 2 ^ (e + 1074))) in * by lia.
    assert (Es : Z.abs (sval (S754_finite s m e)) = Z.abs (Zpos m * 2 ^ (e + 1074))).
    { cbn [sval]. unfold unit_exp. rewrite Z.abs_mul. destruct s; reflexivity || apply Z.mul_1_l. }
    rewrite Es in B. unfold scaled, unit_exp in B.
    specialize (L (scaled_round_bound m e ltac:(lia) ltac:(lia))). destruct s; cbn [String.length]; lia.
Qed.

Lemma append_ok r t : Z.of_nat (String.length t) <= 255 -> snprintf_append r t = Ok (r ++ t).
Proof. intros H. unfold snprintf_append. destruct (Nat.ltb_spec (String.length t) 256); [reflexivity|lia]. Qed.

Lemma time_ok x : moderate_time x -> exists t ms, format_time x = Ok t /\ clock t ms /\
  (2 * Z.abs (1000 * sval x - scaled ms) - scaled 1) * 2 ^ 52 <= Z.abs (1000 * sval x).
Proof. intros [F B]. destruct (time_formatted x F B) as (t & ms & H & C & E & _). eauto. Qed.

Definition pick_list := fix pick (i : list (Prop * string)) (l : list string) : Prop :=
  match i with
  | [] => l = []
  | (p, t) :: i' => (p /\ exists l', l = t :: l' /\ pick i' l') \/ (~ p /\ pick i' l)
  end.

Lemma concat_str_app l1 l2 : concat_str (l1 ++ l2) = concat_str l1 ++ concat_str l2.
Proof. induction l1; cbn; auto. rewrite IHl1, string_app_assoc. reflexivity. Qed.

Lemma pick_snoc items (p : Prop) (t : string) l : pick_list items l ->
  (p -> pick_list (items ++ [(p, t)]) (l ++ [t])) /\ (~ p -> pick_list (items ++ [(p, t)]) l).
Proof.
  revert l. induction items as [|[q u] items IH]; intros l H; cbn in *.
  - subst l. split; intros Hp; [left; split; auto; exists []; auto|right; auto].
  - destruct H as [(Hq & l' & -> & H)|[Hq H]]; destruct (IH _ H) as [A B]; split; intros Hp; cbn.
    + left. split; auto. exists (l' ++ [t])%list. auto.
    + left. split; auto. exists l'. auto.
    + right. auto.
    + right. auto.
Qed.

(** One more item. *)
Lemma listed_step items r (b : bool) (p : Prop) t e :
  listed items r -> (b = true <-> p) -> (b = true -> e = Ok (r ++ t)) -> (b = false -> e = Ok r) ->
  exists r', e = Ok r' /\ listed (items ++ [(p, t)]) r'.
Proof.
  intros (l & -> & H) Hp H1 H2. destruct (pick_snoc items p t l H) as [A B]. destruct b.
  - exists (concat_str l ++ t). split; [auto|]. exists (l ++ [t])%list. split.
    + rewrite concat_str_app. cbn. now rewrite string_app_nil.
    + apply A. tauto.
  - exists (concat_str l). split; [auto|]. exists l. split; [reflexivity|]. apply B. intuition congruence.
Qed.

Lemma summary_listed pr tr wp wt fp ft :
  moderate_path (pr_total pr) -> moderate_path (pr_tool_total pr) -> moderate_path wp -> moderate_path fp ->
  moderate_time (tr_total tr) -> moderate_time wt -> moderate_time ft ->
  (String.length (pr_tool pr) <= 150)%nat ->
  exists s tt ft' wt', format_path_time pr tr wp wt fp ft = Ok s /\
    format_time (tr_total tr) = Ok tt /\ format_time ft = Ok ft' /\ format_time wt = Ok wt' /\
    listed [(noticeable (pr_total pr), " | Total path = " ++ d_to_fixed 2 (pr_total pr));
            (noticeable (tr_total tr), " | Total time = " ++ tt);
            (noticeable (pr_tool_total pr) /\ noticeable (dsub (pr_total pr) (pr_tool_total pr)),
             " | T" ++ pr_tool pr ++ " total path = " ++ d_to_fixed 2 (pr_tool_total pr));
            (noticeable (pr_fast pr), " | Total rapid path = " ++ d_to_fixed 2 fp);
            (noticeable (tr_fast tr), " | Total rapid time = " ++ ft');
            (noticeable (pr_work pr), " | Total cut path = " ++ d_to_fixed 2 wp);
            (noticeable (tr_work tr), " | Total cut time = " ++ wt')] s.
Proof.
  intros M1 M2 M3 M4 T1 T2 T3 Lt.
  destruct (time_ok _ T1) as (tt & m1 & E1 & _). destruct (time_ok _ T2) as (wt' & m2 & E2 & _).
  destruct (time_ok _ T3) as (ft' & m3 & E3 & _).
  pose proof (path_len _ M1) as P1. pose proof (path_len _ M2) as P2. pose proof (path_len _ M3) as P3.
  pose proof (path_len _ M4) as P4.
  pose proof (time_len _ _ E1) as P5. pose proof (time_len _ _ E2) as P6. pose proof (time_len _ _ E3) as P7.
  unfold format_path_time. rewrite E1, E2, E3. cbn [bind].
  assert (L0 : listed [] "") by (exists []; split; reflexivity).
  assert (Ap : forall r t, Z.of_nat (String.length t) <= 255 -> snprintf_append r t = Ok (r ++ t)) by exact append_ok.
  destruct (listed_step [] "" (dgeb (pr_total pr) tolerance) (noticeable (pr_total pr))
    (" | Total path = " ++ d_to_fixed 2 (pr_total pr))
    (if dgeb (pr_total pr) tolerance then snprintf_append "" (" | Total path = " ++ d_to_fixed 2 (pr_total pr)) else Ok "") L0)
    as (r1 & H1 & L1); [reflexivity|intros ->; apply Ap; rewrite app_len; cbn [String.length]; lia
                       |intros ->; reflexivity|]. rewrite H1. cbn [bind].
  destruct (listed_step _ r1 (dgeb (tr_total tr) tolerance) (noticeable (tr_total tr))
    (" | Total time = " ++ tt)
    (if dgeb (tr_total tr) tolerance then snprintf_append r1 (" | Total time = " ++ tt) else Ok r1) L1)
    as (r2 & H2 & L2); [reflexivity|intros ->; apply Ap; rewrite app_len; cbn [String.length]; lia
                       |intros ->; reflexivity|]. rewrite H2. cbn [bind].
  destruct (listed_step _ r2 (dgeb (pr_tool_total pr) tolerance && dgeb (dsub (pr_total pr) (pr_tool_total pr)) tolerance)
    (noticeable (pr_tool_total pr) /\ noticeable (dsub (pr_total pr) (pr_tool_total pr)))
    (" | T" ++ pr_tool pr ++ " total path = " ++ d_to_fixed 2 (pr_tool_total pr))
    (if dgeb (pr_tool_total pr) tolerance && dgeb (dsub (pr_total pr) (pr_tool_total pr)) tolerance
     then snprintf_append r2 (" | T" ++ pr_tool pr ++ " total path = " ++ d_to_fixed 2 (pr_tool_total pr))
     else Ok r2) L2)
    as (r3 & H3 & L3); [unfold noticeable; apply andb_true_iff|intros ->; apply Ap; rewrite !app_len; cbn [String.length]; lia
                       |intros ->; reflexivity|]. rewrite H3. cbn [bind].
  destruct (listed_step _ r3 (dgeb (pr_fast pr) tolerance) (noticeable (pr_fast pr))
    (" | Total rapid path = " ++ d_to_fixed 2 fp)
    (if dgeb (pr_fast pr) tolerance then snprintf_append r3 (" | Total rapid path = " ++ d_to_fixed 2 fp) else Ok r3) L3)
    as (r4 & H4 & L4); [reflexivity|intros ->; apply Ap; rewrite app_len; cbn [String.length]; lia
                       |intros ->; reflexivity|]. rewrite H4. cbn [bind].
  destruct (listed_step _ r4 (dgeb (tr_fast tr) tolerance) (noticeable (tr_fast tr))
    (" | Total rapid time = " ++ ft')
    (if dgeb (tr_fast tr) tolerance then snprintf_append r4 (" | Total rapid time = " ++ ft') else Ok r4) L4)
    as (r5 & H5 & L5); [reflexivity|intros ->; apply Ap; rewrite app_len; cbn [String.length]; lia
                       |intros ->; reflexivity|]. rewrite H5. cbn [bind].
  destruct (listed_step _ r5 (dgeb (pr_work pr) tolerance) (noticeable (pr_work pr))
    (" | Total cut path = " ++ d_to_fixed 2 wp)
    (if dgeb (pr_work pr) tolerance then snprintf_append r5 (" | Total cut path = " ++ d_to_fixed 2 wp) else Ok r5) L5)
    as (r6 & H6 & L6); [reflexivity|intros ->; apply Ap; rewrite app_len; cbn [String.length]; lia
                       |intros ->; reflexivity|]. rewrite H6. cbn [bind].
  destruct (listed_step _ r6 (dgeb (tr_work tr) tolerance) (noticeable (tr_work tr))
    (" | Total cut time = " ++ wt')
    (if dgeb (tr_work tr) tolerance then snprintf_append r6 (" | Total cut time = " ++ wt') else Ok r6) L6)
    as (r7 & H7 & L7); [reflexivity|intros ->; apply Ap; rewrite app_len; cbn [String.length]; lia
                       |intros ->; reflexivity|].
  exists r7, tt, ft', wt'. rewrite H7. repeat (split; [reflexivity|]). exact L7.
Qed.
