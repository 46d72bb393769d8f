From Verif Require Import Model.Base Model.Double Spec.DoubleSpec Proofs.Tactics.
From Coq Require Import Zpow_facts.

Lemma digits2_log2 p : Zpos (digits2_pos p) = Z.log2 (Zpos p) + 1.
Proof.
  induction p as [p IH|p IH|]; cbn [digits2_pos].
  - rewrite Pos2Z.inj_succ, IH. change (Zpos p~1) with (2 * Zpos p + 1).
    rewrite Z.log2_succ_double by lia. lia.
  - rewrite Pos2Z.inj_succ, IH. change (Zpos p~0) with (2 * Zpos p).
    rewrite Z.log2_double by lia. lia.
  - reflexivity.
Qed.

Lemma log2_bounds p : 2 ^ (Zpos (digits2_pos p) - 1) <= Zpos p < 2 ^ Zpos (digits2_pos p).
Proof.
  rewrite digits2_log2. replace (Z.log2 (Z.pos p) + 1 - 1) with (Z.log2 (Zpos p)) by lia.
  pose proof (Z.log2_spec (Zpos p) ltac:(lia)). unfold Z.succ in *. lia.
Qed.

Lemma digits_unique p d : 2 ^ (d - 1) <= Zpos p < 2 ^ d -> 0 < d -> Zpos (digits2_pos p) = d.
Proof.
  intros H Hd. rewrite digits2_log2.
  rewrite (Z.log2_unique (Zpos p) (d - 1)); [lia|lia|].
  replace (Z.succ (d - 1)) with d by lia. exact H.
Qed.

Lemma digits_lt p k : 0 <= k -> Zpos p < 2 ^ k -> Zpos (digits2_pos p) <= k.
Proof.
  intros Hk H. pose proof (log2_bounds p) as [B _].
  assert (2 ^ (Zpos (digits2_pos p) - 1) < 2 ^ k) by lia.
  apply Z.pow_lt_mono_r_iff in H0; lia.
Qed.

Lemma shift_pos_mul d m : Zpos (shift_pos d m) = Zpos m * 2 ^ Zpos d.
Proof. rewrite shift_pos_correct, Z.pow_pos_fold. apply Z.mul_comm. Qed.

Lemma shl_align_spec m e e' :
  let '(m', e1) := shl_align m e e' in
  (e' < e -> e1 = e' /\ Zpos m' = Zpos m * 2 ^ (e - e')) /\ (e <= e' -> e1 = e /\ m' = m).
Proof.
  unfold shl_align. destruct (e' - e) as [|d|d] eqn:E; split; intro H; try lia; auto.
  split; [reflexivity|]. rewrite shift_pos_mul. f_equal. f_equal. lia.
Qed.

(** Right shift without loss. *)
Lemma iter_pos_pow p : forall m, (2 ^ Zpos p | m) ->
  iter_pos shr_1 p (Build_shr_record m false false) = Build_shr_record (m / 2 ^ Zpos p) false false.
Proof.
  assert (One : forall m, (2 | m) -> shr_1 (Build_shr_record m false false) = Build_shr_record (m / 2) false false).
  { intros m [q ->]. rewrite Z.div_mul, Z.mul_comm by lia. destruct q as [|q|q]; reflexivity. }
  assert (Split : forall a b m, 0 <= a -> 0 <= b -> (2 ^ (a + b) | m) ->
            (2 ^ a | m) /\ (2 ^ b | m / 2 ^ a) /\ m / 2 ^ a / 2 ^ b = m / 2 ^ (a + b)).
  { intros a b m Ha Hb [q ->]. rewrite Z.pow_add_r by lia.
    assert (0 < 2 ^ a) by (apply Z.pow_pos_nonneg; lia). assert (0 < 2 ^ b) by (apply Z.pow_pos_nonneg; lia).
    split; [exists (q * 2 ^ b); ring|]. replace (q * (2 ^ a * 2 ^ b)) with (q * 2 ^ b * 2 ^ a) by ring.
    rewrite Z.div_mul by lia. split; [now exists q|]. rewrite Z.div_mul by lia.
    replace (q * 2 ^ b * 2 ^ a) with (q * (2 ^ a * 2 ^ b)) by ring. now rewrite Z.div_mul by lia. }
  induction p as [p IH|p IH|]; intros m D; cbn [iter_pos].
  - replace (2 ^ Zpos p~1) with (2 ^ (1 + (Zpos p + Zpos p))) in * by (f_equal; lia).
    destruct (Split 1 (Zpos p + Zpos p) m) as (D1 & D2 & E); [lia|lia|exact D|].
    rewrite One by exact D1. change (2 ^ 1) with 2 in *.
    destruct (Split (Zpos p) (Zpos p) (m / 2)) as (D3 & D4 & E'); [lia|lia|exact D2|].
    rewrite IH by exact D3. rewrite IH by exact D4. now rewrite E', E.
  - replace (2 ^ Zpos p~0) with (2 ^ (Zpos p + Zpos p)) in * by (f_equal; lia).
    destruct (Split (Zpos p) (Zpos p) m) as (D3 & D4 & E'); [lia|lia|exact D|].
    rewrite IH by exact D3. rewrite IH by exact D4. now rewrite E'.
  - now apply One.
Qed.

Local Notation fe := (fexp 53 1024).

Lemma fe_eq x : fe x = Z.max (x - 53) (-1074).
Proof. reflexivity. Qed.

Lemma bounded_spec m e : bounded 53 1024 m e = true <->
  fe (Zpos (digits2_pos m) + e) = e /\ e <= 971.
Proof.
  unfold bounded, canonical_mantissa. rewrite andb_true_iff, <- Zeq_is_eq_bool.
  change (1024 - 53) with 971. rewrite <- Zle_is_le_bool. reflexivity.
Qed.

(** Rounding is exact when there is nothing to round away. *)
Lemma round_aux_exact s m e m' k :
  Zpos m = m' * 2 ^ k -> 0 <= k -> m' < 2 ^ 53 -> -1074 <= e + k ->
  Zpos (digits2_pos m) + e <= 1024 -> e <= fe (Zpos (digits2_pos m) + e) ->
  exists m2, binary_round_aux 53 1024 s (Zpos m) e loc_Exact
             = S754_finite s m2 (fe (Zpos (digits2_pos m) + e)) /\
    Zpos m = Zpos m2 * 2 ^ (fe (Zpos (digits2_pos m) + e) - e) /\
    bounded 53 1024 m2 (fe (Zpos (digits2_pos m) + e)) = true.
Proof.
  intros E Hk Hm He Hd Hf.
  set (d := Zpos (digits2_pos m)) in *. set (e1 := fe (d + e)) in *.
  assert (P : forall j, 0 <= j -> 0 < 2 ^ j) by (intros; apply Z.pow_pos_nonneg; lia).
  assert (Pm : 0 < m') by (pose proof (P k Hk); nia).
  assert (Hn : e1 - e <= k).
  { unfold e1. rewrite fe_eq.
    assert (d <= 53 + k).
    { apply digits_lt; [lia|]. rewrite E, Z.pow_add_r by lia. pose proof (P k Hk). nia. }
    lia. }
  set (n := e1 - e) in *.
  assert (Dv : (2 ^ n | Zpos m)).
  { exists (m' * 2 ^ (k - n)). rewrite E, <- Z.mul_assoc, <- Z.pow_add_r by lia. f_equal. f_equal. lia. }
  destruct Dv as [q Eq]. assert (Pq : 0 < q) by (pose proof (P n ltac:(lia)); nia).
  destruct q as [|m2|]; [lia| |lia].
  assert (D2 : Zpos (digits2_pos m2) = d - n).
  { pose proof (log2_bounds m) as B. fold d in B. rewrite Eq in B.
    assert (Hdn : 0 < d - n).
    { destruct (Z.le_gt_cases d n) as [C|]; [|lia].
      assert (2 ^ d <= 2 ^ n) by (apply Z.pow_le_mono_r; lia). nia. }
    apply digits_unique; [|exact Hdn].
    replace (2 ^ (d - 1)) with (2 ^ (d - n - 1) * 2 ^ n) in B by (rewrite <- Z.pow_add_r by lia; f_equal; lia).
    replace (2 ^ d) with (2 ^ (d - n) * 2 ^ n) in B by (rewrite <- Z.pow_add_r by lia; f_equal; lia).
    pose proof (P n ltac:(lia)). nia. }
  assert (Fe : fe (Zpos (digits2_pos m2) + e1) = e1).
  { rewrite D2. unfold e1 at 2. f_equal. lia. }
  exists m2. split; [|split; [exact Eq|]].
  - unfold binary_round_aux, shr_fexp. cbn [Zdigits2 shr_record_of_loc]. fold d. fold e1. fold n.
    assert (S1 : shr (Build_shr_record (Zpos m) false false) e n = (Build_shr_record (Zpos m2) false false, e1)).
    { unfold shr. destruct n as [|p|p] eqn:En; [| |lia].
      - rewrite Z.pow_0_r, Z.mul_1_r in Eq. rewrite Eq. f_equal. lia.
      - rewrite iter_pos_pow by (exists (Zpos m2); exact Eq).
        rewrite Eq, Z.div_mul by (pose proof (P (Zpos p) ltac:(lia)); lia). f_equal. lia. }
    rewrite S1. cbn [shr_m loc_of_shr_record round_nearest_even Zdigits2 shr_record_of_loc].
    rewrite Fe, Z.sub_diag. cbn [shr shr_m].
    replace (Zle_bool e1 (1024 - 53)) with true; [reflexivity|].
    symmetry. apply Zle_is_le_bool. unfold e1. rewrite fe_eq. lia.
  - apply bounded_spec. split; [exact Fe|]. unfold e1. rewrite fe_eq. lia.
Qed.

Lemma round_exact s m e m' k :
  Zpos m = m' * 2 ^ k -> 0 <= k -> m' < 2 ^ 53 -> -1074 <= e ->
  Zpos (digits2_pos m) + e <= 1024 ->
  exists m2 e2, binary_round 53 1024 s m e = S754_finite s m2 e2 /\
    bounded 53 1024 m2 e2 = true /\ Zpos m2 * 2 ^ (e2 + 1074) = Zpos m * 2 ^ (e + 1074).
Proof.
  intros E Hk Hm He Hd. unfold binary_round.
  set (d := Zpos (digits2_pos m)) in *.
  assert (P : forall j, 0 <= j -> 0 < 2 ^ j) by (intros; apply Z.pow_pos_nonneg; lia).
  pose proof (shl_align_spec m e (fe (d + e))) as S.
  destruct (shl_align m e (fe (d + e))) as [mz ez]. destruct S as [S1 S2].
  destruct (Z.lt_ge_cases (fe (d + e)) e) as [L|L].
  - destruct (S1 L) as [-> Ez]. clear S1 S2. set (j := e - fe (d + e)) in *.
    assert (Dz : Zpos (digits2_pos mz) = d + j).
    { pose proof (log2_bounds m) as B. fold d in B. apply digits_unique; [|lia].
      rewrite Ez. replace (d + j - 1) with (d - 1 + j) by lia. rewrite !Z.pow_add_r by lia.
      pose proof (P j ltac:(lia)). nia. }
    assert (F : fe (Zpos (digits2_pos mz) + fe (d + e)) = fe (d + e)) by (rewrite Dz; f_equal; lia).
    destruct (round_aux_exact s mz (fe (d + e)) m' (k + j)) as (m2 & R & V & B).
    + rewrite Ez, E, Z.pow_add_r by lia. ring.
    + lia. + exact Hm. + rewrite fe_eq. lia.
    + rewrite Dz. lia.
    + rewrite F. lia.
    + exists m2, (fe (d + e)). rewrite F in R, V, B. split; [exact R|]. split; [exact B|].
      rewrite Z.sub_diag, Z.pow_0_r, Z.mul_1_r in V. rewrite <- V, Ez, <- Z.mul_assoc, <- Z.pow_add_r.
      * f_equal. f_equal. lia. * lia. * rewrite fe_eq. lia.
  - destruct (S2 L) as [-> ->]. clear S1 S2.
    destruct (round_aux_exact s m e m' k) as (m2 & R & V & B); [exact E|lia|exact Hm|lia|exact Hd|exact L|].
    exists m2, (fe (d + e)). fold d in R, V, B. split; [exact R|]. split; [exact B|].
    rewrite V, <- Z.mul_assoc, <- Z.pow_add_r by lia. f_equal. f_equal. lia.
Qed.

(** ** Normalisation *)

Lemma pow2_pos j : 0 <= j -> 0 < 2 ^ j.
Proof. intros; apply Z.pow_pos_nonneg; lia. Qed.

(** A representable scaled value [m * 2^j] has a mantissa with few bits. *)
Lemma representable_mantissa m j : 0 <= j -> representable (Zpos m * 2 ^ j) ->
  (exists m' k, Zpos m = m' * 2 ^ k /\ 0 <= k /\ m' < 2 ^ 53) /\ Zpos (digits2_pos m) + j <= 2098.
Proof.
  intros Hj (a & k & Hk & Ha & E & B). pose proof (pow2_pos j Hj) as Pj. pose proof (pow2_pos k Hk) as Pk.
  split.
  - destruct (Z.le_gt_cases j k) as [C|C].
    + exists a, (k - j). split; [|lia].
      replace (2 ^ k) with (2 ^ (k - j) * 2 ^ j) in E by (rewrite <- Z.pow_add_r by lia; f_equal; lia).
      nia.
    + exists (Zpos m), 0. rewrite Z.pow_0_r. split; [lia|]. split; [lia|].
      replace (2 ^ j) with (2 ^ (j - k) * 2 ^ k) in E by (rewrite <- Z.pow_add_r by lia; f_equal; lia).
      pose proof (pow2_pos (j - k) ltac:(lia)).
      rewrite Z.mul_assoc in E. apply Z.mul_reg_r in E; [|lia].
      apply Z.le_lt_trans with (Z.abs a); [rewrite <- E; nia|exact Ha].
  - pose proof (log2_bounds m) as [L _].
    assert (2 ^ (Zpos (digits2_pos m) - 1 + j) < 2 ^ 2098).
    { rewrite Z.pow_add_r by lia. eapply Z.le_lt_trans; [|exact B].
      rewrite Z.abs_eq by (apply Z.mul_nonneg_nonneg; lia). now apply Z.mul_le_mono_pos_r. }
    apply Z.pow_lt_mono_r_iff in H; lia.
Qed.

Lemma representable_opp z : representable z -> representable (- z).
Proof.
  intros (a & k & Hk & Ha & E & B). exists (- a), k.
  rewrite !Z.abs_opp. repeat split; [exact Hk|exact Ha|rewrite E; ring|exact B].
Qed.

Lemma normalize_exact z e b : -1074 <= e -> representable (z * 2 ^ (e + 1074)) ->
  finite (binary_normalize 53 1024 z e b) /\ sval (binary_normalize 53 1024 z e b) = z * 2 ^ (e + 1074).
Proof.
  intros He R. unfold binary_normalize. destruct z as [|m|m].
  - split; [exact I|]. cbn [sval]. lia.
  - destruct (representable_mantissa m (e + 1074) ltac:(lia) R) as [(m' & k & E & Hk & Hm) D].
    destruct (round_exact false m e m' k) as (m2 & e2 & -> & B & V); try assumption; [lia|].
    split; [exact B|]. cbn [sval]. unfold unit_exp. rewrite V. lia.
  - apply representable_opp in R. rewrite <- Z.mul_opp_l in R. change (- Z.neg m) with (Zpos m) in R.
    destruct (representable_mantissa m (e + 1074) ltac:(lia) R) as [(m' & k & E & Hk & Hm) D].
    destruct (round_exact true m e m' k) as (m2 & e2 & -> & B & V); try assumption; [lia|].
    split; [exact B|]. cbn [sval]. unfold unit_exp. rewrite V. change (Z.neg m) with (- Zpos m). lia.
Qed.

(** ** Addition and subtraction *)

Lemma bounded_exp m e : bounded 53 1024 m e = true -> -1074 <= e <= 971.
Proof. rewrite bounded_spec, fe_eq. lia. Qed.

Lemma align_val m e ez : ez <= e -> Zpos (fst (shl_align m e ez)) = Zpos m * 2 ^ (e - ez).
Proof.
  intro H. pose proof (shl_align_spec m e ez) as S. destruct (shl_align m e ez) as [m' e']. cbn [fst].
  destruct S as [S1 S2]. destruct (Z.lt_ge_cases ez e) as [L|L]; [now apply S1|].
  destruct (S2 L) as [_ ->]. replace (e - ez) with 0 by lia. now rewrite Z.mul_1_r.
Qed.

Lemma cond_opp (s : bool) z : cond_Zopp s z = (if s then -1 else 1) * z.
Proof. unfold cond_Zopp. destruct s; lia. Qed.

Lemma dsub_dadd x y : finite x -> finite y -> dsub x y = dadd x (dopp y).
Proof.
  intros _ _. unfold dsub, dadd, dopp. destruct x, y; cbn [SFsub SFadd SFopp]; try reflexivity.
  f_equal. unfold cond_Zopp. destruct s0; cbn [negb]; lia.
Qed.

Lemma dadd_exact x y : finite x -> finite y -> representable (sval x + sval y) ->
  finite (dadd x y) /\ sval (dadd x y) = sval x + sval y.
Proof.
  intros Fx Fy R. destruct x as [sx|sx| |sx mx ex]; try contradiction;
    destruct y as [sy|sy| |sy my ey]; try contradiction; unfold dadd; cbn [SFadd].
  - destruct (Bool.eqb sx sy); split; (exact I || reflexivity).
  - split; [exact Fy|reflexivity].
  - split; [exact Fx|]. cbn [sval]. lia.
  - cbn [finite] in Fx, Fy. pose proof (bounded_exp _ _ Fx). pose proof (bounded_exp _ _ Fy).
    set (ez := Z.min ex ey). rewrite !align_val, !cond_opp by lia.
    assert (E : ((if sx then -1 else 1) * (Zpos mx * 2 ^ (ex - ez)) +
                 (if sy then -1 else 1) * (Zpos my * 2 ^ (ey - ez))) * 2 ^ (ez + 1074)
                = sval (S754_finite sx mx ex) + sval (S754_finite sy my ey)).
    { cbn [sval]. unfold unit_exp. rewrite Z.mul_add_distr_r, <- !Z.mul_assoc, <- !Z.pow_add_r by lia.
      f_equal; do 3 f_equal; lia. }
    rewrite <- E in R |- *. apply normalize_exact; [lia|exact R].
Qed.

Lemma dopp_val x : finite x -> finite (dopp x) /\ sval (dopp x) = - sval x.
Proof.
  destruct x as [s|s| |s m e]; cbn; try tauto. intro F. split; [exact F|]. destruct s; cbn [negb]; lia.
Qed.

Lemma dsub_exact x y : finite x -> finite y -> representable (sval x - sval y) ->
  finite (dsub x y) /\ sval (dsub x y) = sval x - sval y.
Proof.
  intros Fx Fy R. rewrite dsub_dadd by assumption. destruct (dopp_val y Fy) as [Fo Eo].
  replace (sval x - sval y) with (sval x + sval (dopp y)) in * by lia.
  now apply dadd_exact.
Qed.

(** ** Integers *)

Lemma representable_int n : Z.abs n < 2 ^ 53 -> representable (scaled n).
Proof.
  intro H. exists n, 1074. split; [lia|]. split; [exact H|]. split; [reflexivity|].
  unfold scaled, unit_exp. rewrite Z.abs_mul, (Z.abs_eq (2 ^ 1074)) by (apply Z.pow_nonneg; lia).
  replace (2 ^ 2098) with (2 ^ 1024 * 2 ^ 1074) by (rewrite <- Z.pow_add_r by lia; reflexivity).
  assert (2 ^ 53 < 2 ^ 1024) by (apply Z.pow_lt_mono_r; lia).
  apply Z.mul_lt_mono_pos_r; [apply pow2_pos; lia|lia].
Qed.

Lemma d_of_Z_int n : Z.abs n < 2 ^ 53 -> is_int (d_of_Z n) n.
Proof.
  intro H. unfold is_int, d_of_Z. apply normalize_exact; [lia|]. now apply representable_int.
Qed.

(** ** Comparison *)

Lemma mag_lt m1 e1 m2 e2 : bounded 53 1024 m1 e1 = true -> bounded 53 1024 m2 e2 = true -> e1 < e2 ->
  Zpos m1 * 2 ^ (e1 + 1074) < Zpos m2 * 2 ^ (e2 + 1074).
Proof.
  intros B1 B2 L. pose proof (bounded_exp _ _ B1). pose proof (bounded_exp _ _ B2).
  apply bounded_spec in B1 as [F1 _]. apply bounded_spec in B2 as [F2 _]. rewrite fe_eq in F1, F2.
  assert (D1 : Zpos (digits2_pos m1) <= 53) by lia. assert (D2 : Zpos (digits2_pos m2) = 53) by lia.
  pose proof (log2_bounds m1) as [_ U]. pose proof (log2_bounds m2) as [Lo _]. rewrite D2 in Lo.
  assert (Zpos m1 < 2 ^ 53).
  { eapply Z.lt_le_trans; [exact U|]. apply Z.pow_le_mono_r; lia. }
  replace (2 ^ (e2 + 1074)) with (2 ^ (e2 - e1) * 2 ^ (e1 + 1074)) by (rewrite <- Z.pow_add_r by lia; f_equal; lia).
  rewrite Z.mul_assoc. apply Z.mul_lt_mono_pos_r; [apply pow2_pos; lia|].
  assert (2 ^ 1 <= 2 ^ (e2 - e1)) by (apply Z.pow_le_mono_r; lia).
  change (2 ^ 53) with (2 ^ (53 - 1) * 2) in *. change (2 ^ 1) with 2 in *. nia.
Qed.

Lemma compare_correct x y : finite x -> finite y ->
  SFcompare x y = Some (Z.compare (sval x) (sval y)).
Proof.
  assert (Pos : forall m e, bounded 53 1024 m e = true -> 0 < Zpos m * 2 ^ (e + 1074)).
  { intros m e B. apply bounded_exp in B. pose proof (pow2_pos (e + 1074) ltac:(lia)). nia. }
  destruct x as [sx|sx| |sx mx ex]; try contradiction;
    destruct y as [sy|sy| |sy my ey]; try contradiction; intros Fx Fy; cbn [SFcompare sval];
    cbn [finite] in Fx, Fy; unfold unit_exp; f_equal.
  - pose proof (Pos _ _ Fy). symmetry. destruct sy; [apply Z.compare_gt_iff|apply Z.compare_lt_iff]; lia.
  - pose proof (Pos _ _ Fx). symmetry. destruct sx; [apply Z.compare_lt_iff|apply Z.compare_gt_iff]; lia.
  - pose proof (Pos _ _ Fx) as Px. pose proof (Pos _ _ Fy) as Py.
    set (a := Zpos mx * 2 ^ (ex + 1074)) in *. set (b := Zpos my * 2 ^ (ey + 1074)) in *.
    assert (C : match Z.compare ex ey with Lt => Lt | Gt => Gt | Eq => Pcompare mx my Eq end = Z.compare a b).
    { destruct (Z.compare_spec ex ey) as [E|L|L].
      - subst ey. unfold a, b. change (Pos.compare_cont Eq mx my) with (Z.compare (Zpos mx) (Zpos my)).
        apply bounded_exp in Fx. pose proof (pow2_pos (ex + 1074) ltac:(lia)).
        now apply Zmult_compare_compat_r, Z.lt_gt.
      - symmetry. apply Z.compare_lt_iff. now apply mag_lt.
      - symmetry. apply Z.compare_gt_iff. now apply mag_lt. }
    destruct sx, sy.
    + replace (-1 * a) with (- a) by lia. replace (-1 * b) with (- b) by lia.
      rewrite Z.compare_opp, (Z.compare_antisym a b), <- C. now destruct (Z.compare ex ey).
    + symmetry. apply Z.compare_lt_iff. lia.
    + symmetry. apply Z.compare_gt_iff. lia.
    + rewrite !Z.mul_1_l. exact C.
Qed.

Lemma dltb_lt x y : finite x -> finite y -> (dltb x y = true <-> sval x < sval y).
Proof.
  intros Fx Fy. unfold dltb, SFltb. rewrite compare_correct by assumption.
  destruct (Z.compare_spec (sval x) (sval y)); split; intros; try lia; try discriminate; reflexivity.
Qed.

Lemma dgtb_gt x y : finite x -> finite y -> (dgtb x y = true <-> sval y < sval x).
Proof. intros. now apply dltb_lt. Qed.

Lemma dleb_le x y : finite x -> finite y -> (dleb x y = true <-> sval x <= sval y).
Proof.
  intros Fx Fy. unfold dleb, SFleb. rewrite compare_correct by assumption.
  destruct (Z.compare_spec (sval x) (sval y)); split; intros; try lia; try discriminate; reflexivity.
Qed.

Lemma deqb_eq x y : finite x -> finite y -> (deqb x y = true <-> sval x = sval y).
Proof.
  intros Fx Fy. unfold deqb, SFeqb. rewrite compare_correct by assumption.
  destruct (Z.compare_spec (sval x) (sval y)); split; intros; try lia; try discriminate; reflexivity.
Qed.

(** ** Truncation *)

Lemma d_trunc_val x : finite x -> d_trunc x = Some (Z.quot (sval x) (2 ^ unit_exp)).
Proof.
  pose proof (pow2_pos 1074 ltac:(lia)) as P.
  destruct x as [s|s| |s m e]; cbn [finite d_trunc sval]; try contradiction; unfold unit_exp; intro F; f_equal.
  apply bounded_exp in F.
  assert (E : Z.quot (Zpos m * 2 ^ (e + 1074)) (2 ^ 1074) = if 0 <=? e then Zpos m * 2 ^ e else Zpos m / 2 ^ (- e)).
  { destruct (Z.leb_spec 0 e).
    - rewrite Z.pow_add_r, Z.mul_assoc, Z.quot_mul by lia. reflexivity.
    - replace (2 ^ 1074) with (2 ^ (- e) * 2 ^ (e + 1074)) by (rewrite <- Z.pow_add_r by lia; f_equal; lia).
      pose proof (pow2_pos (e + 1074) ltac:(lia)). pose proof (pow2_pos (- e) ltac:(lia)).
      rewrite Z.quot_mul_cancel_r by lia. apply Z.quot_div_nonneg; lia. }
  rewrite <- E. destruct s.
  - replace (-1 * (Zpos m * 2 ^ (e + 1074))) with (- (Zpos m * 2 ^ (e + 1074))) by lia.
    now rewrite Z.quot_opp_l by lia.
  - now rewrite Z.mul_1_l.
Qed.

Lemma d_trunc_int x n : is_int x n -> d_trunc x = Some n.
Proof.
  intros [F E]. rewrite (d_trunc_val x F), E. unfold scaled. f_equal. apply Z.quot_mul.
  pose proof (pow2_pos unit_exp); unfold unit_exp in *; lia.
Qed.

Lemma int_difference x y n m : is_int x n -> is_int y m -> Z.abs (n - m) < 2 ^ 53 ->
  representable (sval x - sval y).
Proof.
  intros [_ Ex] [_ Ey] H. rewrite Ex, Ey.
  replace (scaled n - scaled m) with (scaled (n - m)) by (unfold scaled; ring).
  now apply representable_int.
Qed.
