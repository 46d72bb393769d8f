(** The time of the motion of a block. *)
From Coq Require Import Reals Lra.
From Flocq Require Import Core BinarySingleNaN.
From Verif Require Import Model.Base Model.Attr Model.Double Model.Macro Model.Verifiers Model.Splitter Model.PathGeom Model.PathCalc
  Spec.DoubleSpec Spec.SplitSpec Spec.PathSpec Spec.MotionSpec Proofs.Tactics Proofs.PathFrame Proofs.PathVisit Proofs.PathTotals Proofs.PathRange
  Proofs.PathReset Proofs.FloatReal Proofs.MotionFloats Proofs.MotionVisit Proofs.MotionProofs Proofs.MotionBlocks.

Open Scope string_scope.
Open Scope list_scope.
Open Scope Z_scope.

Lemma zero_amount x : finite x -> deqb x dzero = true -> amount x = 0%R.
Proof. destruct x as [s|s| |s m e]; cbn; try contradiction; [reflexivity|]. intros _ H. destruct s; discriminate. Qed.

Lemma positive_gtb x : finite x -> (0 < amount x)%R -> dgtb x dzero = true.
Proof.
  destruct x as [s|s| |s m e]; cbn; try contradiction; [intros _ H; lra|]. intros _ H. destruct s; [|reflexivity]. exfalso.
  assert (F2R (Float radix2 (Z.neg m) e) < 0)%R by (apply F2R_lt_0; reflexivity). unfold amount, SF2R in H. cbn [cond_Zopp Z.opp] in H. lra.
Qed.

Lemma about_zero r : r = 0%R -> about dzero r.
Proof.
  intros ->. split; [exact Logic.I|]. unfold amount. cbn [SF2R dzero]. replace (0 - 0)%R with 0%R by ring. rewrite Rabs_R0, Rmult_0_r.
  pose proof (bpow_gt_0 radix2 (-500)). lra.
Qed.

Lemma rate_bounds x : rate x -> finite x /\ (0 < amount x)%R.
Proof. intros [F B]. split; [exact F|]. pose proof (bpow_gt_0 radix2 (-100)). lra. Qed.

Lemma rate_quotient w f : moderate w -> (0 <= amount w)%R -> rate f -> (amount w / amount f <= bpow radix2 1000)%R.
Proof.
  intros W P [F B]. destruct (moderate_bound w W) as [_ L]. change (fR w) with (amount w) in L. rewrite Rabs_pos_eq in L by exact P.
  pose proof (bpow_gt_0 radix2 (-100)). eapply Rle_trans; [|apply (bpow_le radix2 500); lia]. change 500 with (400 + 100). rewrite bpow_plus.
  unfold Rdiv. apply Rmult_le_compat; [exact P|left; apply Rinv_0_lt_compat; lra|exact L|].
  replace (bpow radix2 100) with (/ bpow radix2 (-100))%R by (rewrite <- bpow_opp; reflexivity). apply Rinv_le; [lra|apply B].
Qed.

Section Times.
Variables tan_ log cabs : dbl -> dbl.
Variable stale : Z.
Variable mc : machine.
Hypothesis axes : proper_axes mc.

(** The times of the block from its motion. *)
Lemma block_times inch line b c mv c' mv' g : b <> [] -> no_tool b -> plain_codes b -> motion_code b c g -> 0 <= g ->
  evaluate tan_ log cabs stale mc inch line b c mv = (c', mv', None) ->
  exists v c1, foldM (visit_attr mc) found_init b = Ok v /\ timeless c1 = timeless (approached v (no_motion c)) /\
    let m := current_modes mc v c1 in
    (moved c' = (dzero, dzero) /\ motion_time c' = (dzero, dzero)) \/
    cut_time c' = (if negb (deqb (cut c') dzero) && dgtb (m_f m) dzero then work_time m inch (cut c') (m_f m) (m_s m) else dzero) /\
    rapid_time c' = (if negb (deqb (rapid c') dzero) && dgtb (mc_fast_feed mc) dzero
                     then dmul (dz 60) (calc_time (rapid c') (mc_fast_feed mc)) else dzero).
Proof.
  intros NE NT PL MC G E.
  destruct (block_motion tan_ log cabs stale mc axes inch line b c mv c' mv' g NE NT PL MC G E)
    as (v & c1 & m & F & O & TE & TB & -> & MG & T & MT & K).
  exists v, c1. split; [exact F|]. split; [exact T|]. cbv zeta. set (m := current_modes mc v c1) in *.
  destruct K as [(c2 & K & _)|(c2 & g' & c3 & K & Q3 & Q)].
  - left. apply motion_return in K. subst c'. split; [|exact MT]. rewrite (settled moved v c c1) by (reflexivity || exact T). reflexivity.
  - right. pose proof (motion_books tan_ log cabs mc v m c1) as B. rewrite K in B. cbn [fst] in B.
    assert (BT : c_time c2 = c_time c1) by (unfold books in B; congruence).
    unfold motion_time in MT. injection MT as MT1 MT2.
    assert (CT : c_time c' = c_time c3) by (rewrite Q; now apply copy_books).
    assert (CP : c_path c' = c_path c3) by (rewrite Q; now apply copy_books).
    unfold cut_time, rapid_time, cut, rapid. rewrite CT, CP, Q3.
    unfold add_up, set_modes, set_path, set_time. cbn [c_time c_path p_work p_fast t_work t_fast c_f c_s]. rewrite BT, MT1, MT2. split; reflexivity.
Qed.

Theorem cutting_time inch line b c mv c' mv' g pl fm f : b <> [] -> no_tool b -> plain_codes b -> motion_code b c g -> 0 <= g ->
  in_force (code_of planes) b (c_plane c) pl -> in_force (code_of feed_modes) b (c_feed c) fm -> ~ (turning mc pl /\ fm = 95) ->
  in_force (number_of "F") b (c_f c) f -> rate f ->
  evaluate tan_ log cabs stale mc inch line b c mv = (c', mv', None) ->
  moderate (cut c') -> (0 <= amount (cut c'))%R -> about (cut_time c') (seconds (amount (cut c')) (amount f)).
Proof.
  intros NE NT PL MC G P FM NL FF R E W W0.
  destruct (block_times inch line b c mv c' mv' g NE NT PL MC G E) as (v & c1 & F & T & K). cbv zeta in K. destruct (rate_bounds f R) as [Ff Pf].
  destruct K as [[M1 M2]|[K _]].
  { unfold moved in M1. injection M1 as M1 _. unfold motion_time in M2. injection M2 as M2 _. unfold cut_time, cut. rewrite M1, M2. apply about_zero.
    unfold seconds, amount. cbn [SF2R dzero]. unfold Rdiv. ring. }
  set (m := current_modes mc v c1) in *.
  assert (MF : m_f m = f).
  { cbn [m current_modes m_f]. apply (said_in_force _ _ _ _ _ (number_of_one "F") (found_feed mc axes b v F)).
    rewrite (settled c_f v c c1); [exact FF|reflexivity..|exact T]. }
  assert (LA : m_lathe m && (m_feed m =? 95) = false).
  { destruct (m_lathe m && (m_feed m =? 95)) eqn:L; [|reflexivity]. exfalso. apply NL. apply andb_prop in L as [L1 L2]. apply Z.eqb_eq in L2.
    cbn [m current_modes m_feed] in L2. rewrite (said_in_force _ _ _ _ fm (code_of_one feed_modes) (found_feed_mode mc axes b v F)) in L2
      by (rewrite (settled c_feed v c c1); [exact FM|reflexivity..|exact T]).
    split; [|exact L2]. cbn [m current_modes m_lathe] in L1. rewrite (said_in_force _ _ _ _ pl (code_of_one planes) (found_plane mc axes b v F)) in L1
      by (rewrite (settled c_plane v c c1); [exact P|reflexivity..|exact T]).
    unfold turning. destruct (mc_type mc); [discriminate|now left|right; split; [reflexivity|now apply Z.eqb_eq]]. }
  rewrite MF, (positive_gtb f Ff Pf), andb_true_r in K. unfold work_time in K. rewrite LA in K. rewrite K.
  destruct (deqb (cut c') dzero) eqn:D; cbn [negb].
  - apply about_zero. unfold seconds. rewrite (zero_amount _ (proj1 W) D). unfold Rdiv. ring.
  - apply time_near; [apply W|exact Ff|exact W0|exact Pf|]. now apply rate_quotient.
Qed.

Theorem turning_time inch line b c mv c' mv' g pl sm f s : b <> [] -> no_tool b -> plain_codes b -> motion_code b c g -> 0 <= g ->
  in_force (code_of planes) b (c_plane c) pl -> in_force (code_of feed_modes) b (c_feed c) 95 -> turning mc pl ->
  in_force (code_of speed_modes) b (c_css c) sm -> sm <> 96 ->
  in_force (number_of "F") b (c_f c) f -> rate f -> in_force (number_of "S") b (c_s c) s -> rate s ->
  evaluate tan_ log cabs stale mc inch line b c mv = (c', mv', None) ->
  moderate (cut c') -> (0 <= amount (cut c'))%R -> about (cut_time c') (seconds (amount (cut c')) (amount f * amount s)).
Proof.
  intros NE NT PL MC G P FM TU SM S96 FF R SS RS E W W0.
  destruct (block_times inch line b c mv c' mv' g NE NT PL MC G E) as (v & c1 & F & T & K). cbv zeta in K. destruct (rate_bounds f R) as [Ff Pf].
  destruct K as [[M1 M2]|[K _]].
  { unfold moved in M1. injection M1 as M1 _. unfold motion_time in M2. injection M2 as M2 _. unfold cut_time, cut. rewrite M1, M2. apply about_zero.
    unfold seconds, amount. cbn [SF2R dzero]. unfold Rdiv. ring. }
  set (m := current_modes mc v c1) in *.
  assert (MF : m_f m = f).
  { cbn [m current_modes m_f]. apply (said_in_force _ _ _ _ _ (number_of_one "F") (found_feed mc axes b v F)).
    rewrite (settled c_f v c c1); [exact FF|reflexivity..|exact T]. }
  assert (MS : m_s m = s).
  { cbn [m current_modes m_s]. apply (said_in_force _ _ _ _ _ (number_of_one "S") (found_speed mc axes b v F)).
    rewrite (settled c_s v c c1); [exact SS|reflexivity..|exact T]. }
  assert (MC6 : m_css m =? 96 = false).
  { apply Z.eqb_neq. cbn [m current_modes m_css]. rewrite (said_in_force _ _ _ _ sm (code_of_one speed_modes) (found_speed_mode mc axes b v F)); [exact S96|].
    rewrite (settled c_css v c c1); [exact SM|reflexivity..|exact T]. }
  assert (LA : m_lathe m && (m_feed m =? 95) = true).
  { cbn [m current_modes m_feed m_lathe]. rewrite (said_in_force _ _ _ _ 95 (code_of_one feed_modes) (found_feed_mode mc axes b v F))
      by (rewrite (settled c_feed v c c1); [exact FM|reflexivity..|exact T]).
    rewrite (said_in_force _ _ _ _ pl (code_of_one planes) (found_plane mc axes b v F))
      by (rewrite (settled c_plane v c c1); [exact P|reflexivity..|exact T]).
    destruct TU as [-> | [-> ->]]; reflexivity. }
  rewrite MF, MS, (positive_gtb f Ff Pf), andb_true_r in K. unfold work_time in K. rewrite LA, MC6 in K. rewrite K.
  destruct (deqb (cut c') dzero) eqn:D; cbn [negb].
  - apply about_zero. unfold seconds. rewrite (zero_amount _ (proj1 W) D). unfold Rdiv. ring.
  - destruct R as [_ Bf]. destruct RS as [Fs Bs]. destruct (moderate_bound _ W) as [Fw L]. apply time_per_turn; try assumption.
    split; [exact W0|]. eapply Rle_trans; [apply Rle_abs|exact L].
Qed.

(** With a constant surface speed the way is taken for the diameter. *)
Theorem surface_time inch line b c mv c' mv' g pl f s : b <> [] -> no_tool b -> plain_codes b -> motion_code b c g -> 0 <= g ->
  in_force (code_of planes) b (c_plane c) pl -> in_force (code_of feed_modes) b (c_feed c) 95 -> turning mc pl ->
  in_force (code_of speed_modes) b (c_css c) 96 ->
  in_force (number_of "F") b (c_f c) f -> rate f -> in_force (number_of "S") b (c_s c) s -> rate s ->
  evaluate tan_ log cabs stale mc inch line b c mv = (c', mv', None) ->
  finite (cut c') -> (0 < amount (cut c'))%R ->
  cut_time c' = dmul (dz 60) (ddiv (cut c') (dmul f (ddiv (dmul s (dz (if inch then 12 else 1000))) (dmul m_pi (cut c'))))).
Proof.
  intros NE NT PL MC G P FM TU SM FF R SS RS E W W0.
  destruct (block_times inch line b c mv c' mv' g NE NT PL MC G E) as (v & c1 & F & T & K). cbv zeta in K. destruct (rate_bounds f R) as [Ff Pf].
  destruct K as [[M1 M2]|[K _]].
  { unfold moved in M1. injection M1 as M1 _. exfalso. unfold cut in W0. rewrite M1, (zero_amount dzero) in W0 by reflexivity. lra. }
  set (m := current_modes mc v c1) in *.
  assert (MF : m_f m = f).
  { cbn [m current_modes m_f]. apply (said_in_force _ _ _ _ _ (number_of_one "F") (found_feed mc axes b v F)).
    rewrite (settled c_f v c c1); [exact FF|reflexivity..|exact T]. }
  assert (MS : m_s m = s).
  { cbn [m current_modes m_s]. apply (said_in_force _ _ _ _ _ (number_of_one "S") (found_speed mc axes b v F)).
    rewrite (settled c_s v c c1); [exact SS|reflexivity..|exact T]. }
  assert (MC6 : m_css m =? 96 = true).
  { apply Z.eqb_eq. cbn [m current_modes m_css]. rewrite (said_in_force _ _ _ _ 96 (code_of_one speed_modes) (found_speed_mode mc axes b v F)); [reflexivity|].
    rewrite (settled c_css v c c1); [exact SM|reflexivity..|exact T]. }
  assert (LA : m_lathe m && (m_feed m =? 95) = true).
  { cbn [m current_modes m_feed m_lathe]. rewrite (said_in_force _ _ _ _ 95 (code_of_one feed_modes) (found_feed_mode mc axes b v F))
      by (rewrite (settled c_feed v c c1); [exact FM|reflexivity..|exact T]).
    rewrite (said_in_force _ _ _ _ pl (code_of_one planes) (found_plane mc axes b v F))
      by (rewrite (settled c_plane v c c1); [exact P|reflexivity..|exact T]).
    destruct TU as [-> | [-> ->]]; reflexivity. }
  rewrite MF, MS, (positive_gtb f Ff Pf), andb_true_r in K. unfold work_time in K. rewrite LA, MC6 in K. rewrite K.
  destruct (deqb (cut c') dzero) eqn:D; cbn [negb].
  - exfalso. rewrite (zero_amount _ W D) in W0. lra.
  - destruct inch; reflexivity.
Qed.

Theorem rapid_takes inch line b c mv c' mv' g : b <> [] -> no_tool b -> plain_codes b -> motion_code b c g -> 0 <= g ->
  rate (mc_fast_feed mc) ->
  evaluate tan_ log cabs stale mc inch line b c mv = (c', mv', None) ->
  moderate (rapid c') -> (0 <= amount (rapid c'))%R -> about (rapid_time c') (seconds (amount (rapid c')) (amount (mc_fast_feed mc))).
Proof.
  intros NE NT PL MC G R E W W0.
  destruct (block_times inch line b c mv c' mv' g NE NT PL MC G E) as (v & c1 & F & T & K). cbv zeta in K. destruct (rate_bounds _ R) as [Ff Pf].
  destruct K as [[M1 M2]|[_ K]].
  { unfold moved in M1. injection M1 as _ M1. unfold motion_time in M2. injection M2 as _ M2. unfold rapid_time, rapid. rewrite M1, M2. apply about_zero.
    unfold seconds, amount. cbn [SF2R dzero]. unfold Rdiv. ring. }
  rewrite (positive_gtb _ Ff Pf), andb_true_r in K. rewrite K.
  destruct (deqb (rapid c') dzero) eqn:D; cbn [negb].
  - apply about_zero. unfold seconds. rewrite (zero_amount _ (proj1 W) D). unfold Rdiv. ring.
  - apply time_near; [apply W|exact Ff|exact W0|exact Pf|]. now apply rate_quotient.
Qed.
End Times.
