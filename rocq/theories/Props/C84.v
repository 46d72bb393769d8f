(** C84: the ways of spirals. *)
From Coq Require Import Reals Lra.
From Flocq Require Import Core BinarySingleNaN.
From Verif Require Import Model.Base Model.Attr Model.Double Model.Macro Model.Verifiers Model.PathGeom Model.PathCalc
  Spec.DoubleSpec Spec.SplitSpec Spec.PathSpec Spec.MotionSpec Spec.ArcSpec Spec.SpiralSpec Proofs.Tactics Proofs.FloatReal Proofs.SpiralProofs.

Local Open Scope string_scope.
Local Open Scope list_scope.
Local Open Scope Z_scope.

(** The formula of the specification is the length of the curve: nothing at the
    centre, and from there it grows as the point [(a t cos t, a t sin t)] moves. *)
Theorem C84_formula : forall a t, (0 <= a)%R ->
  spiral a 0 = 0%R /\ derivable_pt_lim (spiral a) t (a * sqrt (1 + t * t))%R /\
  (exists x y, derivable_pt_lim (fun t => a * t * cos t)%R t x /\ derivable_pt_lim (fun t => a * t * sin t)%R t y /\
     a * sqrt (1 + t * t) = sqrt (x * x + y * y))%R.
Proof.
  intros a t A. split; [apply spiral_start|]. split; [apply spiral_speed|].
  assert (D : derivable_pt_lim (fun t => a * t)%R t a).
  { pose proof (derivable_pt_lim_scal (fun t => t) a t 1 (derivable_pt_lim_id t)) as D. rewrite Rmult_1_r in D. exact D. }
  exists (a * cos t + a * t * - sin t)%R, (a * sin t + a * t * cos t)%R.
  split; [apply (derivable_pt_lim_mult (fun t => a * t)%R cos); [exact D|apply derivable_pt_lim_cos]|].
  split; [apply (derivable_pt_lim_mult (fun t => a * t)%R sin); [exact D|apply derivable_pt_lim_sin]|].
  pose proof (sin2_cos2 t) as S. unfold Rsqr in S.
  replace ((a * cos t + a * t * - sin t) * (a * cos t + a * t * - sin t) + (a * sin t + a * t * cos t) * (a * sin t + a * t * cos t))%R
    with (a * a * (1 + t * t) * (sin t * sin t + cos t * cos t))%R by ring.
  rewrite S, Rmult_1_r, sqrt_mult; [|nra|nra]. rewrite sqrt_square by exact A. reflexivity.
Qed.
Print Assumptions C84_formula.

(** G2 or G3 with a centre and the number of turns L: the way is that of a spiral
    into the centre. *)
Theorem C84_turns_partial : forall tan_ log cabs stale mc inch line b c mv c' mv' g p pl a1 a2 a3 p1 p2 i j l,
  proper_axes mc -> good_log log -> b <> [] -> no_tool b -> plain_codes b -> motion_code b c g -> In g [2; 3] ->
  in_force (code_of programmings) b (c_prog c) p -> in_force (code_of planes) b (c_plane c) pl -> arc_words pl a1 a2 a3 p1 p2 ->
  c_helix c = HNone -> block_value p1 b (Some i) -> block_value p2 b (Some j) -> block_value "Q" b None -> block_value "L" b (Some l) ->
  evaluate tan_ log cabs stale mc inch line b c mv = (c', mv', None) ->
  finite i -> finite j -> finite l -> a_length (away (amount i) (amount j)) -> (1 <= amount l <= bpow radix2 100)%R ->
  near_spiral (cut c') (spiral_length (away (amount i) (amount j)) (amount l)) /\ rapid c' = dzero.
Proof. intros. eapply spiral_turns; eassumption. Qed.
Print Assumptions C84_turns_partial.

(** With Q, how much nearer each turn is, there are as many turns as Q goes into the radius. *)
Theorem C84_steps_partial : forall tan_ log cabs stale mc inch line b c mv c' mv' g p pl a1 a2 a3 p1 p2 i j q ol,
  proper_axes mc -> good_log log -> b <> [] -> no_tool b -> plain_codes b -> motion_code b c g -> In g [2; 3] ->
  in_force (code_of programmings) b (c_prog c) p -> in_force (code_of planes) b (c_plane c) pl -> arc_words pl a1 a2 a3 p1 p2 ->
  c_helix c = HNone -> block_value p1 b (Some i) -> block_value p2 b (Some j) -> block_value "Q" b (Some q) -> block_value "L" b ol ->
  evaluate tan_ log cabs stale mc inch line b c mv = (c', mv', None) ->
  finite i -> finite j -> finite q -> a_length (away (amount i) (amount j)) -> (bpow radix2 (-100) <= amount q <= away (amount i) (amount j))%R ->
  near_spiral (cut c') (spiral_length (away (amount i) (amount j)) (away (amount i) (amount j) / amount q)) /\ rapid c' = dzero.
Proof. intros. eapply spiral_steps; eassumption. Qed.
Print Assumptions C84_steps_partial.

Definition cnc : cnc_defaults := mkCnc 0 17 false 90 94 false 98 3 false false false false false false false false.
Definition mill : machine :=
  mkMachine false MTMill [] [("X", dz 10); ("Y", dzero); ("Z", dzero)] ["X"; "Y"; "Z"] (dz 20000) 6 0 0 false false "" "" "M" "123" cnc.
Definition dec (w v : string) : decimal := mkDec w None None None None (Some v) None None None.
Definition word (w v : string) : attr := ADec (dec w v).

Definition minus (w v : string) : attr := ADec (mkDec w None (Some "-"%char) None None (Some v) None None None).

(** From X10 around X0 Y0 in two turns, into the centre or only to X9: the same way
    is reported. *)
Definition around (x : string) : block := [word "G" "3"; word "X" x; minus "I" "10"; word "J" "0"; word "L" "2"; word "F" "100"].

(** What the theorems ask of such a block. *)
Lemma around_proper x : let b := around x in let c := calc_new mill in
  proper_axes mill /\ no_tool b /\ plain_codes b /\ motion_code b c 3 /\ in_force (code_of programmings) b (c_prog c) 90 /\
  in_force (code_of planes) b (c_plane c) 17 /\ arc_words 17 "X" "Y" "Z" "I" "J" /\ c_helix c = HNone /\
  block_value "I" b (Some (dz (-10))) /\ block_value "J" b (Some dzero) /\ block_value "Q" b None /\ block_value "L" b (Some (dz 2)).
Proof.
  cbv zeta.
  assert (NG : forall group, ~ In 3 group -> last_said (code_of group) (around x) None).
  { intros group N3 d a I (W & (t & V & N) & M). cbn in I. decompose [or] I; try contradiction; subst d; try discriminate.
    injection V as <-. vm_compute in N. injection N as <-. contradiction. }
  split. { intros w I J. cbn in I, J. intuition (subst; discriminate). }
  split. { split; intros (d & t & I & _); cbn in I; exact I. }
  split. { intros d t n I W V N. cbn in I. decompose [or] I; try contradiction; subst d; try discriminate. injection V as <-. vm_compute in N. injection N as <-.
    cbn. auto 10. }
  split. { left. exists []. do 2 eexists. split; [reflexivity|].
    split; [split; [reflexivity|split; [exists "3"; split; vm_compute; reflexivity|cbn; auto 10]]|].
    intros d a I (W & _). cbn in I. decompose [or] I; try contradiction; subst d; discriminate. }
  split. { right. split; [apply NG; cbn; intuition discriminate|reflexivity]. }
  split. { right. split; [apply NG; cbn; intuition discriminate|reflexivity]. }
  split. { left. auto 10. }
  split; [reflexivity|].
  split. { cbn. exists []. do 2 eexists. split; [reflexivity|]. split; [|intros d []]. split; [left; discriminate|]. eexists. split; vm_compute; reflexivity. }
  split. { cbn. exists []. do 2 eexists. split; [reflexivity|]. split; [|intros d []]. split; [left; discriminate|]. eexists. split; vm_compute; reflexivity. }
  split. { intros d I. cbn in I. contradiction. }
  cbn. exists []. do 2 eexists. split; [reflexivity|]. split; [|intros d []]. split; [left; discriminate|]. eexists. split; vm_compute; reflexivity.
Qed.

Theorem C84_end_refuted : forall tan_ log cabs x y c1 mv1 c2 mv2,
  evaluate tan_ log cabs 0 mill false 1 (around x) (calc_new mill) [] = (c1, mv1, None) ->
  evaluate tan_ log cabs 0 mill false 1 (around y) (calc_new mill) [] = (c2, mv2, None) -> cut c1 = cut c2.
Proof.
  assert (K : forall tan_ log cabs x c1 mv1, evaluate tan_ log cabs 0 mill false 1 (around x) (calc_new mill) [] = (c1, mv1, None) ->
    cut c1 = archimedes_l log (dz (-10)) dzero (dz 2)).
  { intros tan_ log cabs x c1 mv1 E. destruct (around_proper x) as (A & NT & PL & MC & P & L & TA & HN & BI & BJ & BQ & BL).
    eapply (spiral_block tan_ log cabs 0 mill A false 1 (around x) (calc_new mill) [] c1 mv1 3 90 17 "X" "Y" "Z" "I" "J" (dz (-10)) dzero None (Some (dz 2)));
      try eassumption; [discriminate|cbn; auto|right; discriminate]. }
  intros tan_ log cabs x y c1 mv1 c2 mv2 E1 E2. rewrite (K _ _ _ _ _ _ E1), (K _ _ _ _ _ _ E2). reflexivity.
Qed.
Print Assumptions C84_end_refuted.

(** Both blocks are evaluated and end in different places; the hypotheses of
    [C84_turns_partial] hold. *)
Example C84_ex : exists c0 mv0 c9 mv9,
  evaluate (fun x => x) (fun x => x) dabs 0 mill false 1 (around "0") (calc_new mill) [] = (c0, mv0, None) /\
  evaluate (fun x => x) (fun x => x) dabs 0 mill false 1 (around "9") (calc_new mill) [] = (c9, mv9, None) /\
  position "X" c0 = Some dzero /\ position "X" c9 = Some (dz 9) /\
  finite (dz (-10)) /\ finite dzero /\ finite (dz 2) /\ a_length (away (amount (dz (-10))) (amount dzero)) /\ (1 <= amount (dz 2) <= bpow radix2 100)%R.
Proof.
  do 4 eexists. split; [vm_compute; reflexivity|]. split; [vm_compute; reflexivity|]. do 2 (split; [vm_compute; reflexivity|]).
  split; [vm_compute; reflexivity|]. split; [exact Logic.I|]. split; [vm_compute; reflexivity|].
  assert (B1 : (bpow radix2 (-100) <= 1)%R) by (change 1%R with (bpow radix2 0); apply bpow_le; lia).
  assert (B2 : (16 <= bpow radix2 100)%R) by (change 16%R with (bpow radix2 4); apply bpow_le; lia).
  split.
  - replace (amount (dz (-10))) with (-10)%R.
    2:{ replace (dz (-10)) with (S754_finite true 5629499534213120 (-49)) by (vm_compute; reflexivity). unfold amount, SF2R, F2R, cond_Zopp. cbn. lra. }
    unfold away. replace (-10 * -10 + amount dzero * amount dzero)%R with (10 * 10)%R by (unfold amount, dzero; cbn [SF2R]; ring).
    rewrite sqrt_square by lra. split; lra.
  - replace (amount (dz 2)) with 2%R; [split; lra|]. replace (dz 2) with (S754_finite false 4503599627370496 (-51)) by (vm_compute; reflexivity).
    unfold amount, SF2R, F2R, cond_Zopp. cbn. lra.
Qed.

(** There is a logarithm as asked for: the nearest number. *)
Definition nearest (r : R) : dbl :=
  if Rlt_bool r (bpow radix2 (-1022)) then dzero
  else SpecFloat.binary_normalize 53 1024 (ZnearestE (scaled_mantissa radix2 (FLT_exp (-1074) 53) r)) (cexp radix2 (FLT_exp (-1074) 53) r) false.

Lemma nearest_about r : (0 <= r <= bpow radix2 1000)%R -> about (nearest r) r.
Proof.
  intros [L U]. unfold nearest. pose proof (bpow_gt_0 radix2 (-500)) as T. destruct (Rlt_bool_spec r (bpow radix2 (-1022))) as [S|S].
  - split; [exact Logic.I|]. unfold amount, dzero. cbn [SF2R].
    replace (0 - r)%R with (- r)%R by ring. rewrite Rabs_Ropp, Rabs_pos_eq by exact L.
    assert (B : (bpow radix2 (-1022) <= bpow radix2 (-500))%R) by (apply bpow_le; lia). lra.
  - assert (N : normal r).
    { unfold normal. rewrite Rabs_pos_eq by exact L. split; [exact S|]. eapply Rle_trans; [exact U|]. apply bpow_le. lia. }
    pose proof (normalize_rounds (ZnearestE (scaled_mantissa radix2 (FLT_exp (-1074) 53) r)) (cexp radix2 (FLT_exp (-1074) 53) r) false) as Q.
    change (F2R (Float radix2 (ZnearestE (scaled_mantissa radix2 (FLT_exp (-1074) 53) r)) (cexp radix2 (FLT_exp (-1074) 53) r))) with (rnd r) in Q.
    assert (I : rnd (rnd r) = rnd r).
    { unfold rnd at 1. apply round_generic; [apply valid_rnd_N|]. unfold rnd. apply generic_format_round; [apply FLT_exp_valid; reflexivity|apply valid_rnd_N]. }
    assert (Q' : rounds_to (SpecFloat.binary_normalize 53 1024 (ZnearestE (scaled_mantissa radix2 (FLT_exp (-1074) 53) r)) (cexp radix2 (FLT_exp (-1074) 53) r) false) r).
    { unfold rounds_to in Q |- *. rewrite I in Q. exact Q. }
    destruct (rounds_normal _ _ Q' N) as [F E]. split; [exact F|]. rewrite (Rabs_pos_eq r) in E by exact L.
    change amount with fR. eapply Rle_trans; [exact E|]. lra.
Qed.

Example C84_log_ex : good_log (fun x => nearest (ln (amount x))).
Proof.
  intros x F L. apply nearest_about. split.
  - destruct L as [L|<-]; [rewrite <- ln_1; left; apply ln_increasing; lra|rewrite ln_1; lra].
  - destruct (fR_format x F) as [_ B]. change (fR x) with (amount x) in B. rewrite Rabs_pos_eq in B by lra.
    assert (P : (bpow radix2 1024 <= exp 1024)%R).
    { change 1024%Z with (Z.of_nat 1024). rewrite bpow_powerRZ, <- pow_powerRZ, <- Rpower_pow by (cbn; lra). unfold Rpower.
      rewrite INR_IZR_INZ. change (Z.of_nat 1024) with 1024%Z.
      assert (L2 : (ln (IZR radix2) <= 1)%R).
      { cbn. pose proof (exp_ineq1 1 ltac:(lra)) as Q. rewrite <- (ln_exp 1). left. apply ln_increasing; lra. }
      assert (Q : (1024 * ln (IZR radix2) <= 1024)%R) by lra.
      destruct Q as [Q| ->]; [left; now apply exp_increasing|lra]. }
    assert (K : (ln (amount x) < 1024)%R). { rewrite <- (ln_exp 1024). apply ln_increasing; lra. }
    assert (B2 : (1024 <= bpow radix2 1000)%R) by (change 1024%R with (bpow radix2 10); apply bpow_le; lia). lra.
Qed.
