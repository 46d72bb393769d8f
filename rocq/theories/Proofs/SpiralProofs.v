(** Spirals: what a block is reported to have travelled. *)
From Coq Require Import Reals Lra.
From Flocq Require Import Core BinarySingleNaN.
From Verif Require Import Model.Base Model.Attr Model.Double Model.Macro Model.Verifiers Model.Splitter Model.PathGeom Model.PathCalc
  Spec.DoubleSpec Spec.SplitSpec Spec.PathSpec Spec.MotionSpec Spec.DrillSpec Spec.ArcSpec Spec.SpiralSpec Proofs.Tactics Proofs.DoubleFacts Proofs.PathFrame Proofs.PathVisit
  Proofs.PathTotals Proofs.PathRange Proofs.PathReset Proofs.FloatReal Proofs.MotionFloats Proofs.MotionVisit Proofs.MotionProofs Proofs.MotionBlocks
  Proofs.MotionTimes Proofs.DrillFloats Proofs.DrillProofs Proofs.ArcFloats Proofs.RelFloats Proofs.SpiralFloats.

Open Scope string_scope.
Open Scope list_scope.
Open Scope Z_scope.

Section Spiral.
Variables tan_ log cabs : dbl -> dbl.
Variable stale : Z.
Variable mc : machine.
Hypothesis axes : proper_axes mc.

Lemma spiral_block inch line b c mv c' mv' g p pl a1 a2 a3 p1 p2 i j oq ol : b <> [] -> no_tool b -> plain_codes b -> motion_code b c g ->
  In g [2; 3] -> in_force (code_of programmings) b (c_prog c) p -> in_force (code_of planes) b (c_plane c) pl -> arc_words pl a1 a2 a3 p1 p2 ->
  c_helix c = HNone -> block_value p1 b (Some i) -> block_value p2 b (Some j) ->
  block_value "Q" b oq -> block_value "L" b ol -> (oq <> None \/ ol <> None) ->
  evaluate tan_ log cabs stale mc inch line b c mv = (c', mv', None) ->
  rapid c' = dzero /\ cut c' = match oq, ol with Some q, _ => archimedes_q log i j q | None, Some l => archimedes_l log i j l | None, None => dzero end.
Proof.
  intros NE NT PL MC G P L TA HN BI BJ BQ BL QL E.
  assert (G0 : 0 <= g). { cbn in G. lia. }
  destruct (block_motion tan_ log cabs stale mc axes inch line b c mv c' mv' g NE NT PL MC G0 E)
    as (v & c1 & m & F & O & TE & TB & -> & MG & T & _ & K).
  destruct (forced mc axes v b c c1 p pl F T P L) as (MP & ML & CP & CR & MV).
  assert (PA : plane_axes (m_plane (current_modes mc v c1)) = (a1, a2, a3) /\ exists p3, plane_params (m_plane (current_modes mc v c1)) = (p1, p2, p3)).
  { rewrite ML. destruct TA as [(-> & -> & -> & -> & -> & ->)|[(-> & -> & -> & -> & -> & ->)|(-> & -> & -> & -> & -> & ->)]]; split; try reflexivity; eexists; reflexivity. }
  destruct PA as (PA & p3 & PP).
  assert (IP : forall w, In w ["X"; "Y"; "Z"; "I"; "J"; "K"; "Q"; "L"] -> is_param mc w = true).
  { intros w I. unfold is_param. cbn in I. decompose [or] I; try contradiction; subst w; reflexivity. }
  assert (A123 : forall w, In w [a1; a2; a3; p1; p2; "Q"; "L"] -> In w ["X"; "Y"; "Z"; "I"; "J"; "K"; "Q"; "L"]).
  { destruct TA as [(_ & -> & -> & -> & -> & ->)|[(_ & -> & -> & -> & -> & ->)|(_ & -> & -> & -> & -> & ->)]]; cbn; intros w I; decompose [or] I; subst; auto 12. }
  pose proof (fun w I o => block_value_one w b _ o (found_value mc w b v (IP w (A123 w I)) F)) as VA.
  pose proof (VA p1 ltac:(cbn; auto) _ BI) as V4. pose proof (VA p2 ltac:(cbn; auto 6) _ BJ) as V5.
  pose proof (VA "Q" ltac:(cbn; auto 7) _ BQ) as V6. pose proof (VA "L" ltac:(cbn; auto 8) _ BL) as V7.
  assert (HC : c_helix c1 = HNone). { rewrite (settled c_helix v c c1); [exact HN|reflexivity..|exact T]. }
  set (m := current_modes mc v c1) in *.
  assert (DC : (g =? 0) || (g =? 1) = false /\ (g =? 2) || (g =? 3) = true).
  { cbn in G. repeat (destruct G as [<-|G]; [split; reflexivity|]). contradiction. }
  destruct DC as (D1 & D2).
  assert (MO : forall c2 rr, motion tan_ log cabs mc v m c1 = (c2, rr) -> mbind (circular tan_ log cabs mc v m) (fun _ => ret g) c1 = (c2, rr)).
  { intros c2 rr H. unfold motion in H. rewrite MG, D1, D2 in H. exact H. }
  assert (VN : negb (is_some (v_g v)) && Nat.eqb (List.length (v_values v)) 0 = false).
  { destruct (v_values v) as [|kv vs] eqn:VV; [discriminate V4|]. apply andb_false_r. }
  assert (CI : forall c2 rr, circular tan_ log cabs mc v m c1 = (c2, rr) ->
    (exists l, rr = Throw l) \/ rr = Go tt /\ rapid c2 = dzero /\
       cut c2 = match oq, ol with Some q, _ => archimedes_q log i j q | None, Some l => archimedes_l log i j l | None, None => dzero end).
  { intros c2 rr EC. unfold circular in EC. rewrite VN, PA, PP in EC. unfold mbind at 1 in EC.
    set (t := (m_g m =? 2) && _ || _) in EC.
    assert (W : exists c0, when t no_cycle c1 = (c0, Go tt) /\ c_prev c0 = c_prev c1 /\ moved c0 = moved c1 /\ c_helix c0 = c_helix c1).
    { unfold when. destruct t; eexists; (split; [reflexivity|repeat split; reflexivity]). }
    destruct W as (c0 & W1 & W2 & W3 & W4). rewrite W1 in EC. rewrite MV in W3. rewrite HC in W4. rewrite CP in W2.
    unfold mbind at 1, get in EC. rewrite W2 in EC.
    unfold need in EC. destruct (assoc a1 (c_prev c)) as [xp|] eqn:Q1; [|left; injection EC as _ <-; eexists; reflexivity].
    destruct (assoc a2 (c_prev c)) as [yp|] eqn:Q2; [|left; injection EC as _ <-; eexists; reflexivity].
    right. unfold mbind, get, ret in EC. cbn [a_x a_y a_z a_i a_j a_k a_r] in EC. rewrite V4, V5, V6, V7 in EC. cbn [or_opt] in EC.
    injection W3 as W5 W6.
    destruct oq as [q|]; [|destruct ol as [l|]; [|destruct QL; contradiction]]; cbn [is_some orb deref upd_path upd ret fst snd] in EC;
      unfold upd_path, upd, deref, ret in EC; cbn [set_path c_helix c_path] in EC; rewrite W4 in EC; cbn [fst snd set_path c_helix c_path] in EC; rewrite W4 in EC;
      injection EC as <- <-; (split; [reflexivity|split; [exact W6|reflexivity]]). }
  destruct K as [(c2 & K & _)|(c2 & g' & c3 & K & Q3 & Q)].
  { exfalso. apply MO in K. unfold mbind in K. destruct (circular tan_ log cabs mc v m c1) as [d1 [a| |e]] eqn:ED; try discriminate.
    destruct (CI _ _ eq_refl) as [[l D]|[D _]]; discriminate. }
  apply MO in K. unfold mbind in K. destruct (circular tan_ log cabs mc v m c1) as [c4 [[]| |e]] eqn:ED; try discriminate.
  injection K as -> <-. destruct (CI _ _ eq_refl) as [[l D]|[_ (X3 & X4)]]; [discriminate|].
  assert (M3 : moved c' = moved c2). { rewrite Q, copy_books by reflexivity. rewrite Q3. reflexivity. }
  unfold moved in M3. injection M3 as M4 M5. unfold cut, rapid in *. rewrite M4, M5. auto.
Qed.

Lemma rel_spiral x r : rel 128 x r -> near_spiral x r.
Proof.
  intros (F & P & E). split; [exact F|]. change (amount x) with (fR x). eapply Rle_trans; [exact E|]. apply Req_le. unfold u. lra.
Qed.

Lemma radius_rel i j : finite i -> finite j -> a_length (away (amount i) (amount j)) -> rel 9 (line2 i j) (away (amount i) (amount j)).
Proof.
  intros Fi Fj [L U]. unfold away in *. change (amount i) with (fR i) in *. change (amount j) with (fR j) in *.
  assert (B : (forall a b, a * a <= a * a + b * b /\ Rabs a <= sqrt (a * a + b * b))%R).
  { intros a b. assert (0 <= b * b)%R by (pose proof (Rle_0_sqr b); exact H). split; [lra|].
    rewrite <- (sqrt_Rsqr_abs a). apply sqrt_le_1_alt. unfold Rsqr. lra. }
  assert (LI : (bpow radix2 100 <= limit)%R) by (unfold limit; apply bpow_le; lia).
  destruct (line2_near i j (fR i) (fR j)) as [F E].
  - apply rounded_self; [exact Fi|]. pose proof (proj2 (B (fR i) (fR j))). lra.
  - apply rounded_self; [exact Fj|]. pose proof (proj2 (B (fR j) (fR i))) as H. rewrite Rplus_comm in H. lra.
  - pose proof (bpow_gt_0 radix2 (-100)) as P. split; [exact F|]. split; [lra|]. eapply Rle_trans; [exact E|].
    set (r := sqrt (fR i * fR i + fR j * fR j)) in *.
    assert (K : (/ 2 ^ 50 = 8 * u)%R) by (unfold u; lra). rewrite K.
    assert (T : (bpow radix2 (-500) <= u * bpow radix2 (-100))%R).
    { replace (bpow radix2 (-500)) with (bpow radix2 (-400) * bpow radix2 (-100))%R by (rewrite <- bpow_plus; reflexivity).
      apply Rmult_le_compat_r; [lra|]. eapply Rle_trans; [apply (bpow_le radix2 (-400) (-60)); lia|]. rewrite u_val. cbn. lra. }
    pose proof u_pos. assert (u * bpow radix2 (-100) <= u * r)%R by (apply Rmult_le_compat_l; lra). lra.
Qed.

Theorem spiral_turns inch line b c mv c' mv' g p pl a1 a2 a3 p1 p2 i j l : good_log log -> b <> [] -> no_tool b -> plain_codes b -> motion_code b c g ->
  In g [2; 3] -> in_force (code_of programmings) b (c_prog c) p -> in_force (code_of planes) b (c_plane c) pl -> arc_words pl a1 a2 a3 p1 p2 ->
  c_helix c = HNone -> block_value p1 b (Some i) -> block_value p2 b (Some j) -> block_value "Q" b None -> block_value "L" b (Some l) ->
  evaluate tan_ log cabs stale mc inch line b c mv = (c', mv', None) ->
  finite i -> finite j -> finite l -> a_length (away (amount i) (amount j)) -> (1 <= amount l <= bpow radix2 100)%R ->
  near_spiral (cut c') (spiral_length (away (amount i) (amount j)) (amount l)) /\ rapid c' = dzero.
Proof.
  intros GL NE NT PL MC G P L TA HN BI BJ BQ BL E Fi Fj Fl RR LL.
  destruct (spiral_block inch line b c mv c' mv' g p pl a1 a2 a3 p1 p2 i j None (Some l) NE NT PL MC G P L TA HN BI BJ BQ BL ltac:(right; discriminate) E) as [RA ->].
  split; [|exact RA]. apply rel_spiral. apply archimedes_near; [exact GL| |now apply radius_rel| |exact RR].
  - apply (rel_more 0); [|lra]. apply rel_self; [exact Fl|]. change (fR l) with (amount l). lra.
  - split; [apply LL|]. eapply Rle_trans; [apply LL|]. apply bpow_le. lia.
Qed.

Theorem spiral_steps inch line b c mv c' mv' g p pl a1 a2 a3 p1 p2 i j q ol : good_log log -> b <> [] -> no_tool b -> plain_codes b -> motion_code b c g ->
  In g [2; 3] -> in_force (code_of programmings) b (c_prog c) p -> in_force (code_of planes) b (c_plane c) pl -> arc_words pl a1 a2 a3 p1 p2 ->
  c_helix c = HNone -> block_value p1 b (Some i) -> block_value p2 b (Some j) -> block_value "Q" b (Some q) -> block_value "L" b ol ->
  evaluate tan_ log cabs stale mc inch line b c mv = (c', mv', None) ->
  finite i -> finite j -> finite q -> a_length (away (amount i) (amount j)) -> (bpow radix2 (-100) <= amount q <= away (amount i) (amount j))%R ->
  near_spiral (cut c') (spiral_length (away (amount i) (amount j)) (away (amount i) (amount j) / amount q)) /\ rapid c' = dzero.
Proof.
  intros GL NE NT PL MC G P L TA HN BI BJ BQ BL E Fi Fj Fq RR QQ.
  destruct (spiral_block inch line b c mv c' mv' g p pl a1 a2 a3 p1 p2 i j (Some q) ol NE NT PL MC G P L TA HN BI BJ BQ BL ltac:(left; discriminate) E) as [RA ->].
  split; [|exact RA]. apply rel_spiral. pose proof (radius_rel i j Fi Fj RR) as RL. set (r := away (amount i) (amount j)) in *.
  pose proof (bpow_gt_0 radix2 (-100)) as B0.
  assert (QB : (bpow radix2 (-100) <= amount q <= bpow radix2 100)%R) by (destruct RR; lra).
  assert (DB : (bpow radix2 (-200) <= r / amount q <= bpow radix2 200)%R) by exact (range_mul _ _ _ _ _ _ RR (range_inv _ _ _ QB)).
  apply archimedes_near; [exact GL| |exact RL| |exact RR].
  - apply (rel_more (9 + 0 + 4)); [|lra]. apply rel_div; [exact RL| |lra|lra|].
    + apply rel_self; [exact Fq|]. change (fR q) with (amount q). lra.
    + refine (mid_of _ _ _ _ _ DB); lia.
  - split; [|eapply Rle_trans; [apply DB|]; apply bpow_le; lia].
    apply (Rmult_le_reg_r (amount q)); [lra|]. unfold Rdiv. rewrite Rmult_assoc, Rinv_l by lra. lra.
Qed.
End Spiral.

(** The formula is the length of the curve. *)
Lemma spiral_start a : spiral a 0 = 0%R.
Proof.
  unfold spiral. replace (1 + 0 * 0)%R with 1%R by ring. rewrite sqrt_1. replace (0 + 1)%R with 1%R by ring. rewrite ln_1. ring.
Qed.

Open Scope R_scope.
Lemma spiral_speed a t : derivable_pt_lim (spiral a) t (a * sqrt (1 + t * t))%R.
Proof.
  assert (P : (0 < 1 + t * t)%R) by (pose proof (Rle_0_sqr t); unfold Rsqr in *; lra).
  pose proof (sqrt_lt_R0 _ P) as SP. set (s := sqrt (1 + t * t)) in *.
  assert (SS : (s * s = 1 + t * t)%R) by (unfold s; apply sqrt_sqrt; lra).
  assert (TS : (0 < t + s)%R).
  { assert (Rabs t < s)%R; [|pose proof (Rle_abs (- t)); rewrite Rabs_Ropp in *; lra].
    rewrite <- (sqrt_Rsqr_abs t). unfold s. apply sqrt_lt_1_alt. unfold Rsqr. pose proof (Rle_0_sqr t). unfold Rsqr in *. lra. }
  assert (D0 : derivable_pt_lim (fun x => (1 + x * x)%R) t (2 * t)).
  { replace (2 * t)%R with (0 + (1 * t + t * 1))%R by ring.
    apply (derivable_pt_lim_plus (fun _ => 1%R) (fun x => (x * x)%R)); [apply derivable_pt_lim_const|].
    apply (derivable_pt_lim_mult (fun x => x) (fun x => x)); apply derivable_pt_lim_id. }
  assert (D1 : derivable_pt_lim (fun x => sqrt (1 + x * x)) t (t / s)).
  { replace (t / s)%R with (/ (2 * sqrt (1 + t * t)) * (2 * t))%R by (fold s; field; lra).
    apply (derivable_pt_lim_comp (fun x => (1 + x * x)%R) sqrt); [exact D0|]. apply derivable_pt_lim_sqrt. exact P. }
  assert (D2 : derivable_pt_lim (fun x => (x * sqrt (1 + x * x))%R) t (1 * s + t * (t / s))).
  { apply (derivable_pt_lim_mult (fun x => x) (fun x => sqrt (1 + x * x))); [apply derivable_pt_lim_id|exact D1]. }
  assert (D3 : derivable_pt_lim (fun x => ln (x + sqrt (1 + x * x))) t (/ (t + s) * (1 + t / s))).
  { apply (derivable_pt_lim_comp (fun x => (x + sqrt (1 + x * x))%R) ln).
    - apply (derivable_pt_lim_plus (fun x => x) (fun x => sqrt (1 + x * x))); [apply derivable_pt_lim_id|exact D1].
    - apply derivable_pt_lim_ln. exact TS. }
  replace (a * s)%R with (a / 2 * ((1 * s + t * (t / s)) + / (t + s) * (1 + t / s)))%R.
  - apply (derivable_pt_lim_scal (fun x => (x * sqrt (1 + x * x) + ln (x + sqrt (1 + x * x)))%R) (a / 2)).
    apply (derivable_pt_lim_plus (fun x => (x * sqrt (1 + x * x))%R) (fun x => ln (x + sqrt (1 + x * x)))); assumption.
  - replace (/ (t + s) * (1 + t / s))%R with (/ s)%R by (field; lra).
    replace (1 * s + t * (t / s) + / s)%R with ((s * s + (1 + t * t)) / s)%R by (field; lra). rewrite <- SS. field. lra.
Qed.
