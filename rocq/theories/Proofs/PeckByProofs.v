(** Deep drilling with incremental coordinates. *)
From Coq Require Import Reals Lra.
From Flocq Require Import Core BinarySingleNaN.
From Verif Require Import Model.Base Model.Attr Model.Double Model.Macro Model.Verifiers Model.Splitter Model.PathGeom Model.PathCalc
  Spec.DoubleSpec Spec.SplitSpec Spec.PathSpec Spec.MotionSpec Spec.DrillSpec Spec.ArcSpec Proofs.Tactics Proofs.PathFrame Proofs.PathVisit Proofs.PathTotals Proofs.PathRange
  Proofs.PathReset Proofs.FloatReal Proofs.MotionFloats Proofs.MotionVisit Proofs.MotionProofs Proofs.MotionBlocks Proofs.MotionTimes Proofs.DrillFloats
  Proofs.DrillProofs Proofs.RelFloats Proofs.ArcEnds Proofs.FineProofs Proofs.PeckProofs.

Open Scope R_scope.

Lemma size_off x : on_machine x -> off (dabs x) (Rabs (fR x)) (/ 1000000000) /\ 0 <= Rabs (fR x) <= 1000000.
Proof.
  intros [F B]. unfold size in B. change amount with fR in B. split; [|split; [apply Rabs_pos|exact B]]. split; [apply dabs_finite; exact F|].
  rewrite dabs_fR, Rminus_diag_eq, Rabs_R0 by reflexivity. lra.
Qed.

Lemma travel_by_off x y : on_machine x -> on_machine y -> off (line2 x y) (way (amount x) (amount y) 0) (/ 10000000) /\ 0 <= way (amount x) (amount y) 0 <= 4000000.
Proof.
  intros [F3 B3] [F4 B4]. unfold size in *. change amount with fR in *.
  assert (L : 1000000 * 1000 <= limit). { unfold limit. eapply Rle_trans; [|apply (bpow_le radix2 40); lia]. cbn. lra. }
  pose proof (line2_near _ _ _ _ (rounded_self x F3 ltac:(lra)) (rounded_self y F4 ltac:(lra))) as N.
  assert (WE : way (fR x) (fR y) 0 = sqrt (fR x * fR x + fR y * fR y)) by (unfold way; f_equal; ring).
  rewrite WE.
  assert (S : sqrt (fR x * fR x + fR y * fR y) <= 4000000) by (eapply Rle_trans; [apply line2_bound|]; lra).
  assert (C : close 8 (bpow radix2 (-500)) (line2 x y) (sqrt (fR x * fR x + fR y * fR y)) 4000000).
  { apply near_close; [exact N|split; [apply sqrt_pos|exact S]|lra]. }
  destruct C as (F & E & _). split; [split; [exact F|]|split; [apply sqrt_pos|exact S]]. eapply Rle_trans; [exact E|]. rewrite u_val.
  assert (T : bpow radix2 (-500) <= / 1000000000). { eapply Rle_trans; [apply (bpow_le radix2 (-500) (-40)); lia|]. cbn. lra. } lra.
Qed.

Open Scope string_scope.
Open Scope list_scope.
Open Scope Z_scope.

Section PeckBy.
Variables tan_ log cabs : dbl -> dbl.
Variable stale : Z.
Variable mc : machine.
Hypothesis axes : proper_axes mc.

Lemma cycle_go_q_by v m axis c c' w : is_drill_cycle_qparam (m_g m) = true -> mc_no_y mc = false -> m_prog m = 91 -> cycle_distance mc v m axis c = (c', Go w) ->
  c' = c /\ exists zp z r q, assoc axis (c_prev c) = Some zp /\ assoc axis (v_values v) = Some z /\ assoc "R" (v_values v) = Some r /\
    assoc "Q" (v_values v) = Some q /\ drill_q_incr z r q (m_g m) (m_return m) = Ok w.
Proof.
  intros Q N P E. unfold cycle_distance in E. rewrite N, Q in E. unfold mbind at 1, get in E. cbn beta iota in E.
  unfold mbind at 1 in E. destruct (need (assoc axis (c_prev c)) _ c) as [d1 [zp| |]] eqn:E1; try discriminate.
  apply need_go in E1 as [-> E1].
  unfold mbind at 1 in E. destruct (assoc axis (v_values v)) as [z|] eqn:E2; [|discriminate]. cbn [ret] in E. try unfold ret in E.
  unfold mbind at 1 in E. destruct (need (assoc "R" (v_values v)) _ c) as [d2 [r| |]] eqn:E3; try discriminate.
  apply need_go in E3 as [-> E3]. unfold mbind, deref in E. destruct (assoc "Q" (v_values v)) as [q|] eqn:E4; [|discriminate].
  unfold ret in E. rewrite P in E. cbn [Z.eqb Pos.eqb] in E. unfold lift in E. destruct (drill_q_incr _ _ _ _ _) as [w'|e] eqn:E5; [|discriminate].
  injection E as <- <-. split; [reflexivity|]. exists zp, z, r, q. auto.
Qed.

Lemma drilling_fine_by v m c c2 a1 a2 a3 : plane_axes (m_plane m) = (a1, a2, a3) -> is_drill_cycle_qparam (m_g m) = true -> mc_no_y mc = false -> m_prog m = 91 ->
  p_holes (c_path c) = 0 -> assoc "K" (v_values v) = None -> drilling mc v m c = (c2, Go tt) ->
  exists zp z r q xp yp w, assoc a3 (c_prev c) = Some zp /\ assoc a3 (v_values v) = Some z /\ assoc "R" (v_values v) = Some r /\
    assoc "Q" (v_values v) = Some q /\ assoc a1 (c_prev c) = Some xp /\ assoc a2 (c_prev c) = Some yp /\
    drill_q_incr z r q (m_g m) (m_return m) = Ok w /\
    moved c2 = (let '(w, f) := hole_by (or_else (assoc a1 (v_values v)) dzero) (or_else (assoc a2 (v_values v)) dzero) w in
                (dadd (p_work (c_path c)) w, dadd (p_fast (c_path c)) f)).
Proof.
  intros PA Q N P H K E. unfold drilling in E. rewrite PA, K in E. destruct (negb (is_some (v_g v)) && _); [discriminate|].
  unfold mbind at 1, get in E. cbn beta iota in E. rewrite H in E. cbn [Z.eqb orb when is_some] in E.
  unfold mbind at 1 in E. unfold mbind at 1 in E. destruct (cycle_distance mc v m a3 c) as [d1 [w| |]] eqn:EC; try discriminate.
  apply cycle_go_q_by in EC as (-> & zp & z & r & q & Zp & Zz & Rr & Qq & W); [|assumption..].
  unfold upd_path, upd in E. cbn beta iota in E.
  set (c1 := set_path _ c) in E. unfold mbind at 1 in E. cbn beta iota in E.
  assert (PV : c_prev c1 = c_prev c) by reflexivity. assert (PC : p_cycle (c_path c1) = w) by reflexivity.
  assert (PM : p_work (c_path c1) = p_work (c_path c) /\ p_fast (c_path c1) = p_fast (c_path c)) by (split; reflexivity). destruct PM as [PW PF].
  rewrite PV in E. clearbody c1.
  unfold mbind at 1 in E. destruct (need (assoc a1 (c_prev c)) _ c1) as [d1 [xp| |]] eqn:EX; try discriminate. apply need_go in EX as [-> EX].
  unfold mbind at 1 in E. destruct (need (assoc a2 (c_prev c)) _ c1) as [d2 [yp| |]] eqn:EY; try discriminate. apply need_go in EY as [-> EY].
  exists zp, z, r, q, xp, yp, w. do 7 (split; [assumption|]). rewrite P in E. cbn [Z.eqb Pos.eqb] in E.
  unfold mbind at 1 in E. unfold mbind at 1 in E. cbn [ret] in E. unfold ret in E. change (Z.to_nat 1) with 1%nat in E. cbn [holes] in E.
  unfold mbind at 1 in E. unfold upd_path, upd in E. cbn beta iota in E. unfold ret in E. cbn beta iota in E. rewrite PC in E.
  destruct (hole_by _ _ _) as [w' f] in E |- *. injection E as <-. unfold moved. cbn. rewrite PW, PF. reflexivity.
Qed.

Lemma fine_block_by inch line b c mv c' mv' g pl ret_ a1 a2 a3 ox oy z r q : b <> [] -> no_tool b -> plain_codes b -> motion_code b c g ->
  In g [73; 76; 83; 87] -> in_force (code_of programmings) b (c_prog c) 91 -> in_force (code_of planes) b (c_plane c) pl -> tool_axes pl a1 a2 a3 ->
  in_force (code_of returns) b (c_return c) ret_ -> mc_no_y mc = false -> p_holes (c_path c) = 0 ->
  block_value a1 b ox -> block_value a2 b oy -> block_value a3 b (Some z) -> block_value "R" b (Some r) -> block_value "Q" b (Some q) -> block_value "K" b None ->
  evaluate tan_ log cabs stale mc inch line b c mv = (c', mv', None) ->
  exists zp xp yp w, position a3 c = Some zp /\ position a1 c = Some xp /\ position a2 c = Some yp /\
    drill_q_incr z r q g ret_ = Ok w /\ moved c' = (let '(w, f) := hole_by (or_else ox dzero) (or_else oy dzero) w in (dadd dzero w, dadd dzero f)).
Proof.
  intros NE NT PL MC G P L TA RT NY PH BX BY BZ BR BQ BK E.
  assert (G0 : 0 <= g). { cbn in G. lia. }
  destruct (block_motion tan_ log cabs stale mc axes inch line b c mv c' mv' g NE NT PL MC G0 E)
    as (v & c1 & m & F & O & TE & TB & -> & MG & T & _ & K).
  destruct (forced mc axes v b c c1 91 pl F T P L) as (MP & ML & CP & CR & MV).
  assert (MR : m_return (current_modes mc v c1) = ret_).
  { cbn [current_modes m_return]. apply (said_in_force _ _ _ _ _ (code_of_one returns) (found_return mc axes b v F)).
    rewrite (settled c_return v c c1); [exact RT|reflexivity..|exact T]. }
  assert (PA : plane_axes (m_plane (current_modes mc v c1)) = (a1, a2, a3)).
  { rewrite ML. destruct TA as [(-> & -> & -> & ->)|[(-> & -> & -> & ->)|(-> & -> & -> & ->)]]; reflexivity. }
  assert (IP : forall w, In w ["X"; "Y"; "Z"; "R"; "Q"; "K"] -> is_param mc w = true).
  { intros w I. unfold is_param. cbn in I. decompose [or] I; try contradiction; subst w; reflexivity. }
  assert (A123 : In a1 ["X"; "Y"; "Z"; "R"; "Q"; "K"] /\ In a2 ["X"; "Y"; "Z"; "R"; "Q"; "K"] /\ In a3 ["X"; "Y"; "Z"; "R"; "Q"; "K"]).
  { destruct TA as [(_ & -> & -> & ->)|[(_ & -> & -> & ->)|(_ & -> & -> & ->)]]; cbn; auto 10. }
  destruct A123 as (I1 & I2 & I3).
  pose proof (fun w I o => block_value_one w b _ o (found_value mc w b v (IP w I) F)) as VA.
  pose proof (VA a1 I1 ox BX) as V1. pose proof (VA a2 I2 oy BY) as V2. pose proof (VA a3 I3 _ BZ) as V3.
  pose proof (VA "R" ltac:(cbn; auto) _ BR) as V4. pose proof (VA "Q" ltac:(cbn; auto 7) _ BQ) as V6. pose proof (VA "K" ltac:(cbn; auto 8) _ BK) as V5.
  set (m := current_modes mc v c1) in *.
  assert (DC : is_drill_cycle g || is_drill_cycle_qparam g = true /\ is_drill_cycle_qparam g = true /\ (g =? 0) || (g =? 1) = false /\ (g =? 2) || (g =? 3) = false /\ g =? 80 = false).
  { cbn in G. repeat (destruct G as [<-|G]; [repeat (split; [reflexivity|]); reflexivity|]). contradiction. }
  destruct DC as (D1 & D2 & D3 & D4 & D5).
  assert (MO : forall c2 rr, motion tan_ log cabs mc v m c1 = (c2, rr) -> mbind (drilling mc v m) (fun _ => ret g) c1 = (c2, rr)).
  { intros c2 rr H. unfold motion in H. rewrite MG, D3, D4, D5, D1 in H. exact H. }
  assert (HO : p_holes (c_path c1) = 0).
  { rewrite (settled (fun c => p_holes (c_path c)) v c c1); [exact PH|reflexivity..|exact T]. }
  destruct K as [(c2 & K & _)|(c2 & g' & c3 & K & Q3 & Q)].
  { exfalso. apply MO in K. unfold mbind in K. destruct (drilling mc v m c1) as [d1 [a| |e]] eqn:ED; try discriminate.
    unfold drilling in ED. destruct (v_values v) as [|kv vs] eqn:VV; [discriminate V3|]. cbn [List.length Nat.eqb] in ED.
    rewrite andb_false_r, PA in ED.
    match type of ED with ?t c1 = _ => assert (S : stays t) end.
    { unfold cycle_distance, set_both. stays; apply holes_stay. }
    exact (S _ _ ED). }
  apply MO in K. unfold mbind in K. destruct (drilling mc v m c1) as [c4 [[]| |e]] eqn:ED; try discriminate.
  injection K as -> <-.
  destruct (drilling_fine_by v m c1 c2 a1 a2 a3 PA ltac:(rewrite MG; exact D2) NY MP HO V5 ED) as (zp & z' & r' & q' & xp & yp & w & Zp & Zz & Rr & Qq & Xp & Yp & W & MM).
  rewrite V3 in Zz. injection Zz as <-. rewrite V4 in Rr. injection Rr as <-. rewrite V6 in Qq. injection Qq as <-. rewrite CP in Zp, Xp, Yp.
  rewrite MG, MR in W. rewrite V1, V2 in MM. unfold moved in MV. injection MV as MV1 MV2. rewrite MV1, MV2 in MM.
  exists zp, xp, yp, w. do 4 (split; [assumption|]).
  rewrite Q, copy_books by reflexivity. rewrite Q3. exact MM.
Qed.


Theorem pecked_by inch line b c mv c' mv' pl ret_ a1 a2 a3 ox oy z r q n : b <> [] -> no_tool b -> plain_codes b -> motion_code b c 83 ->
  in_force (code_of programmings) b (c_prog c) 91 -> in_force (code_of planes) b (c_plane c) pl -> tool_axes pl a1 a2 a3 ->
  in_force (code_of returns) b (c_return c) ret_ -> In ret_ [98; 99] -> mc_no_y mc = false -> p_holes (c_path c) = 0 ->
  block_value a1 b ox -> block_value a2 b oy -> block_value a3 b (Some z) -> block_value "R" b (Some r) -> block_value "Q" b (Some q) -> block_value "K" b None ->
  evaluate tan_ log cabs stale mc inch line b c mv = (c', mv', None) ->
  let x := or_else ox dzero in let y := or_else oy dzero in
  on_machine x -> on_machine y -> on_machine z -> on_machine r -> on_machine q ->
  let depth := Rabs (amount z) in
  (n <= 1000)%nat -> (/ 1000 <= amount q)%R -> ((INR n + / 1000) * amount q <= depth <= (INR n + 999 / 1000) * amount q)%R ->
  finite (cut c') /\ (Rabs (amount (cut c') - peck_cut n (amount q) depth) <= / 100000)%R /\
  finite (rapid c') /\
  (Rabs (amount (rapid c') - (peck_rapid n ret_ 0 (amount r) (amount q) depth + way (amount x) (amount y) 0)) <= / 100000)%R.
Proof.
  intros NE NT PL MC P L TA RT RR NY PH BX BY BZ BR BQ BK E x y MX MY MZ MR MQ depth N LQ B.
  destruct (fine_block_by inch line b c mv c' mv' 83 pl ret_ a1 a2 a3 ox oy z r q NE NT PL MC ltac:(cbn; auto) P L TA RT NY PH BX BY BZ BR BQ BK E)
    as (zp' & xp' & yp' & w & _ & _ & _ & W & M).
  fold x y in M. unfold hole_by, moved in M. injection M as M1 M2. unfold cut, rapid. rewrite M1, M2.
  destruct (size_off z MZ) as [OD DB]. destruct (size_off r MR) as [OW WB]. change (fR z) with (amount z) in OD, DB. fold depth in OD, DB.
  unfold drill_q_incr in W. cbn [Z.eqb Pos.eqb] in W.
  assert (RT' : ret_ = 98 \/ ret_ = 99) by (cbn in RR; intuition).
  destruct (peck_near _ q _ _ n ret_ _ _ w MQ LQ OD OW N ltac:(lra) B ltac:(lra) RT' (or_intror eq_refl) W) as [O1 O2]. change (fR q) with (amount q) in O1, O2.
  destruct (travel_by_off x y MX MY) as [OT TB].
  assert (OZ : off dzero 0 0). { split; [exact Logic.I|]. replace (fR dzero) with 0%R by reflexivity. rewrite Rminus_0_r, Rabs_R0. lra. }
  assert (SB : (0 <= INR n <= 1000)%R). { split; [apply pos_INR|]. replace 1000%R with (INR 1000) by (rewrite INR_IZR_INZ; reflexivity). now apply le_INR. }
  set (T := way _ _ _) in *. change (fR r) with (amount r) in *.
  assert (PR : peck_rapid n ret_ 0 (amount r) (amount q) depth = (strokes n (amount q) + 2 * depth - peck_cut n (amount q) depth + Rabs (amount r) * if ret_ =? 98 then 2 else 1)%R).
  { unfold peck_rapid. rewrite Rminus_0_l, Rabs_Ropp. reflexivity. }
  rewrite <- PR in O2.
  assert (CB : (0 <= peck_cut n (amount q) depth <= 2000000)%R /\ (Rabs (peck_rapid n ret_ 0 (amount r) (amount q) depth + T) <= 3900000000)%R).
  { rewrite PR. unfold peck_cut. rewrite strokes_are. set (v := INR n) in *. set (Q := amount q) in *. set (WW := Rabs (amount r)) in *. clearbody v Q WW T depth.
    assert (NQ : (0 <= v * Q <= 2000000)%R) by (split; [apply Rmult_le_pos; lra|lra]). assert (NN : (0 <= v * (v * Q) <= 2000000000)%R) by (split; [apply Rmult_le_pos; lra|]; apply Rle_trans with (1000 * 2000000)%R; [apply Rmult_le_compat; lra|lra]).
    assert (R2 : (0 <= WW * (if ret_ =? 98 then 2 else 1) <= 4000000)%R) by (destruct (ret_ =? 98); lra).
    split; [lra|]. replace ((v * v + v) * Q)%R with (v * (v * Q) + v * Q)%R by ring. apply Rabs_le. lra. }
  destruct CB as [CB RB].
  pose proof (off_add _ _ _ _ _ _ OZ O1 ltac:(lra) ltac:(lra) ltac:(apply Rabs_le; lra)) as [F1 E1]. rewrite Rplus_0_l in E1 at 1.
  split; [exact F1|]. split; [eapply Rle_trans; [exact E1|lra]|].
  pose proof (off_add _ _ _ _ _ _ O2 OT ltac:(lra) ltac:(lra) RB) as O3.
  pose proof (off_add _ _ _ _ _ _ OZ O3 ltac:(lra) ltac:(lra) ltac:(rewrite Rplus_0_l; exact RB)) as [F2 E2]. rewrite Rplus_0_l in E2 at 1.
  split; [exact F2|]. eapply Rle_trans; [exact E2|lra].
Qed.
End PeckBy.
