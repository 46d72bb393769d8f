(** Fine boring: what a block is reported to have travelled. *)
From Coq Require Import Reals Lra.
From Flocq Require Import Core Mult_error BinarySingleNaN.
From Verif Require Import Model.Base Model.Attr Model.Double Model.Macro Model.Verifiers Model.Splitter Model.PathGeom Model.PathCalc
  Spec.DoubleSpec Spec.SplitSpec Spec.PathSpec Spec.MotionSpec Spec.DrillSpec Proofs.Tactics Proofs.PathFrame Proofs.PathVisit Proofs.PathTotals Proofs.PathRange
  Proofs.PathReset Proofs.FloatReal Proofs.MotionFloats Proofs.MotionVisit Proofs.MotionProofs Proofs.MotionBlocks Proofs.MotionTimes Proofs.DrillFloats
  Proofs.DrillProofs.

Open Scope string_scope.
Open Scope list_scope.
Open Scope Z_scope.

Section Fine.
Variables tan_ log cabs : dbl -> dbl.
Variable stale : Z.
Variable mc : machine.
Hypothesis axes : proper_axes mc.

Lemma cycle_go_q v m axis c c' w : is_drill_cycle_qparam (m_g m) = true -> mc_no_y mc = false -> m_prog m = 90 -> cycle_distance mc v m axis c = (c', Go w) ->
  c' = c /\ exists zp z r q, assoc axis (c_prev c) = Some zp /\ assoc axis (v_values v) = Some z /\ assoc "R" (v_values v) = Some r /\
    assoc "Q" (v_values v) = Some q /\ drill_q zp z r q (cd_z_incremental (mc_cnc mc)) (m_g m) (m_return m) = Ok w.
Proof.
  intros Q N P E. unfold cycle_distance in E. rewrite N, Q in E. unfold mbind at 1, get in E. cbn beta iota in E.
  unfold mbind at 1 in E. destruct (need (assoc axis (c_prev c)) _ c) as [d1 [zp| |]] eqn:E1; try discriminate.
  apply need_go in E1 as [-> E1].
  unfold mbind at 1 in E. destruct (assoc axis (v_values v)) as [z|] eqn:E2; [|discriminate]. cbn [ret] in E. try unfold ret in E.
  unfold mbind at 1 in E. destruct (need (assoc "R" (v_values v)) _ c) as [d2 [r| |]] eqn:E3; try discriminate.
  apply need_go in E3 as [-> E3]. unfold mbind, deref in E. destruct (assoc "Q" (v_values v)) as [q|] eqn:E4; [|discriminate].
  unfold ret in E. rewrite P in E. cbn [Z.eqb Pos.eqb] in E. unfold lift in E. destruct (drill_q _ _ _ _ _ _ _) as [w'|e] eqn:E5; [|discriminate].
  injection E as <- <-. split; [reflexivity|]. exists zp, z, r, q. auto.
Qed.

Lemma drilling_fine v m c c2 a1 a2 a3 : plane_axes (m_plane m) = (a1, a2, a3) -> is_drill_cycle_qparam (m_g m) = true -> mc_no_y mc = false -> m_prog m = 90 ->
  p_holes (c_path c) = 0 -> assoc "K" (v_values v) = None -> drilling mc v m c = (c2, Go tt) ->
  exists zp z r q xp yp w, assoc a3 (c_prev c) = Some zp /\ assoc a3 (v_values v) = Some z /\ assoc "R" (v_values v) = Some r /\
    assoc "Q" (v_values v) = Some q /\ assoc a1 (c_prev c) = Some xp /\ assoc a2 (c_prev c) = Some yp /\
    drill_q zp z r q (cd_z_incremental (mc_cnc mc)) (m_g m) (m_return m) = Ok w /\
    moved c2 = hole_to xp yp (or_else (assoc a1 (v_values v)) xp) (or_else (assoc a2 (v_values v)) yp) w.
Proof.
  intros PA Q N P H K E. unfold drilling in E. rewrite PA, K in E. destruct (negb (is_some (v_g v)) && _); [discriminate|].
  unfold mbind at 1, get in E. cbn beta iota in E. rewrite H in E. cbn [Z.eqb orb when is_some] in E.
  unfold mbind at 1 in E. unfold mbind at 1 in E. destruct (cycle_distance mc v m a3 c) as [d1 [w| |]] eqn:EC; try discriminate.
  apply cycle_go_q in EC as (-> & zp & z & r & q & Zp & Zz & Rr & Qq & W); [|assumption..].
  unfold upd_path, upd in E. cbn beta iota in E.
  set (c1 := set_path _ c) in E. unfold mbind at 1 in E. cbn beta iota in E.
  assert (PV : c_prev c1 = c_prev c) by reflexivity. assert (PC : p_cycle (c_path c1) = w) by reflexivity.
  rewrite PV in E. clearbody c1.
  unfold mbind at 1 in E. destruct (need (assoc a1 (c_prev c)) _ c1) as [d1 [xp| |]] eqn:EX; try discriminate. apply need_go in EX as [-> EX].
  unfold mbind at 1 in E. destruct (need (assoc a2 (c_prev c)) _ c1) as [d2 [yp| |]] eqn:EY; try discriminate. apply need_go in EY as [-> EY].
  exists zp, z, r, q, xp, yp, w. do 7 (split; [assumption|]). rewrite P in E. cbn [Z.eqb Pos.eqb] in E.
  unfold mbind at 1 in E. unfold mbind at 1 in E. cbn beta iota in E. rewrite PC in E. unfold set_both, upd_path, upd in E.
  cbn beta iota in E. unfold mbind in E. injection E as <-. reflexivity.
Qed.

Lemma fine_block inch line b c mv c' mv' g pl ret_ a1 a2 a3 ox oy z r q : b <> [] -> no_tool b -> plain_codes b -> motion_code b c g ->
  In g [73; 76; 83; 87] -> in_force (code_of programmings) b (c_prog c) 90 -> in_force (code_of planes) b (c_plane c) pl -> tool_axes pl a1 a2 a3 ->
  in_force (code_of returns) b (c_return c) ret_ -> mc_no_y mc = false -> p_holes (c_path c) = 0 ->
  block_value a1 b ox -> block_value a2 b oy -> block_value a3 b (Some z) -> block_value "R" b (Some r) -> block_value "Q" b (Some q) -> block_value "K" b None ->
  evaluate tan_ log cabs stale mc inch line b c mv = (c', mv', None) ->
  exists zp xp yp w, position a3 c = Some zp /\ position a1 c = Some xp /\ position a2 c = Some yp /\
    drill_q zp z r q (cd_z_incremental (mc_cnc mc)) g ret_ = Ok w /\ moved c' = hole_to xp yp (or_else ox xp) (or_else oy yp) w.
Proof.
  intros NE NT PL MC G P L TA RT NY PH BX BY BZ BR BQ BK E.
  assert (G0 : 0 <= g). { cbn in G. lia. }
  destruct (block_motion tan_ log cabs stale mc axes inch line b c mv c' mv' g NE NT PL MC G0 E)
    as (v & c1 & m & F & O & TE & TB & -> & MG & T & _ & K).
  destruct (forced mc axes v b c c1 90 pl F T P L) as (MP & ML & CP & CR & MV).
  assert (MR : m_return (current_modes mc v c1) = ret_).
  { cbn [current_modes m_return]. apply (said_in_force _ _ _ _ _ (code_of_one returns) (found_return mc axes b v F)).
    rewrite (settled c_return v c c1); [exact RT|reflexivity..|exact T]. }
  assert (PA : plane_axes (m_plane (current_modes mc v c1)) = (a1, a2, a3)).
  { rewrite ML. destruct TA as [(-> & -> & -> & ->)|[(-> & -> & -> & ->)|(-> & -> & -> & ->)]]; reflexivity. }
  assert (IP : forall w, In w ["X"; "Y"; "Z"; "R"; "Q"; "K"] -> is_param mc w = true).
  { intros w I. unfold is_param. cbn in I. decompose [or] I; try contradiction; subst w; reflexivity. }
  assert (A123 : In a1 ["X"; "Y"; "Z"; "R"; "Q"; "K"] /\ In a2 ["X"; "Y"; "Z"; "R"; "Q"; "K"] /\ In a3 ["X"; "Y"; "Z"; "R"; "Q"; "K"]).
  { destruct TA as [(_ & -> & -> & ->)|[(_ & -> & -> & ->)|(_ & -> & -> & ->)]]; cbn; auto 10. }
  destruct A123 as (I1 & I2 & I3).
  pose proof (fun w I o => block_value_one w b _ o (found_value mc w b v (IP w I) F)) as VA.
  pose proof (VA a1 I1 ox BX) as V1. pose proof (VA a2 I2 oy BY) as V2. pose proof (VA a3 I3 _ BZ) as V3.
  pose proof (VA "R" ltac:(cbn; auto) _ BR) as V4. pose proof (VA "Q" ltac:(cbn; auto 7) _ BQ) as V6. pose proof (VA "K" ltac:(cbn; auto 8) _ BK) as V5.
  set (m := current_modes mc v c1) in *.
  assert (DC : is_drill_cycle g || is_drill_cycle_qparam g = true /\ is_drill_cycle_qparam g = true /\ (g =? 0) || (g =? 1) = false /\ (g =? 2) || (g =? 3) = false /\ g =? 80 = false).
  { cbn in G. repeat (destruct G as [<-|G]; [repeat (split; [reflexivity|]); reflexivity|]). contradiction. }
  destruct DC as (D1 & D2 & D3 & D4 & D5).
  assert (MO : forall c2 rr, motion tan_ log cabs mc v m c1 = (c2, rr) -> mbind (drilling mc v m) (fun _ => ret g) c1 = (c2, rr)).
  { intros c2 rr H. unfold motion in H. rewrite MG, D3, D4, D5, D1 in H. exact H. }
  assert (HO : p_holes (c_path c1) = 0).
  { rewrite (settled (fun c => p_holes (c_path c)) v c c1); [exact PH|reflexivity..|exact T]. }
  destruct K as [(c2 & K & _)|(c2 & g' & c3 & K & Q3 & Q)].
  { exfalso. apply MO in K. unfold mbind in K. destruct (drilling mc v m c1) as [d1 [a| |e]] eqn:ED; try discriminate.
    unfold drilling in ED. destruct (v_values v) as [|kv vs] eqn:VV; [discriminate V3|]. cbn [List.length Nat.eqb] in ED.
    rewrite andb_false_r, PA in ED.
    match type of ED with ?t c1 = _ => assert (S : stays t) end.
    { unfold cycle_distance, set_both. stays; apply holes_stay. }
    exact (S _ _ ED). }
  apply MO in K. unfold mbind in K. destruct (drilling mc v m c1) as [c4 [[]| |e]] eqn:ED; try discriminate.
  injection K as -> <-.
  destruct (drilling_fine v m c1 c2 a1 a2 a3 PA ltac:(rewrite MG; exact D2) NY MP HO V5 ED) as (zp & z' & r' & q' & xp & yp & w & Zp & Zz & Rr & Qq & Xp & Yp & W & MM).
  rewrite V3 in Zz. injection Zz as <-. rewrite V4 in Rr. injection Rr as <-. rewrite V6 in Qq. injection Qq as <-. rewrite CP in Zp, Xp, Yp.
  rewrite MG, MR in W. rewrite V1, V2 in MM.
  exists zp, xp, yp, w. do 4 (split; [assumption|]).
  rewrite Q, copy_books by reflexivity. rewrite Q3. exact MM.
Qed.


Lemma fine_close zp z r q ret_ w : In ret_ [98; 99] -> moderate zp -> moderate z -> moderate r -> moderate q ->
  drill_q zp z r q false 76 ret_ = Ok w -> let s := (2 * (size zp + size r + size z + size q))%R in
  close 8 0 (fst w) (Rabs (amount z - amount r)) s /\
  close 8 0 (snd w) (fine_rapid ret_ (amount zp) (amount r) (amount z) (amount q)) s.
Proof.
  intros RT MP MZ MR MQ E s. pose proof (moderate_close _ MP) as CP. pose proof (moderate_close _ MZ) as CZ. pose proof (moderate_close _ MR) as CR.
  pose proof (moderate_close _ MQ) as CQ. pose proof (size_limit _ MP) as LP. pose proof (size_limit _ MZ) as LZ. pose proof (size_limit _ MR) as LR.
  pose proof (size_limit _ MQ) as LQ. pose proof limit_1 as L1.
  assert (WK : close 2 0 (dabs (dsub z r)) (Rabs (amount z - amount r)) (size z + size r)) by (apply close_abs, sub0; [exact CZ|exact CR|lra]).
  assert (WU : close 2 0 (dabs (dsub z zp)) (Rabs (amount z - amount zp)) (size z + size zp)) by (apply close_abs, sub0; [exact CZ|exact CP|lra]).
  assert (WY : close 2 0 (dabs (dsub r zp)) (Rabs (amount r - amount zp)) (size r + size zp)) by (apply close_abs, sub0; [exact CR|exact CP|lra]).
  assert (WQ : close 4 0 (twice q) (2 * amount q) (2 * size q)).
  { eapply close_up; [apply twice0; [exact CQ|lra]|lra|lra|lra]. }
  assert (ADD : forall k x y a b p t, close k 0 x a p -> close k 0 y b t -> (p + t <= 100 * limit -> k <= 25 -> close (k + 2) 0 (dadd x y) (a + b) (p + t))%R).
  { intros k x y a b p t A B B1 B3. pose proof (close_add _ _ _ _ _ _ _ _ _ A B B1 B3 ltac:(lra)) as C. eapply close_up; [exact C|destruct C as (_ & _ & _ & _ & C & _); lra|lra|].
    destruct C as (_ & _ & _ & C & _). lra. }
  assert (W : w = (dabs (dsub z r), dadd (dadd (dabs (dsub r zp)) (if ret_ =? 98 then dabs (dsub z zp) else dabs (dsub z r))) (twice q))).
  { unfold drill_q in E. cbn in RT. destruct RT as [<-|[<-|[]]]; injection E as <-; reflexivity. }
  subst w. cbn [fst snd]. split; [eapply close_up; [exact WK|lra|lra|unfold s; lra]|]. unfold fine_rapid.
  assert (WX : close 2 0 (if ret_ =? 98 then dabs (dsub z zp) else dabs (dsub z r)) (if ret_ =? 98 then Rabs (amount z - amount zp) else Rabs (amount z - amount r))
                 (size z + (size zp + size r))).
  { destruct (ret_ =? 98); [eapply close_up; [exact WU|lra|lra|lra]|eapply close_up; [exact WK|lra|lra|lra]]. }
  pose proof (ADD _ _ _ _ _ _ _ WY WX ltac:(lra) ltac:(lra)) as A1. replace (2 + 2)%R with 4%R in A1 by ring.
  pose proof (ADD _ _ _ _ _ _ _ A1 WQ ltac:(lra) ltac:(lra)) as A2. eapply close_up; [exact A2|lra|lra|unfold s; lra].
Qed.

Theorem fine_bored inch line b c mv c' mv' pl ret_ a1 a2 a3 ox oy z r q xp yp zp : b <> [] -> no_tool b -> plain_codes b -> motion_code b c 76 ->
  in_force (code_of programmings) b (c_prog c) 90 -> in_force (code_of planes) b (c_plane c) pl -> tool_axes pl a1 a2 a3 ->
  in_force (code_of returns) b (c_return c) ret_ -> In ret_ [98; 99] -> mc_no_y mc = false -> cd_z_incremental (mc_cnc mc) = false -> p_holes (c_path c) = 0 ->
  block_value a1 b ox -> block_value a2 b oy -> block_value a3 b (Some z) -> block_value "R" b (Some r) -> block_value "Q" b (Some q) -> block_value "K" b None ->
  evaluate tan_ log cabs stale mc inch line b c mv = (c', mv', None) ->
  position a1 c = Some xp -> position a2 c = Some yp -> position a3 c = Some zp ->
  let x := or_else ox xp in let y := or_else oy yp in
  moderate xp -> moderate yp -> moderate zp -> moderate x -> moderate y -> moderate z -> moderate r -> moderate q ->
  let s := (size xp + size yp + size x + size y + 2 * (size zp + size r + size z + size q))%R in
  within (cut c') (Rabs (amount z - amount r)) s /\
  within (rapid c') (fine_rapid ret_ (amount zp) (amount r) (amount z) (amount q) + way (amount x - amount xp) (amount y - amount yp) 0) s.
Proof.
  intros NE NT PL MC P L TA RT RR NY ZI PH BX BY BZ BR BQ BK E X0 Y0 Z0 x y MXp MYp MZp MX MY MZ MR MQ s.
  destruct (fine_block inch line b c mv c' mv' 76 pl ret_ a1 a2 a3 ox oy z r q NE NT PL MC ltac:(cbn; auto) P L TA RT NY PH BX BY BZ BR BQ BK E)
    as (zp' & xp' & yp' & w & A & B & C & W & M).
  rewrite X0 in B. rewrite Y0 in C. rewrite Z0 in A. injection A as <-. injection B as <-. injection C as <-. rewrite ZI in W.
  fold x y in M. unfold hole_to, moved in M. injection M as M1 M2. unfold cut, rapid. rewrite M1, M2.
  destruct (fine_close zp z r q ret_ w RR MZp MZ MR MQ W) as [CW CF].
  pose proof (size_limit _ MXp). pose proof (size_limit _ MYp). pose proof (size_limit _ MX). pose proof (size_limit _ MY).
  pose proof (size_limit _ MZ). pose proof (size_limit _ MR). pose proof (size_limit _ MZp). pose proof (size_limit _ MQ). pose proof limit_1. pose proof tiny_pos.
  split.
  - eapply within_close; [eapply close_up; [exact CW|split; [apply Rle_refl|lra]|split; [apply Rle_refl|lra]|]|lra|lra]. unfold s. lra.
  - pose proof (travel_close _ _ _ _ MXp MYp MX MY) as CT.
    eapply within_close; [eapply close_up; [eapply close_add; [exact CF|exact CT|lra|lra|lra]|split; [apply Rle_refl|lra]|split; [apply Rle_refl|lra]|]|lra|lra].
    unfold s. lra.
Qed.

Lemma four0 x a s : close 0 0 x a s -> (4 * s <= 100 * limit -> close 0 0 (dmul (dz 4) x) (4 * a) (4 * s))%R.
Proof.
  intros C L. pose proof (close_bound _ _ _ _ _ C) as B. destruct C as (F & E & A & LL & K & H0).
  assert (F4 : finite (dz 4)) by (vm_compute; reflexivity).
  assert (V4 : fR (dz 4) = 4%R).
  { replace (dz 4) with (S754_finite false 4503599627370496 (-50)) by (vm_compute; reflexivity). unfold fR, SF2R, F2R, cond_Zopp. cbn. lra. }
  destruct (rounds_finite (dmul (dz 4) x) (4 * fR x)) as [F3 Q].
  { pose proof (dmul_rounds (dz 4) x F4 F) as R. rewrite V4 in R. exact R. }
  { rewrite Rabs_mult, (Rabs_pos_eq 4) by lra. pose proof big_enough. pose proof limit_1. lra. }
  assert (Q2 : fR (dmul (dz 4) x) = (4 * fR x)%R).
  { rewrite Q. apply round_generic; [apply valid_rnd_N|]. replace (4 * fR x)%R with (fR x * bpow radix2 2)%R by (cbn; lra).
    apply mult_bpow_pos_exact_FLT; [exact (proj1 (fR_format x F))|lia]. }
  split; [exact F3|]. rewrite Q2, <- Rmult_minus_distr_l, !Rabs_mult, (Rabs_pos_eq 4) by lra.
  split; [|split; [lra|split; [lra|split; lra]]]. lra.
Qed.

Lemma back_close zp z r q ret_ w : moderate zp -> moderate z -> moderate r -> moderate q ->
  (amount r <= amount z <= amount zp)%R -> (0 <= amount q)%R ->
  drill_q zp z r q false 87 ret_ = Ok w -> let s := (4 * (size zp + size r + size z + size q))%R in
  close 8 0 (fst w) (amount z - amount r) s /\ close 8 0 (snd w) (back_rapid (amount zp) (amount r) (amount z) (amount q)) s.
Proof.
  intros MP MZ MR MQ O Q0 E s. pose proof (moderate_close _ MP) as CP. pose proof (moderate_close _ MZ) as CZ. pose proof (moderate_close _ MR) as CR.
  pose proof (moderate_close _ MQ) as CQ. pose proof (size_limit _ MP) as LP. pose proof (size_limit _ MZ) as LZ. pose proof (size_limit _ MR) as LR.
  pose proof (size_limit _ MQ) as LQ. pose proof limit_1 as L1.
  assert (WB : close 2 0 (dabs (dsub r z)) (Rabs (amount r - amount z)) (size r + size z)) by (apply close_abs, sub0; [exact CR|exact CZ|lra]).
  rewrite Rabs_left1 in WB by lra. replace (- (amount r - amount z))%R with (amount z - amount r)%R in WB by ring.
  assert (WY : close 2 0 (dabs (dsub r zp)) (Rabs (amount r - amount zp)) (size r + size zp)) by (apply close_abs, sub0; [exact CR|exact CP|lra]).
  rewrite Rabs_left1 in WY by lra. replace (- (amount r - amount zp))%R with (amount zp - amount r)%R in WY by ring.
  pose proof (twice0 _ _ _ _ WY ltac:(lra)) as WT.
  pose proof (four0 _ _ _ CQ ltac:(lra)) as WQ.
  assert (WQ2 : close 2 0 (dmul (dz 4) q) (4 * amount q) (4 * size q)) by (eapply close_up; [exact WQ|lra|lra|lra]).
  unfold drill_q in E. cbn [Z.eqb Pos.eqb] in E. injection E as <-. cbn [fst snd].
  split.
  - pose proof (close_abs _ _ _ _ _ WB) as W. rewrite Rabs_pos_eq in W by lra. eapply close_up; [exact W|lra|lra|unfold s; lra].
  - pose proof (close_add _ _ _ _ _ _ _ _ _ WT WQ2 ltac:(lra) ltac:(lra) ltac:(lra)) as A1.
    assert (A1' : close 4 0 (dadd (twice (dabs (dsub r zp))) (dmul (dz 4) q)) (2 * (amount zp - amount r) + 4 * amount q) (2 * (size r + size zp) + 4 * size q)).
    { eapply close_up; [exact A1|lra|lra|lra]. }
    assert (WB4 : close 4 0 (dabs (dsub r z)) (amount z - amount r) (size r + size z)) by (eapply close_up; [exact WB|lra|lra|lra]).
    pose proof (close_sub _ _ _ _ _ _ _ _ _ A1' WB4 ltac:(lra) ltac:(lra) ltac:(lra)) as A2. apply close_abs in A2.
    replace (Rabs _) with (back_rapid (amount zp) (amount r) (amount z) (amount q)) in A2 by (unfold back_rapid; rewrite Rabs_pos_eq by lra; ring).
    eapply close_up; [exact A2|lra|lra|unfold s; lra].
Qed.

Theorem back_bored inch line b c mv c' mv' pl ret_ a1 a2 a3 ox oy z r q xp yp zp : b <> [] -> no_tool b -> plain_codes b -> motion_code b c 87 ->
  in_force (code_of programmings) b (c_prog c) 90 -> in_force (code_of planes) b (c_plane c) pl -> tool_axes pl a1 a2 a3 ->
  in_force (code_of returns) b (c_return c) ret_ -> mc_no_y mc = false -> cd_z_incremental (mc_cnc mc) = false -> p_holes (c_path c) = 0 ->
  block_value a1 b ox -> block_value a2 b oy -> block_value a3 b (Some z) -> block_value "R" b (Some r) -> block_value "Q" b (Some q) -> block_value "K" b None ->
  evaluate tan_ log cabs stale mc inch line b c mv = (c', mv', None) ->
  position a1 c = Some xp -> position a2 c = Some yp -> position a3 c = Some zp ->
  let x := or_else ox xp in let y := or_else oy yp in
  moderate xp -> moderate yp -> moderate zp -> moderate x -> moderate y -> moderate z -> moderate r -> moderate q ->
  (amount r <= amount z <= amount zp)%R -> (0 <= amount q)%R ->
  let s := (size xp + size yp + size x + size y + 4 * (size zp + size r + size z + size q))%R in
  within (cut c') (amount z - amount r) s /\
  within (rapid c') (back_rapid (amount zp) (amount r) (amount z) (amount q) + way (amount x - amount xp) (amount y - amount yp) 0) s.
Proof.
  intros NE NT PL MC P L TA RT NY ZI PH BX BY BZ BR BQ BK E X0 Y0 Z0 x y MXp MYp MZp MX MY MZ MR MQ O Q0 s.
  destruct (fine_block inch line b c mv c' mv' 87 pl ret_ a1 a2 a3 ox oy z r q NE NT PL MC ltac:(cbn; auto) P L TA RT NY PH BX BY BZ BR BQ BK E)
    as (zp' & xp' & yp' & w & A & B & C & W & M).
  rewrite X0 in B. rewrite Y0 in C. rewrite Z0 in A. injection A as <-. injection B as <-. injection C as <-. rewrite ZI in W.
  fold x y in M. unfold hole_to, moved in M. injection M as M1 M2. unfold cut, rapid. rewrite M1, M2.
  destruct (back_close zp z r q ret_ w MZp MZ MR MQ O Q0 W) as [CW CF].
  pose proof (size_limit _ MXp). pose proof (size_limit _ MYp). pose proof (size_limit _ MX). pose proof (size_limit _ MY).
  pose proof (size_limit _ MZ). pose proof (size_limit _ MR). pose proof (size_limit _ MZp). pose proof (size_limit _ MQ). pose proof limit_1. pose proof tiny_pos.
  split.
  - eapply within_close; [eapply close_up; [exact CW|split; [apply Rle_refl|lra]|split; [apply Rle_refl|lra]|]|lra|lra]. unfold s. lra.
  - pose proof (travel_close _ _ _ _ MXp MYp MX MY) as CT.
    eapply within_close; [eapply close_up; [eapply close_add; [exact CF|exact CT|lra|lra|lra]|split; [apply Rle_refl|lra]|split; [apply Rle_refl|lra]|]|lra|lra].
    unfold s. lra.
Qed.
End Fine.
