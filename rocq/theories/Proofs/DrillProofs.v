(** Drilling cycles: what a block is reported to have travelled. *)
From Coq Require Import Reals Lra.
From Flocq Require Import Core BinarySingleNaN.
From Verif Require Import Model.Base Model.Attr Model.Double Model.Macro Model.Verifiers Model.Splitter Model.PathGeom Model.PathCalc
  Spec.DoubleSpec Spec.SplitSpec Spec.PathSpec Spec.MotionSpec Spec.DrillSpec Proofs.Tactics Proofs.PathFrame Proofs.PathVisit Proofs.PathTotals Proofs.PathRange
  Proofs.PathReset Proofs.FloatReal Proofs.MotionFloats Proofs.MotionVisit Proofs.MotionProofs Proofs.MotionBlocks Proofs.MotionTimes Proofs.DrillFloats.

Open Scope string_scope.
Open Scope list_scope.
Open Scope Z_scope.

Section Drill.
Variables tan_ log cabs : dbl -> dbl.
Variable stale : Z.
Variable mc : machine.
Hypothesis axes : proper_axes mc.

Lemma need_go {A} (o : option A) l (c c' : calc) a : need o l c = (c', Go a) -> c' = c /\ o = Some a.
Proof. unfold need. destruct o; intro H; inv H. auto. Qed.

(** The ways of one hole. *)
Lemma cycle_go v m axis c c' w : is_drill_cycle_qparam (m_g m) = false -> mc_no_y mc = false -> cycle_distance mc v m axis c = (c', Go w) ->
  c' = c /\ exists zp z r, assoc axis (c_prev c) = Some zp /\ assoc axis (v_values v) = Some z /\ assoc "R" (v_values v) = Some r /\
    w = (if m_prog m =? 91 then drill_incr z r (m_g m) (m_return m) else drill zp z r (cd_z_incremental (mc_cnc mc)) (m_g m) (m_return m)).
Proof.
  intros Q N E. unfold cycle_distance in E. rewrite N, Q in E. unfold mbind at 1, get in E. cbn beta iota in E.
  unfold mbind at 1 in E. destruct (need (assoc axis (c_prev c)) _ c) as [d1 [zp| |]] eqn:E1; try discriminate.
  apply need_go in E1 as [-> E1].
  unfold mbind at 1 in E. destruct (assoc axis (v_values v)) as [z|] eqn:E2; [|discriminate]. cbn [ret] in E. unfold ret at 1 in E.
  unfold mbind at 1 in E. destruct (need (assoc "R" (v_values v)) _ c) as [d2 [r| |]] eqn:E3; try discriminate.
  apply need_go in E3 as [-> E3]. unfold ret in E. injection E as <- <-. split; [reflexivity|]. exists zp, z, r. auto.
Qed.

Lemma drilling_first v m c c2 a1 a2 a3 : plane_axes (m_plane m) = (a1, a2, a3) -> is_drill_cycle_qparam (m_g m) = false -> mc_no_y mc = false ->
  p_holes (c_path c) = 0 -> assoc "K" (v_values v) = None -> drilling mc v m c = (c2, Go tt) ->
  exists zp z r xp yp, assoc a3 (c_prev c) = Some zp /\ assoc a3 (v_values v) = Some z /\ assoc "R" (v_values v) = Some r /\
    assoc a1 (c_prev c) = Some xp /\ assoc a2 (c_prev c) = Some yp /\
    moved c2 = (if m_prog m =? 91 then
                  let '(w, f) := hole_by (or_else (assoc a1 (v_values v)) dzero) (or_else (assoc a2 (v_values v)) dzero) (drill_incr z r (m_g m) (m_return m)) in
                  (dadd (p_work (c_path c)) w, dadd (p_fast (c_path c)) f)
                else hole_to xp yp (or_else (assoc a1 (v_values v)) xp) (or_else (assoc a2 (v_values v)) yp)
                       (drill zp z r (cd_z_incremental (mc_cnc mc)) (m_g m) (m_return m))).
Proof.
  intros PA Q N H K E. unfold drilling in E. rewrite PA, K in E. destruct (negb (is_some (v_g v)) && _); [discriminate|].
  unfold mbind at 1, get in E. cbn beta iota in E. rewrite H in E. cbn [Z.eqb orb when is_some] in E.
  unfold mbind at 1 in E. unfold mbind at 1 in E. destruct (cycle_distance mc v m a3 c) as [d1 [w| |]] eqn:EC; try discriminate.
  apply cycle_go in EC as (-> & zp & z & r & Zp & Zz & Rr & ->); [|assumption..].
  set (w := if m_prog m =? 91 then _ else _) in E. unfold upd_path, upd in E. cbn beta iota in E.
  set (c1 := set_path _ c) in E. unfold mbind at 1 in E. cbn beta iota in E.
  assert (PV : c_prev c1 = c_prev c) by reflexivity. assert (PC : p_cycle (c_path c1) = w) by reflexivity.
  assert (PM : p_work (c_path c1) = p_work (c_path c) /\ p_fast (c_path c1) = p_fast (c_path c)) by (split; reflexivity). destruct PM as [PW PF].
  rewrite PV in E. clearbody c1.
  unfold mbind at 1 in E. destruct (need (assoc a1 (c_prev c)) _ c1) as [d1 [xp| |]] eqn:EX; try discriminate. apply need_go in EX as [-> EX].
  unfold mbind at 1 in E. destruct (need (assoc a2 (c_prev c)) _ c1) as [d2 [yp| |]] eqn:EY; try discriminate. apply need_go in EY as [-> EY].
  exists zp, z, r, xp, yp. do 5 (split; [assumption|]). subst w. destruct (m_prog m =? 91) eqn:P91.
  - unfold mbind at 1 in E. unfold mbind at 1 in E. cbn [ret] in E. unfold ret in E. change (Z.to_nat 1) with 1%nat in E. cbn [holes] in E.
    unfold mbind at 1 in E. unfold upd_path, upd in E. cbn beta iota in E. unfold ret in E. cbn beta iota in E. rewrite PC in E.
    destruct (hole_by _ _ _) as [w f] in E |- *. injection E as <-. unfold moved. cbn. rewrite PW, PF. reflexivity.
  - unfold mbind at 1 in E. unfold mbind at 1 in E. cbn beta iota in E. rewrite PC in E. unfold set_both, upd_path, upd in E.
    cbn beta iota in E. unfold mbind in E. injection E as <-. reflexivity.
Qed.

Lemma drill_block inch line b c mv c' mv' g p pl ret_ a1 a2 a3 ox oy z r : b <> [] -> no_tool b -> plain_codes b -> motion_code b c g ->
  In g (bores ++ taps) -> in_force (code_of programmings) b (c_prog c) p -> in_force (code_of planes) b (c_plane c) pl -> tool_axes pl a1 a2 a3 ->
  in_force (code_of returns) b (c_return c) ret_ -> mc_no_y mc = false -> p_holes (c_path c) = 0 ->
  block_value a1 b ox -> block_value a2 b oy -> block_value a3 b (Some z) -> block_value "R" b (Some r) -> block_value "K" b None ->
  evaluate tan_ log cabs stale mc inch line b c mv = (c', mv', None) ->
  exists zp xp yp, position a3 c = Some zp /\ position a1 c = Some xp /\ position a2 c = Some yp /\
    moved c' = (if p =? 91 then
                  let '(w, f) := hole_by (or_else ox dzero) (or_else oy dzero) (drill_incr z r g ret_) in (dadd dzero w, dadd dzero f)
                else hole_to xp yp (or_else ox xp) (or_else oy yp) (drill zp z r (cd_z_incremental (mc_cnc mc)) g ret_)).
Proof.
  intros NE NT PL MC G P L TA RT NY PH BX BY BZ BR BK E.
  assert (G0 : 0 <= g). { cbn in G. lia. }
  destruct (block_motion tan_ log cabs stale mc axes inch line b c mv c' mv' g NE NT PL MC G0 E)
    as (v & c1 & m & F & O & TE & TB & -> & MG & T & _ & K).
  destruct (forced mc axes v b c c1 p pl F T P L) as (MP & ML & CP & CR & MV).
  assert (MR : m_return (current_modes mc v c1) = ret_).
  { cbn [current_modes m_return]. apply (said_in_force _ _ _ _ _ (code_of_one returns) (found_return mc axes b v F)).
    rewrite (settled c_return v c c1); [exact RT|reflexivity..|exact T]. }
  assert (PA : plane_axes (m_plane (current_modes mc v c1)) = (a1, a2, a3)).
  { rewrite ML. destruct TA as [(-> & -> & -> & ->)|[(-> & -> & -> & ->)|(-> & -> & -> & ->)]]; reflexivity. }
  assert (IP : forall w, In w ["X"; "Y"; "Z"; "R"; "K"] -> is_param mc w = true).
  { intros w I. unfold is_param. cbn in I. decompose [or] I; try contradiction; subst w; reflexivity. }
  assert (A123 : In a1 ["X"; "Y"; "Z"; "R"; "K"] /\ In a2 ["X"; "Y"; "Z"; "R"; "K"] /\ In a3 ["X"; "Y"; "Z"; "R"; "K"]).
  { destruct TA as [(_ & -> & -> & ->)|[(_ & -> & -> & ->)|(_ & -> & -> & ->)]]; cbn; auto 10. }
  destruct A123 as (I1 & I2 & I3).
  pose proof (fun w I o => block_value_one w b _ o (found_value mc w b v (IP w I) F)) as VA.
  pose proof (VA a1 I1 ox BX) as V1. pose proof (VA a2 I2 oy BY) as V2. pose proof (VA a3 I3 _ BZ) as V3.
  pose proof (VA "R" ltac:(cbn; auto) _ BR) as V4. pose proof (VA "K" ltac:(cbn; auto 6) _ BK) as V5.
  set (m := current_modes mc v c1) in *.
  assert (DC : is_drill_cycle g = true /\ is_drill_cycle_qparam g = false /\ (g =? 0) || (g =? 1) = false /\ (g =? 2) || (g =? 3) = false /\ g =? 80 = false).
  { cbn in G. repeat (destruct G as [<-|G]; [repeat (split; [reflexivity|]); reflexivity|]). contradiction. }
  destruct DC as (D1 & D2 & D3 & D4 & D5).
  assert (MO : forall c2 rr, motion tan_ log cabs mc v m c1 = (c2, rr) -> mbind (drilling mc v m) (fun _ => ret g) c1 = (c2, rr)).
  { intros c2 rr H. unfold motion in H. rewrite MG, D3, D4, D5, D1 in H. exact H. }
  assert (HO : p_holes (c_path c1) = 0).
  { rewrite (settled (fun c => p_holes (c_path c)) v c c1); [exact PH|reflexivity..|exact T]. }
  destruct K as [(c2 & K & _)|(c2 & g' & c3 & K & Q3 & Q)].
  { exfalso. apply MO in K. unfold mbind in K. destruct (drilling mc v m c1) as [d1 [a| |e]] eqn:ED; try discriminate.
    unfold drilling in ED. destruct (v_values v) as [|kv vs] eqn:VV; [discriminate V3|]. cbn [List.length Nat.eqb] in ED.
    rewrite andb_false_r, PA in ED.
    match type of ED with ?t c1 = _ => assert (S : stays t) end.
    { unfold cycle_distance, set_both. stays; apply holes_stay. }
    exact (S _ _ ED). }
  apply MO in K. unfold mbind in K. destruct (drilling mc v m c1) as [c4 [[]| |e]] eqn:ED; try discriminate.
  injection K as -> <-.
  destruct (drilling_first v m c1 c2 a1 a2 a3 PA ltac:(rewrite MG; exact D2) NY HO V5 ED) as (zp & z' & r' & xp & yp & Zp & Zz & Rr & Xp & Yp & MM).
  rewrite V3 in Zz. injection Zz as <-. rewrite V4 in Rr. injection Rr as <-. rewrite CP in Zp, Xp, Yp.
  exists zp, xp, yp. do 3 (split; [assumption|]). rewrite V1, V2, MG, MR, MP in MM. unfold moved in MV. injection MV as MV1 MV2. rewrite MV1, MV2 in MM.
  rewrite Q, copy_books by reflexivity. rewrite Q3. exact MM.
Qed.

(** Numbers. *)
Lemma gtb_amount x : finite x -> dgtb x dzero = true <-> (0 < amount x)%R.
Proof.
  intro F. split; [|now apply positive_gtb].
  destruct x as [s|s| |s m e]; cbn in *; try contradiction; try discriminate. destruct s; [discriminate|]. intros _. unfold amount, SF2R.
  now apply F2R_gt_0.
Qed.

Lemma ltb_amount x : finite x -> dltb x dzero = true <-> (amount x < 0)%R.
Proof.
  intro F. destruct x as [s|s| |s m e]; cbn in *; try contradiction; [split; [discriminate|lra]|]. unfold amount, SF2R. destruct s; cbn [cond_Zopp].
  - split; [|reflexivity]. intros _. now apply F2R_lt_0.
  - split; [discriminate|]. intro H. assert (0 < F2R (Float radix2 (Z.pos m) e))%R by now apply F2R_gt_0. lra.
Qed.

Lemma within_close k h x r s : close k h x r s -> (k <= 20)%R -> (h <= 500 * bpow radix2 (-500))%R -> within x r s.
Proof.
  intros (F & E & B & L & K & H) KK HH. split; [exact F|]. change (amount x) with (fR x). eapply Rle_trans; [exact E|].
  assert (U : (32 * u = / 2 ^ 48)%R) by (unfold u; lra). pose proof u_pos. assert (0 <= s)%R by (pose proof (Rabs_pos r); lra).
  assert (T : (500 * bpow radix2 (-500) <= bpow radix2 (-490))%R).
  { change (-490) with (-500 + 10). rewrite (bpow_plus radix2 (-500) 10). pose proof (bpow_gt_0 radix2 (-500)). replace (bpow radix2 10) with 1024%R by (cbn; lra). lra. }
  assert (k * u * s <= 32 * u * s)%R by (apply Rmult_le_compat_r; [lra|]; apply Rmult_le_compat_r; lra). rewrite U in *. lra.
Qed.

Lemma moderate_close x : moderate x -> close 0 0 x (amount x) (size x).
Proof. intros M. destruct (moderate_bound x M) as [F B]. apply close_self; [exact F|exact B]. Qed.

Lemma size_limit x : moderate x -> (0 <= size x <= limit)%R.
Proof. intros M. destruct (moderate_bound x M) as [F B]. split; [apply Rabs_pos|exact B]. Qed.

Lemma travel_close xp yp x y : moderate xp -> moderate yp -> moderate x -> moderate y ->
  close 8 (bpow radix2 (-500)) (line2_to xp yp x y) (way (amount x - amount xp) (amount y - amount yp) 0) (size xp + size yp + size x + size y).
Proof.
  intros MXp MYp MX MY. destruct (moderate_bound _ MXp). destruct (moderate_bound _ MYp). destruct (moderate_bound _ MX). destruct (moderate_bound _ MY).
  pose proof (size_limit _ MXp). pose proof (size_limit _ MYp). pose proof (size_limit _ MX). pose proof (size_limit _ MY). pose proof limit_1.
  pose proof (line2_near _ _ _ _ (rounded_sub xp x ltac:(assumption) ltac:(assumption) ltac:(assumption) ltac:(assumption))
               (rounded_sub yp y ltac:(assumption) ltac:(assumption) ltac:(assumption) ltac:(assumption))) as N.
  unfold way. replace (sqrt _) with (sqrt ((fR xp - fR x) * (fR xp - fR x) + (fR yp - fR y) * (fR yp - fR y)))%R
    by (f_equal; unfold amount; fold (fR xp) (fR yp) (fR x) (fR y); ring).
  apply near_close; [exact N| |lra]. split; [apply sqrt_pos|]. eapply Rle_trans; [apply line2_bound|]. unfold size, amount.
  fold (fR xp) (fR yp) (fR x) (fR y). unfold Rminus.
  pose proof (Rabs_triang (fR xp) (- fR x)) as T1. pose proof (Rabs_triang (fR yp) (- fR y)) as T2. rewrite Rabs_Ropp in T1, T2. lra.
Qed.

Lemma by_close x y : moderate x -> moderate y ->
  close 8 (bpow radix2 (-500)) (line2 x y) (way (amount x) (amount y) 0) (size x + size y).
Proof.
  intros MX MY. destruct (moderate_bound _ MX) as [FX LX]. destruct (moderate_bound _ MY) as [FY LY].
  pose proof (size_limit _ MX). pose proof (size_limit _ MY). pose proof limit_1.
  pose proof (line2_near _ _ _ _ (rounded_self x FX LX) (rounded_self y FY LY)) as N.
  unfold way. replace (sqrt _) with (sqrt (fR x * fR x + fR y * fR y))%R by (f_equal; unfold amount; fold (fR x) (fR y); ring).
  apply near_close; [exact N| |lra]. split; [apply sqrt_pos|apply line2_bound].
Qed.

Lemma bore_close zp z r g ret_ : In g bores -> In ret_ [98; 99] -> moderate zp -> moderate z -> moderate r ->
  (amount z <= amount r <= amount zp)%R -> (amount z < 0 < amount zp -> 0 <= amount r)%R ->
  let d := drill zp z r false g ret_ in
  close 8 0 (fst d) (amount r - amount z) (size zp + size zp + size r + size z) /\
  close 8 0 (snd d) (bore_rapid ret_ (amount zp) (amount r) (amount z)) (size zp + size zp + size r + size z).
Proof.
  intros G RT MP MZ MR O S d. pose proof (moderate_close _ MP) as CP. pose proof (moderate_close _ MZ) as CZ. pose proof (moderate_close _ MR) as CR.
  pose proof (size_limit _ MP) as LP. pose proof (size_limit _ MZ) as LZ. pose proof (size_limit _ MR) as LR. pose proof limit_1 as L1.
  assert (D : d = if ret_ =? 98 then
        if dgtb zp dzero && dltb z dzero then
          (dabs (dadd r (dabs z)), dabs (dadd (dadd (dsub (dabs zp) (dabs r)) (dabs zp)) (dabs z)))
        else
          (dabs (dsub (dabs r) (dabs z)), dabs (dsub (dadd (dsub (dabs zp) (dabs r)) (dabs zp)) (dabs z)))
      else 
        if dgtb zp dzero && dltb z dzero then (dadd r (dabs z), dadd (dabs zp) (dabs z))
        else (dabs (dsub (dabs r) (dabs z)), dabs (dsub (dabs zp) (dabs z)))).
  { subst d. unfold drill. replace (is_mode g bore_modes) with true; [cbn in RT; decompose [or] RT; try contradiction; subst ret_; reflexivity|].
    cbn in G. decompose [or] G; try contradiction; subst g; reflexivity. }
  rewrite D. clear d D G. unfold bore_rapid.
  assert (W : forall k x a a' s, (k <= 8)%R -> close k 0 x a s -> a = a' -> (s <= size zp + size zp + size r + size z)%R -> close 8 0 x a' (size zp + size zp + size r + size z)).
  { intros k x a a' s K C <- B. eapply close_more; [exact C|lra|lra|lra]. }
  pose proof (close_abs _ _ _ _ _ CP) as AP. pose proof (close_abs _ _ _ _ _ CZ) as AZ. pose proof (close_abs _ _ _ _ _ CR) as AR.
  assert (H2 : (2 * (0 + 0) = 0)%R) by ring.
  assert (ADD : forall k x y a b s t, close k 0 x a s -> close k 0 y b t -> (s <= 8 * limit -> t <= 8 * limit -> k <= 25 -> close (k + 2) 0 (dadd x y) (a + b) (s + t))%R).
  { intros k x y a b s t A B B1 B2 B3. rewrite <- H2. apply close_add; [exact A|exact B|lra|exact B3|lra]. }
  assert (SUB : forall k x y a b s t, close k 0 x a s -> close k 0 y b t -> (s <= 8 * limit -> t <= 8 * limit -> k <= 25 -> close (k + 2) 0 (dsub x y) (a - b) (s + t))%R).
  { intros k x y a b s t A B B1 B2 B3. rewrite <- H2. apply close_sub; [exact A|exact B|lra|exact B3|lra]. }
  assert (UP : forall k k' x a s, close k 0 x a s -> (k <= k' <= 30 -> close k' 0 x a s)%R).
  { intros k k' x a s (F & E1 & E2 & E3 & E4) B. eapply close_more; [repeat split; try exact F; try exact E1; try exact E2; try exact E3; apply E4|exact B|lra|lra]. }
  assert (D1 : close 2 0 (dsub (dabs zp) (dabs r)) (Rabs (amount zp) - Rabs (amount r)) (size zp + size r)).
  { replace 2%R with (0 + 2)%R by ring. apply SUB; [exact AP|exact AR|lra..]. }
  assert (D2 : close 4 0 (dadd (dsub (dabs zp) (dabs r)) (dabs zp)) (Rabs (amount zp) - Rabs (amount r) + Rabs (amount zp)) (size zp + size r + size zp)).
  { replace 4%R with (2 + 2)%R by ring. apply ADD; [exact D1|apply (UP 0%R); [exact AP|lra]|lra..]. }
  assert (AZ4 : close 4 0 (dabs z) (Rabs (amount z)) (size z)) by (apply (UP 0%R); [exact AZ|lra]).
  destruct (dgtb zp dzero && dltb z dzero) eqn:TH.
  - apply andb_prop in TH as [T1 T2]. apply (gtb_amount zp (proj1 MP)) in T1. apply (ltb_amount z (proj1 MZ)) in T2.
    assert (R0 : (0 <= amount r)%R) by (apply S; lra).
    assert (AA : Rabs (amount z) = (- amount z)%R) by (apply Rabs_left; lra). assert (AB : Rabs (amount zp) = amount zp) by (apply Rabs_pos_eq; lra).
    assert (AC : Rabs (amount r) = amount r) by (apply Rabs_pos_eq; lra).
    destruct (ret_ =? 98); cbn [fst snd]; split.
    + eapply W; [| apply close_abs, ADD; [exact CR|exact AZ|lra..]| |lra]; [lra|]. rewrite AA. rewrite Rabs_pos_eq; lra.
    + eapply W; [| apply close_abs, ADD; [exact D2|exact AZ4|lra..]| |lra]; [lra|]. rewrite AA, AB, AC. rewrite Rabs_pos_eq; lra.
    + eapply W; [| apply ADD; [exact CR|exact AZ|lra..]| |lra]; [lra|]. rewrite AA. lra.
    + eapply W; [| apply ADD; [exact AP|exact AZ|lra..]| |lra]; [lra|]. rewrite AA, AB. lra.
  - assert (SG : (0 <= amount z \/ amount zp <= 0)%R).
    { apply andb_false_iff in TH as [T|T].
      - right. destruct (Rle_or_lt (amount zp) 0) as [Q|Q]; [exact Q|]. apply (gtb_amount zp (proj1 MP)) in Q. congruence.
      - left. destruct (Rle_or_lt 0 (amount z)) as [Q|Q]; [exact Q|]. apply (ltb_amount z (proj1 MZ)) in Q. congruence. }
    assert (E1 : Rabs (Rabs (amount r) - Rabs (amount z)) = (amount r - amount z)%R).
    { destruct SG as [Q|Q]; [rewrite (Rabs_pos_eq (amount r)), (Rabs_pos_eq (amount z)), Rabs_pos_eq by lra; lra|].
      rewrite (Rabs_left1 (amount r)), (Rabs_left1 (amount z)), Rabs_left1 by lra. lra. }
    assert (E2 : Rabs (Rabs (amount zp) - Rabs (amount z)) = (amount zp - amount z)%R).
    { destruct SG as [Q|Q]; [rewrite (Rabs_pos_eq (amount zp)), (Rabs_pos_eq (amount z)), Rabs_pos_eq by lra; lra|].
      rewrite (Rabs_left1 (amount zp)), (Rabs_left1 (amount z)), Rabs_left1 by lra. lra. }
    assert (E3 : Rabs (Rabs (amount zp) - Rabs (amount r) + Rabs (amount zp) - Rabs (amount z)) = (amount zp - amount r + (amount zp - amount z))%R).
    { destruct SG as [Q|Q]; [rewrite (Rabs_pos_eq (amount zp)), (Rabs_pos_eq (amount z)), (Rabs_pos_eq (amount r)), Rabs_pos_eq by lra; lra|].
      rewrite (Rabs_left1 (amount zp)), (Rabs_left1 (amount z)), (Rabs_left1 (amount r)), Rabs_left1 by lra. lra. }
    destruct (ret_ =? 98); cbn [fst snd]; split.
    + eapply W; [| apply close_abs, SUB; [exact AR|exact AZ|lra..]|exact E1|lra]. lra.
    + eapply W; [| apply close_abs, SUB; [exact D2|exact AZ4|lra..]|exact E3|lra]. lra.
    + eapply W; [| apply close_abs, SUB; [exact AR|exact AZ|lra..]|exact E1|lra]. lra.
    + eapply W; [| apply close_abs, SUB; [exact AP|exact AZ|lra..]|rewrite E2; lra|lra]. lra.
Qed.

Lemma close_up k k' h h' x a s s' : close k h x a s -> (k <= k' <= 30 -> h <= h' <= 1 -> s <= s' <= 100 * limit -> close k' h' x a s')%R.
Proof. intros C A B D. eapply close_more; eassumption. Qed.

Lemma add0 x y a b s t : close 0 0 x a s -> close 0 0 y b t -> (s + t <= 100 * limit -> close 2 0 (dadd x y) (a + b) (s + t))%R.
Proof. intros A B H. pose proof (close_add _ _ _ _ _ _ _ _ _ A B H ltac:(lra) ltac:(lra)) as C. eapply close_up; [exact C|lra|lra|lra]. Qed.
Lemma sub0 x y a b s t : close 0 0 x a s -> close 0 0 y b t -> (s + t <= 100 * limit -> close 2 0 (dsub x y) (a - b) (s + t))%R.
Proof. intros A B H. pose proof (close_sub _ _ _ _ _ _ _ _ _ A B H ltac:(lra) ltac:(lra)) as C. eapply close_up; [exact C|lra|lra|lra]. Qed.
Lemma twice0 k x a s : close k 0 x a s -> (2 * s <= 100 * limit -> close k 0 (twice x) (2 * a) (2 * s))%R.
Proof. intros A H. pose proof (close_twice _ _ _ _ _ A H ltac:(lra)) as C. eapply close_up; [exact C|destruct A as (_ & _ & _ & _ & K & _); lra|lra|lra]. Qed.

Lemma tap_close zp z r g ret_ : In g taps -> In ret_ [98; 99] -> moderate zp -> moderate z -> moderate r ->
  let d := drill zp z r false g ret_ in
  close 8 0 (fst d) (2 * Rabs (amount r - amount z)) (2 * (size r + size z)) /\
  close 8 0 (snd d) (tap_rapid ret_ (amount zp) (amount r)) (2 * (size zp + size r)).
Proof.
  intros G RT MP MZ MR d. pose proof (moderate_close _ MP) as CP. pose proof (moderate_close _ MZ) as CZ. pose proof (moderate_close _ MR) as CR.
  pose proof (size_limit _ MP) as LP. pose proof (size_limit _ MZ) as LZ. pose proof (size_limit _ MR) as LR. pose proof limit_1 as L1.
  assert (WK : close 2 0 (twice (dabs (dsub z r))) (2 * Rabs (amount r - amount z)) (2 * (size r + size z))).
  { apply twice0; [|lra]. rewrite Rabs_minus_sym, (Rplus_comm (size r)). apply close_abs, sub0; [exact CZ|exact CR|lra]. }
  assert (WY : close 2 0 (dabs (dsub r zp)) (Rabs (amount zp - amount r)) (size zp + size r)).
  { rewrite Rabs_minus_sym, (Rplus_comm (size zp)). apply close_abs, sub0; [exact CR|exact CP|lra]. }
  assert (D : d = (if ret_ =? 98 then (twice (dabs (dsub z r)), twice (dabs (dsub r zp))) else (dabs (twice (dabs (dsub z r))), dabs (dabs (dsub r zp))))).
  { subst d. unfold drill. replace (is_mode g bore_modes) with false; [replace (is_mode g tap_modes) with true|];
      [cbn in RT; decompose [or] RT; try contradiction; subst ret_; reflexivity| |];
      cbn in G; decompose [or] G; try contradiction; subst g; reflexivity. }
  rewrite D. unfold tap_rapid. destruct (ret_ =? 98); cbn [fst snd]; split.
  - eapply close_up; [exact WK|lra|lra|lra].
  - rewrite Rmult_comm. eapply close_up; [apply twice0; [exact WY|lra]|lra|lra|lra].
  - rewrite <- (Rabs_pos_eq (2 * _)) by (pose proof (Rabs_pos (amount r - amount z)); lra). apply close_abs. eapply close_up; [exact WK|lra|lra|lra].
  - rewrite Rmult_1_r, <- Rabs_Rabsolu. apply close_abs. eapply close_up; [exact WY|lra|lra|lra].
Qed.

(** The first hole of a cycle, with absolute coordinates. *)
Section Hole.
Variables (inch : bool) (line : Z) (b : block) (c c' : calc) (mv mv' : macro_map dbl) (g pl ret_ : Z) (a1 a2 a3 : string) (ox oy : option dbl) (z r xp yp zp : dbl).
Hypothesis NE : b <> [].
Hypothesis NT : no_tool b.
Hypothesis PL : plain_codes b.
Hypothesis MC : motion_code b c g.
Hypothesis L : in_force (code_of planes) b (c_plane c) pl.
Hypothesis TA : tool_axes pl a1 a2 a3.
Hypothesis RT : in_force (code_of returns) b (c_return c) ret_.
Hypothesis RR : In ret_ [98; 99].
Hypothesis NY : mc_no_y mc = false.
Hypothesis PH : p_holes (c_path c) = 0.
Hypothesis BX : block_value a1 b ox.
Hypothesis BY : block_value a2 b oy.
Hypothesis BZ : block_value a3 b (Some z).
Hypothesis BR : block_value "R" b (Some r).
Hypothesis BK : block_value "K" b None.
Hypothesis E : evaluate tan_ log cabs stale mc inch line b c mv = (c', mv', None).
Hypothesis MZ : moderate z.
Hypothesis MR : moderate r.

Lemma tiny_pos : (0 < bpow radix2 (-500) <= / 1000)%R.
Proof. split; [apply bpow_gt_0|apply tiny_1]. Qed.

Section Absolute.
Hypothesis P : in_force (code_of programmings) b (c_prog c) 90.
Hypothesis ZI : cd_z_incremental (mc_cnc mc) = false.
Hypothesis X0 : position a1 c = Some xp.
Hypothesis Y0 : position a2 c = Some yp.
Hypothesis Z0 : position a3 c = Some zp.
Hypothesis MXp : moderate xp.
Hypothesis MYp : moderate yp.
Hypothesis MZp : moderate zp.
Hypothesis MX : moderate (or_else ox xp).
Hypothesis MY : moderate (or_else oy yp).

Lemma first_hole : In g (bores ++ taps) ->
  (cut c', rapid c') = hole_to xp yp (or_else ox xp) (or_else oy yp) (drill zp z r false g ret_).
Proof.
  intro G. destruct (drill_block inch line b c mv c' mv' g 90 pl ret_ a1 a2 a3 ox oy z r NE NT PL MC G P L TA RT NY PH BX BY BZ BR BK E) as (zp' & xp' & yp' & A & B & C & M).
  rewrite X0 in B. rewrite Y0 in C. rewrite Z0 in A. injection A as <-. injection B as <-. injection C as <-. rewrite ZI in M. exact M.
Qed.

Definition travel : R := way (amount (or_else ox xp) - amount xp) (amount (or_else oy yp) - amount yp) 0.
Definition sizes : R := (size xp + size yp + size (or_else ox xp) + size (or_else oy yp) + 2 * (size zp + size r + size z))%R.

Lemma travelled w f W F : close 8 0 w W (2 * (size zp + size r + size z)) -> close 8 0 f F (2 * (size zp + size r + size z)) ->
  within w W sizes /\ within (dadd f (line2_to xp yp (or_else ox xp) (or_else oy yp))) (F + travel) sizes.
Proof.
  intros CW CF. pose proof (size_limit _ MXp). pose proof (size_limit _ MYp). pose proof (size_limit _ MX). pose proof (size_limit _ MY).
  pose proof (size_limit _ MZ). pose proof (size_limit _ MR). pose proof (size_limit _ MZp). pose proof limit_1. pose proof tiny_pos.
  split.
  - eapply within_close; [eapply close_up; [exact CW|split; [apply Rle_refl|lra]|split; [apply Rle_refl|lra]|]|lra|lra]. unfold sizes. lra.
  - pose proof (travel_close _ _ _ _ MXp MYp MX MY) as CT. fold travel in CT.
    eapply within_close; [eapply close_up; [eapply close_add; [exact CF|exact CT|lra|lra|lra]|split; [apply Rle_refl|lra]|split; [apply Rle_refl|lra]|]|lra|lra].
    unfold sizes. lra.
Qed.

Theorem bored : In g bores -> (amount z <= amount r <= amount zp)%R -> (amount z < 0 < amount zp -> 0 <= amount r)%R ->
  within (cut c') (amount r - amount z) sizes /\ within (rapid c') (bore_rapid ret_ (amount zp) (amount r) (amount z) + travel) sizes.
Proof.
  intros G O S. pose proof (first_hole ltac:(apply in_or_app; now left)) as M. unfold hole_to in M. injection M as -> ->.
  destruct (bore_close zp z r g ret_ G RR MZp MZ MR O S) as [A B].
  pose proof (size_limit _ MZ). pose proof (size_limit _ MR). pose proof (size_limit _ MZp). pose proof limit_1.
  apply travelled; (eapply close_up; [eassumption|lra|lra|lra]).
Qed.

Theorem tapped : In g taps ->
  within (cut c') (2 * Rabs (amount r - amount z)) sizes /\ within (rapid c') (tap_rapid ret_ (amount zp) (amount r) + travel) sizes.
Proof.
  intros G. pose proof (first_hole ltac:(apply in_or_app; now right)) as M. unfold hole_to in M. injection M as -> ->.
  destruct (tap_close zp z r g ret_ G RR MZp MZ MR) as [A B].
  pose proof (size_limit _ MZ). pose proof (size_limit _ MR). pose proof (size_limit _ MZp). pose proof limit_1.
  apply travelled; (eapply close_up; [eassumption|lra|lra|lra]).
Qed.
End Absolute.

Section Incremental.
Hypothesis P : in_force (code_of programmings) b (c_prog c) 91.
Hypothesis MX : moderate (or_else ox dzero).
Hypothesis MY : moderate (or_else oy dzero).

Definition step : R := way (amount (or_else ox dzero)) (amount (or_else oy dzero)) 0.
Definition step_sizes : R := (size (or_else ox dzero) + size (or_else oy dzero) + 2 * (size r + size z))%R.

Lemma first_step : In g (bores ++ taps) ->
  (cut c', rapid c') = (dadd dzero (fst (drill_incr z r g ret_)), dadd dzero (dadd (snd (drill_incr z r g ret_)) (line2 (or_else ox dzero) (or_else oy dzero)))).
Proof.
  intro G. destruct (drill_block inch line b c mv c' mv' g 91 pl ret_ a1 a2 a3 ox oy z r NE NT PL MC G P L TA RT NY PH BX BY BZ BR BK E) as (zp' & xp' & yp' & A & B & C & M).
  exact M.
Qed.

Lemma stepped w f W F : close 4 0 w W (2 * (size r + size z)) -> close 6 0 f F (2 * (size r + size z)) ->
  within (dadd dzero w) W step_sizes /\ within (dadd dzero (dadd f (line2 (or_else ox dzero) (or_else oy dzero)))) (F + step) step_sizes.
Proof.
  intros CW CF. pose proof (size_limit _ MX). pose proof (size_limit _ MY).
  pose proof (size_limit _ MZ). pose proof (size_limit _ MR). pose proof limit_1. pose proof tiny_pos.
  split.
  - replace W with (0 + W)%R by ring. eapply within_close; [eapply close_up; [eapply close_add; [eapply (close_up 0 4 0 0); [exact close_zero|lra|lra|split; [apply Rle_refl|lra]]|exact CW|lra|lra|lra]|split; [apply Rle_refl|lra]|split; [apply Rle_refl|lra]|]|lra|lra].
    unfold step_sizes. lra.
  - pose proof (by_close _ _ MX MY) as CT. fold step in CT. replace (F + step)%R with (0 + (F + step))%R by ring.
    eapply within_close; [eapply close_up; [eapply close_add; [eapply (close_up 0 10 0 0); [exact close_zero|lra|lra|split; [apply Rle_refl|lra]]|
      replace 10%R with (8 + 2)%R by ring; eapply close_add; [eapply close_up; [exact CF|lra|split; [apply Rle_refl|lra]|split; [apply Rle_refl|lra]]|exact CT|lra|lra|lra]|lra|lra|lra]|split; [apply Rle_refl|lra]|split; [apply Rle_refl|lra]|]|lra|lra].
    unfold step_sizes. lra.
Qed.

Theorem bored_by : In g bores ->
  within (cut c') (Rabs (amount z)) step_sizes /\ within (rapid c') (Rabs (amount z) + Rabs (amount r) * (if ret_ =? 98 then 2 else 1) + step) step_sizes.
Proof.
  intros G. pose proof (first_step ltac:(apply in_or_app; now left)) as M. injection M as -> ->.
  pose proof (size_limit _ MZ). pose proof (size_limit _ MR). pose proof limit_1.
  pose proof (close_abs _ _ _ _ _ (moderate_close _ MZ)) as CZ. pose proof (close_abs _ _ _ _ _ (moderate_close _ MR)) as CR.
  assert (C2 : close 0 0 (twice (dabs r)) (2 * Rabs (amount r)) (2 * size r)) by (apply twice0; [exact CR|lra]).
  assert (D : drill_incr z r g ret_ = if ret_ =? 98 then (dabs z, dadd (dabs z) (twice (dabs r))) else (dabs z, dadd (dabs z) (dabs r))).
  { unfold drill_incr. replace (is_mode g bore_modes) with true; [cbn in RR; decompose [or] RR; try contradiction; subst ret_; reflexivity|].
    cbn in G. decompose [or] G; try contradiction; subst g; reflexivity. }
  rewrite D. destruct (ret_ =? 98); cbn [fst snd]; apply stepped.
  - eapply close_up; [exact CZ|lra|lra|lra].
  - rewrite (Rmult_comm _ 2). eapply close_up; [apply add0; [exact CZ|exact C2|lra]|lra|lra|lra].
  - eapply close_up; [exact CZ|lra|lra|lra].
  - rewrite Rmult_1_r. eapply close_up; [apply add0; [exact CZ|exact CR|lra]|lra|lra|lra].
Qed.

Theorem tapped_by : In g taps -> ret_ = 98 ->
  within (cut c') (2 * Rabs (amount z)) step_sizes /\ within (rapid c') (2 * Rabs (amount r) + step) step_sizes.
Proof.
  intros G RQ. pose proof (first_step ltac:(apply in_or_app; now right)) as M. injection M as -> ->.
  pose proof (size_limit _ MZ). pose proof (size_limit _ MR). pose proof limit_1.
  pose proof (close_abs _ _ _ _ _ (moderate_close _ MZ)) as CZ. pose proof (close_abs _ _ _ _ _ (moderate_close _ MR)) as CR.
  assert (C2 : close 0 0 (twice (dabs r)) (2 * Rabs (amount r)) (2 * size r)) by (apply twice0; [exact CR|lra]).
  assert (C3 : close 0 0 (twice (dabs z)) (2 * Rabs (amount z)) (2 * size z)) by (apply twice0; [exact CZ|lra]).
  assert (D : drill_incr z r g ret_ = (twice (dabs z), twice (dabs r))).
  { unfold drill_incr. rewrite RQ. cbn in G. decompose [or] G; try contradiction; subst g; reflexivity. }
  rewrite D. cbn [fst snd]. apply stepped; (eapply close_up; [eassumption|lra|lra|lra]).
Qed.
End Incremental.
End Hole.
End Drill.
