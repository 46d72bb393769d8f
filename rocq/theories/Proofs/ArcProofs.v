(** Full circles: what a block is reported to have travelled. *)
From Coq Require Import Reals Lra.
From Flocq Require Import Core BinarySingleNaN.
From Verif Require Import Model.Base Model.Attr Model.Double Model.Macro Model.Verifiers Model.Splitter Model.PathGeom Model.PathCalc
  Spec.DoubleSpec Spec.SplitSpec Spec.PathSpec Spec.MotionSpec Spec.DrillSpec Spec.ArcSpec Proofs.Tactics Proofs.DoubleFacts Proofs.PathFrame Proofs.PathVisit
  Proofs.PathTotals Proofs.PathRange Proofs.PathReset Proofs.FloatReal Proofs.MotionFloats Proofs.MotionVisit Proofs.MotionProofs Proofs.MotionBlocks
  Proofs.MotionTimes Proofs.DrillFloats Proofs.DrillProofs Proofs.ArcFloats.

Open Scope string_scope.
Open Scope list_scope.
Open Scope Z_scope.

Lemma not_ltb x y : finite x -> finite y -> (fR y <= fR x)%R -> dltb x y = false.
Proof.
  intros Fx Fy L. destruct (dltb x y) eqn:E; [|reflexivity]. exfalso. apply (dltb_lt _ _ Fx Fy) in E. apply IZR_lt in E.
  rewrite !sval_fR in E by assumption. apply Rmult_lt_reg_r in E; [lra|apply bpow_gt_0].
Qed.

Lemma dsub_self x : finite x -> dltb (dabs (dsub x x)) tolerance = true.
Proof.
  intro F. destruct (sub_parts x x F F) as (F0 & e & _ & Q). { replace (fR x - fR x)%R with 0%R by ring. rewrite Rabs_R0. apply bpow_ge_0. }
  replace ((fR x - fR x) * (1 + e))%R with 0%R in Q by ring.
  destruct (dsub x x) as [s|s| |s m k]; try contradiction; [vm_compute; reflexivity|].
  exfalso. unfold fR, SF2R in Q. apply eq_0_F2R in Q. destruct s; discriminate.
Qed.

Lemma two_pi_twice : dmul (dz 2) m_pi = two_pi. Proof. vm_compute. reflexivity. Qed.

(** The length calculated for a full circle. *)
Lemma full_circle atan cabs dir xp yp i j : (forall x, cabs x = dabs x) -> on_machine xp -> on_machine yp -> on_machine i -> on_machine j ->
  (/ 1000000 <= sqrt (amount i * amount i + amount j * amount j))%R ->
  let s := (size xp + size yp + size i + size j)%R in
  close 30 (8 * bpow radix2 (-500)) (arc_ij atan cabs dir xp yp xp yp i j) (circumference (amount i) (amount j)) (24 * s).
Proof.
  intros CA [Fx Bx] [Fy By] [Fi Bi] [Fj Bj] RR s.
  assert (L : (1000000 * 1000 <= limit)%R).
  { unfold limit. eapply Rle_trans; [|apply (bpow_le radix2 40); lia]. cbn. lra. }
  pose proof (radius_close xp yp i j Fx Fy Fi Fj) as C. cbv zeta in C. change (fR xp) with (amount xp) in C. change (fR yp) with (amount yp) in C.
  change (fR i) with (amount i) in C. change (fR j) with (amount j) in C. unfold size in *.
  specialize (C ltac:(lra) ltac:(lra) ltac:(lra) ltac:(lra)). fold s in C.
  set (r := dsqrt (dadd (sq (dsub (dadd xp i) xp)) (sq (dsub (dadd yp j) yp)))) in *.
  set (RR0 := sqrt (amount i * amount i + amount j * amount j)) in *.
  assert (S4 : (s <= 4000000)%R) by (unfold s; lra).
  pose proof (circle_close r RR0 (3 * s) C ltac:(lra) ltac:(lra)) as D.
  replace (8 * (3 * s))%R with (24 * s)%R in D by ring.
  assert (E : arc_ij atan cabs dir xp yp xp yp i j = dmul two_pi r); [|rewrite E; unfold circumference; fold RR0; exact D].
  unfold arc_ij, arc_length. fold r.
  set (long := long_arc _ _ _ _ _). clearbody long. rewrite !CA, !dsub_self by assumption. cbn [andb].
  fold two_pi. rewrite two_pi_twice.
  assert (T : (0 < bpow radix2 (-500) <= / 1000000000000)%R).
  { split; [apply bpow_gt_0|]. eapply Rle_trans; [apply (bpow_le radix2 (-500) (-60)); lia|]. cbn. lra. }
  assert (P4 : (bpow radix2 (-400) <= / 1000000000)%R).
  { eapply Rle_trans; [apply (bpow_le radix2 (-400) (-40)); lia|]. cbn. lra. }
  assert (U1 : (u * s <= u * 4000000)%R) by (apply Rmult_le_compat_l; [pose proof u_pos; lra|exact S4]).
  assert (U2 : (u = / 9007199254740992)%R) by (unfold u; lra).
  destruct C as (Fr & Er & _). destruct D as (Fc & Ec & Ac & Lc & _).
  assert (PB : (3141 / 1000 <= PI <= 3142 / 1000)%R) by (pose proof pi_above; pose proof pi_below; lra).
  assert (Pr : (314 / 100 * RR0 <= PI * RR0 <= 4 * RR0)%R) by (split; apply Rmult_le_compat_r; lra).
  assert (Er' : (Rabs (fR r - RR0) <= / 10000000)%R) by (eapply Rle_trans; [exact Er|]; lra).
  assert (Ec' : (Rabs (fR (dmul two_pi r) - 2 * PI * RR0) <= 4 / 10000000)%R) by (eapply Rle_trans; [exact Ec|]; lra).
  clear Er Ec. apply Rabs_le_inv in Er'. apply Rabs_le_inv in Ec'.
  assert (RB : (RR0 <= 2000000)%R).
  { eapply Rle_trans; [apply line2_bound|]. lra. }
  destruct (half_exact (dmul two_pi r) Fc) as (Fh & Qh & _).
  { right. rewrite Rabs_pos_eq by lra. split; lra. }
  destruct (sub_parts _ r Fh Fr) as (Fd & e & He & Qd).
  { rewrite Qh. apply Rle_trans with 100000000%R; [apply Rabs_le; lra|]. pose proof big_enough. lra. }
  assert (FA : finite (dabs (dsub (ddiv (dmul two_pi r) (dz 2)) r))) by (destruct (dsub _ r); exact Fd).
  rewrite not_ltb; [reflexivity|exact FA|vm_compute; reflexivity|].
  rewrite dabs_fR, Qd, Qh. assert (TO : (fR tolerance <= / 1000000)%R).
  { replace tolerance with (S754_finite false 6044629098073146 (-79)) by (vm_compute; reflexivity). unfold fR, SF2R, F2R, cond_Zopp. cbn. lra. }
  assert (DD : (15 / 10 * / 1000000 <= fR (dmul two_pi r) / 2 - fR r)%R) by lra.
  pose proof u_small as US. apply Rabs_le_inv in He. apply Rle_trans with ((15 / 10 * / 1000000) * (999 / 1000))%R; [lra|].
  rewrite Rabs_pos_eq; [apply Rmult_le_compat; lra|apply Rmult_le_pos; lra].
Qed.

Section Arc.
Variables tan_ log cabs : dbl -> dbl.
Variable stale : Z.
Variable mc : machine.
Hypothesis axes : proper_axes mc.

Lemma arc_block_circle inch line b c mv c' mv' g p pl a1 a2 a3 p1 p2 ox oy i j : b <> [] -> no_tool b -> plain_codes b -> motion_code b c g ->
  In g [2; 3] -> in_force (code_of programmings) b (c_prog c) p -> in_force (code_of planes) b (c_plane c) pl -> arc_words pl a1 a2 a3 p1 p2 ->
  c_helix c = HNone -> block_value a1 b ox -> block_value a2 b oy -> block_value a3 b None -> block_value p1 b (Some i) -> block_value p2 b (Some j) ->
  block_value "Q" b None -> block_value "L" b None ->
  evaluate tan_ log cabs stale mc inch line b c mv = (c', mv', None) ->
  exists m xp yp, position a1 c = Some xp /\ position a2 c = Some yp /\
    (forall k, share mc pl k -> (k = 2 /\ m_halve m = true \/ k = 1 /\ m_halve m = false)%R) /\ rapid c' = dzero /\
    cut c' = arc_ij tan_ cabs g (halved m xp) yp
               (halved m (match ox with Some x => if p =? 91 then dadd xp x else x | None => xp end))
               (match oy with Some y => if p =? 91 then dadd yp y else y | None => yp end) (halved m i) j.
Proof.
  intros NE NT PL MC G P L TA HN BX BY BZ BI BJ BQ BL E.
  assert (G0 : 0 <= g). { cbn in G. lia. }
  destruct (block_motion tan_ log cabs stale mc axes inch line b c mv c' mv' g NE NT PL MC G0 E)
    as (v & c1 & m & F & O & TE & TB & -> & MG & T & _ & K).
  destruct (forced mc axes v b c c1 p pl F T P L) as (MP & ML & CP & CR & MV).
  assert (SH : forall k, share mc pl k -> (k = 2 /\ m_halve (current_modes mc v c1) = true \/ k = 1 /\ m_halve (current_modes mc v c1) = false)%R).
  { intros k SK. apply halving. rewrite ML. exact SK. }
  assert (PA : plane_axes (m_plane (current_modes mc v c1)) = (a1, a2, a3) /\ exists p3, plane_params (m_plane (current_modes mc v c1)) = (p1, p2, p3)).
  { rewrite ML. destruct TA as [(-> & -> & -> & -> & -> & ->)|[(-> & -> & -> & -> & -> & ->)|(-> & -> & -> & -> & -> & ->)]]; split; try reflexivity; eexists; reflexivity. }
  destruct PA as (PA & p3 & PP).
  assert (IP : forall w, In w ["X"; "Y"; "Z"; "I"; "J"; "K"; "Q"; "L"] -> is_param mc w = true).
  { intros w I. unfold is_param. cbn in I. decompose [or] I; try contradiction; subst w; reflexivity. }
  assert (A123 : forall w, In w [a1; a2; a3; p1; p2; "Q"; "L"] -> In w ["X"; "Y"; "Z"; "I"; "J"; "K"; "Q"; "L"]).
  { destruct TA as [(_ & -> & -> & -> & -> & ->)|[(_ & -> & -> & -> & -> & ->)|(_ & -> & -> & -> & -> & ->)]]; cbn; intros w I; decompose [or] I; subst; auto 12. }
  pose proof (fun w I o => block_value_one w b _ o (found_value mc w b v (IP w (A123 w I)) F)) as VA.
  pose proof (VA a1 ltac:(cbn; auto) ox BX) as V1. pose proof (VA a2 ltac:(cbn; auto) oy BY) as V2. pose proof (VA a3 ltac:(cbn; auto) _ BZ) as V3.
  pose proof (VA p1 ltac:(cbn; auto) _ BI) as V4. pose proof (VA p2 ltac:(cbn; auto 6) _ BJ) as V5.
  pose proof (VA "Q" ltac:(cbn; auto 7) _ BQ) as V6. pose proof (VA "L" ltac:(cbn; auto 8) _ BL) as V7.
  assert (HC : c_helix c1 = HNone). { rewrite (settled c_helix v c c1); [exact HN|reflexivity..|exact T]. }
  set (m := current_modes mc v c1) in *.
  assert (DC : (g =? 0) || (g =? 1) = false /\ (g =? 2) || (g =? 3) = true).
  { cbn in G. repeat (destruct G as [<-|G]; [split; reflexivity|]). contradiction. }
  destruct DC as (D1 & D2).
  assert (MO : forall c2 rr, motion tan_ log cabs mc v m c1 = (c2, rr) -> mbind (circular tan_ log cabs mc v m) (fun _ => ret g) c1 = (c2, rr)).
  { intros c2 rr H. unfold motion in H. rewrite MG, D1, D2 in H. exact H. }
  assert (VN : negb (is_some (v_g v)) && Nat.eqb (List.length (v_values v)) 0 = false).
  { destruct (v_values v) as [|kv vs] eqn:VV; [discriminate V4|]. apply andb_false_r. }
  assert (CI : forall c2 rr, circular tan_ log cabs mc v m c1 = (c2, rr) ->
    (exists l, rr = Throw l) \/ rr = Go tt /\ exists xp yp, position a1 c = Some xp /\ position a2 c = Some yp /\ rapid c2 = dzero /\
       cut c2 = arc_ij tan_ cabs g (halved m xp) yp
               (halved m (match ox with Some x => if p =? 91 then dadd xp x else x | None => xp end))
               (match oy with Some y => if p =? 91 then dadd yp y else y | None => yp end) (halved m i) j).
  { intros c2 rr EC. unfold circular in EC. rewrite VN, PA, PP in EC. unfold mbind at 1 in EC.
    set (t := (m_g m =? 2) && _ || _) in EC.
    assert (W : exists c0, when t no_cycle c1 = (c0, Go tt) /\ c_prev c0 = c_prev c1 /\ moved c0 = moved c1 /\ c_helix c0 = c_helix c1).
    { unfold when. destruct t; eexists; (split; [reflexivity|repeat split; reflexivity]). }
    destruct W as (c0 & W1 & W2 & W3 & W4). rewrite W1 in EC. rewrite MV in W3. rewrite HC in W4. rewrite CP in W2.
    unfold mbind at 1, get in EC. rewrite W2 in EC. unfold position.
    unfold need in EC. destruct (assoc a1 (c_prev c)) as [xp|] eqn:Q1; [|left; injection EC as _ <-; eexists; reflexivity].
    destruct (assoc a2 (c_prev c)) as [yp|] eqn:Q2; [|left; injection EC as _ <-; eexists; reflexivity].
    right. unfold mbind, get, ret in EC. cbn [a_x a_y a_z a_i a_j a_k a_r] in EC. rewrite W4, V3, V4, V5, V6, V7 in EC. cbn [is_some orb] in EC.
    match type of EC with context [match ?x with None => (c0, Go (true, false, ?a)) | _ => _ end] => idtac | _ => idtac end.
    rewrite V1, V2 in EC. assert (EC' : arc tan_ cabs m (mkArc xp yp (assoc a3 (c_prev c)) ox oy None (Some i) (Some j) (assoc p3 (v_values v)) (assoc "R" (v_values v))) c0 = (c2, rr)).
    { destruct ox, oy; cbn beta iota in EC; rewrite W4 in EC; cbn [fst snd] in EC; rewrite W4 in EC; exact EC. }
    clear EC. unfold arc in EC'. rewrite PP in EC'. unfold mbind, get in EC'. cbn [a_xp a_yp a_x a_y a_i a_j a_r] in EC'. cbn [both is_some andb negb] in EC'.
    rewrite !andb_false_r in EC'. unfold upd_path, upd in EC'. rewrite MP, MG in EC'. injection EC' as <- <-. split; [reflexivity|].
    exists xp, yp. split; [reflexivity|]. split; [reflexivity|]. split; [|reflexivity].
    injection W3 as _ W5. exact W5. }
  destruct K as [(c2 & K & _)|(c2 & g' & c3 & K & Q3 & Q)].
  { exfalso. apply MO in K. unfold mbind in K. destruct (circular tan_ log cabs mc v m c1) as [d1 [a| |e]] eqn:ED; try discriminate.
    destruct (CI _ _ eq_refl) as [[l D]|[D _]]; discriminate. }
  apply MO in K. unfold mbind in K. destruct (circular tan_ log cabs mc v m c1) as [c4 [[]| |e]] eqn:ED; try discriminate.
  injection K as -> <-. destruct (CI _ _ eq_refl) as [[l D]|[_ (xp & yp & X1 & X2 & X3 & X4)]]; [discriminate|].
  exists m, xp, yp. split; [exact X1|]. split; [exact X2|]. split; [exact SH|].
  assert (M3 : moved c' = moved c2). { rewrite Q, copy_books by reflexivity. rewrite Q3. reflexivity. }
  unfold moved in M3. injection M3 as M4 M5. unfold cut, rapid in *. rewrite M4, M5. auto.
Qed.

Theorem circled inch line b c mv c' mv' g p pl a1 a2 a3 p1 p2 ox oy i j xp yp : (forall x, cabs x = dabs x) -> b <> [] -> no_tool b -> plain_codes b ->
  motion_code b c g -> In g [2; 3] -> in_force (code_of programmings) b (c_prog c) p -> in_force (code_of planes) b (c_plane c) pl -> ~ diameters mc pl ->
  arc_words pl a1 a2 a3 p1 p2 -> c_helix c = HNone -> block_value a1 b ox -> block_value a2 b oy -> block_value a3 b None ->
  block_value p1 b (Some i) -> block_value p2 b (Some j) -> block_value "Q" b None -> block_value "L" b None ->
  evaluate tan_ log cabs stale mc inch line b c mv = (c', mv', None) -> position a1 c = Some xp -> position a2 c = Some yp ->
  same_place p ox xp -> same_place p oy yp -> on_machine xp -> on_machine yp -> on_machine i -> on_machine j ->
  (/ 1000000 <= sqrt (amount i * amount i + amount j * amount j))%R ->
  within (cut c') (circumference (amount i) (amount j)) (24 * (size xp + size yp + size i + size j)) /\ rapid c' = dzero.
Proof.
  intros CA NE NT PL MC G P L ND TA HN BX BY BZ BI BJ BQ BL E Xp Yp SX SY OX OY OI OJ RR.
  destruct (arc_block_circle inch line b c mv c' mv' g p pl a1 a2 a3 p1 p2 ox oy i j NE NT PL MC G P L TA HN BX BY BZ BI BJ BQ BL E)
    as (m & xp' & yp' & X1 & X2 & SH & RA & CU).
  rewrite Xp in X1. injection X1 as <-. rewrite Yp in X2. injection X2 as <-. split; [|exact RA].
  destruct (SH 1%R) as [[D _]|[_ MH]]; [now right|lra|].
  assert (EN : forall o q, same_place p o q -> match o with Some x => if p =? 91 then dadd q x else x | None => q end = q).
  { intros o q [->|[-> ->]]; reflexivity. }
  rewrite (EN _ _ SX), (EN _ _ SY) in CU. unfold halved in CU. rewrite MH in CU.
  pose proof (full_circle tan_ cabs g xp yp i j CA OX OY OI OJ RR) as C. cbv zeta in C. rewrite <- CU in C.
  destruct C as (F & EE & B & LL & _). split; [exact F|]. change (amount (cut c')) with (fR (cut c')). eapply Rle_trans; [exact EE|].
  assert (U : (32 * u = / 2 ^ 48)%R) by (unfold u; lra). pose proof u_pos. set (S := (24 * _)%R) in *.
  assert (0 <= S)%R by (pose proof (Rabs_pos (circumference (amount i) (amount j))); lra).
  assert (T : (8 * bpow radix2 (-500) <= bpow radix2 (-490))%R).
  { change (-490) with (-500 + 10). rewrite (bpow_plus radix2 (-500) 10). pose proof (bpow_gt_0 radix2 (-500)). replace (bpow radix2 10) with 1024%R by (cbn; lra). lra. }
  assert (30 * u * S <= 32 * u * S)%R by (apply Rmult_le_compat_r; lra). rewrite <- U. lra.
Qed.
End Arc.
