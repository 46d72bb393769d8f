(** Arcs with a radius: what a block is reported to have travelled. *)
From Coq Require Import Reals Lra.
From Flocq Require Import Core BinarySingleNaN.
From Verif Require Import Model.Base Model.Attr Model.Double Model.Macro Model.Verifiers Model.Splitter Model.PathGeom Model.PathCalc
  Spec.DoubleSpec Spec.SplitSpec Spec.PathSpec Spec.MotionSpec Spec.DrillSpec Spec.ArcSpec Spec.RadiusSpec Proofs.Tactics Proofs.DoubleFacts Proofs.PathFrame Proofs.PathVisit
  Proofs.PathTotals Proofs.PathRange Proofs.PathReset Proofs.FloatReal Proofs.MotionFloats Proofs.MotionVisit Proofs.MotionProofs Proofs.MotionBlocks
  Proofs.MotionTimes Proofs.DrillFloats Proofs.DrillProofs Proofs.ArcFloats Proofs.ArcProofs Proofs.RelFloats Proofs.SpiralFloats Proofs.RadiusFloats.

Open Scope string_scope.
Open Scope list_scope.
Open Scope Z_scope.

Section Radius.
Variables tan_ log cabs : dbl -> dbl.
Variable stale : Z.
Variable mc : machine.
Hypothesis axes : proper_axes mc.

Lemma radius_block inch line b c mv c' mv' g p pl a1 a2 a3 p1 p2 ox oy r : b <> [] -> no_tool b -> plain_codes b -> motion_code b c g ->
  In g [2; 3] -> in_force (code_of programmings) b (c_prog c) p -> in_force (code_of planes) b (c_plane c) pl -> arc_words pl a1 a2 a3 p1 p2 ->
  c_helix c = HNone -> block_value a1 b ox -> block_value a2 b oy -> block_value a3 b None -> block_value p1 b None -> block_value "R" b (Some r) ->
  block_value "Q" b None -> block_value "L" b None ->
  evaluate tan_ log cabs stale mc inch line b c mv = (c', mv', None) ->
  exists m xp yp, position a1 c = Some xp /\ position a2 c = Some yp /\
    (forall k, share mc pl k -> (k = 2 /\ m_halve m = true \/ k = 1 /\ m_halve m = false)%R) /\ rapid c' = dzero /\
    cut c' = arc_r tan_ cabs (halved m xp) yp
               (halved m (match ox with Some x => if p =? 91 then dadd xp x else x | None => xp end))
               (match oy with Some y => if p =? 91 then dadd yp y else y | None => yp end) r.
Proof.
  intros NE NT PL MC G P L TA HN BX BY BZ BI BJ BQ BL E.
  assert (G0 : 0 <= g). { cbn in G. lia. }
  destruct (block_motion tan_ log cabs stale mc axes inch line b c mv c' mv' g NE NT PL MC G0 E)
    as (v & c1 & m & F & O & TE & TB & -> & MG & T & _ & K).
  destruct (forced mc axes v b c c1 p pl F T P L) as (MP & ML & CP & CR & MV).
  assert (SH : forall k, share mc pl k -> (k = 2 /\ m_halve (current_modes mc v c1) = true \/ k = 1 /\ m_halve (current_modes mc v c1) = false)%R).
  { intros k SK. apply halving. rewrite ML. exact SK. }
  assert (PA : plane_axes (m_plane (current_modes mc v c1)) = (a1, a2, a3) /\ exists p3, plane_params (m_plane (current_modes mc v c1)) = (p1, p2, p3)).
  { rewrite ML. destruct TA as [(-> & -> & -> & -> & -> & ->)|[(-> & -> & -> & -> & -> & ->)|(-> & -> & -> & -> & -> & ->)]]; split; try reflexivity; eexists; reflexivity. }
  destruct PA as (PA & p3 & PP).
  assert (IP : forall w, In w ["X"; "Y"; "Z"; "I"; "J"; "K"; "Q"; "L"; "R"] -> is_param mc w = true).
  { intros w I. unfold is_param. cbn in I. decompose [or] I; try contradiction; subst w; reflexivity. }
  assert (A123 : forall w, In w [a1; a2; a3; p1; p2; "Q"; "L"; "R"] -> In w ["X"; "Y"; "Z"; "I"; "J"; "K"; "Q"; "L"; "R"]).
  { destruct TA as [(_ & -> & -> & -> & -> & ->)|[(_ & -> & -> & -> & -> & ->)|(_ & -> & -> & -> & -> & ->)]]; cbn; intros w I; decompose [or] I; subst; auto 13. }
  pose proof (fun w I o => block_value_one w b _ o (found_value mc w b v (IP w (A123 w I)) F)) as VA.
  pose proof (VA a1 ltac:(cbn; auto) ox BX) as V1. pose proof (VA a2 ltac:(cbn; auto) oy BY) as V2. pose proof (VA a3 ltac:(cbn; auto) _ BZ) as V3.
  pose proof (VA p1 ltac:(cbn; auto) _ BI) as V4. pose proof (VA "R" ltac:(cbn; auto 9) _ BJ) as V5.
  pose proof (VA "Q" ltac:(cbn; auto 7) _ BQ) as V6. pose proof (VA "L" ltac:(cbn; auto 8) _ BL) as V7.
  assert (HC : c_helix c1 = HNone). { rewrite (settled c_helix v c c1); [exact HN|reflexivity..|exact T]. }
  set (m := current_modes mc v c1) in *.
  assert (DC : (g =? 0) || (g =? 1) = false /\ (g =? 2) || (g =? 3) = true).
  { cbn in G. repeat (destruct G as [<-|G]; [split; reflexivity|]). contradiction. }
  destruct DC as (D1 & D2).
  assert (MO : forall c2 rr, motion tan_ log cabs mc v m c1 = (c2, rr) -> mbind (circular tan_ log cabs mc v m) (fun _ => ret g) c1 = (c2, rr)).
  { intros c2 rr H. unfold motion in H. rewrite MG, D1, D2 in H. exact H. }
  assert (VN : negb (is_some (v_g v)) && Nat.eqb (List.length (v_values v)) 0 = false).
  { destruct (v_values v) as [|kv vs] eqn:VV; [discriminate V5|]. apply andb_false_r. }
  assert (CI : forall c2 rr, circular tan_ log cabs mc v m c1 = (c2, rr) ->
    (exists l, rr = Throw l) \/ rr = Go tt /\ exists xp yp, position a1 c = Some xp /\ position a2 c = Some yp /\ rapid c2 = dzero /\
       cut c2 = arc_r tan_ cabs (halved m xp) yp
               (halved m (match ox with Some x => if p =? 91 then dadd xp x else x | None => xp end))
               (match oy with Some y => if p =? 91 then dadd yp y else y | None => yp end) r).
  { intros c2 rr EC. unfold circular in EC. rewrite VN, PA, PP in EC. unfold mbind at 1 in EC.
    set (t := (m_g m =? 2) && _ || _) in EC.
    assert (W : exists c0, when t no_cycle c1 = (c0, Go tt) /\ c_prev c0 = c_prev c1 /\ moved c0 = moved c1 /\ c_helix c0 = c_helix c1).
    { unfold when. destruct t; eexists; (split; [reflexivity|repeat split; reflexivity]). }
    destruct W as (c0 & W1 & W2 & W3 & W4). rewrite W1 in EC. rewrite MV in W3. rewrite HC in W4. rewrite CP in W2.
    unfold mbind at 1, get in EC. rewrite W2 in EC. unfold position.
    unfold need in EC. destruct (assoc a1 (c_prev c)) as [xp|] eqn:Q1; [|left; injection EC as _ <-; eexists; reflexivity].
    destruct (assoc a2 (c_prev c)) as [yp|] eqn:Q2; [|left; injection EC as _ <-; eexists; reflexivity].
    right. unfold mbind, get, ret in EC. cbn [a_x a_y a_z a_i a_j a_k a_r] in EC. rewrite W4, V3, V4, V5, V6, V7 in EC. cbn [is_some orb] in EC.
    match type of EC with context [match ?x with None => (c0, Go (true, false, ?a)) | _ => _ end] => idtac | _ => idtac end.
    rewrite V1, V2 in EC. assert (EC' : arc tan_ cabs m (mkArc xp yp (assoc a3 (c_prev c)) ox oy None None (assoc p2 (v_values v)) (assoc p3 (v_values v)) (Some r)) c0 = (c2, rr)).
    { destruct ox, oy; cbn beta iota in EC; rewrite W4 in EC; cbn [fst snd] in EC; rewrite W4 in EC; exact EC. }
    clear EC. unfold arc in EC'. rewrite PP in EC'. unfold mbind, get in EC'. cbn [a_xp a_yp a_x a_y a_i a_j a_r] in EC'. cbn [both is_some andb negb] in EC'.
    unfold deref, ret, upd_path, upd in EC'. rewrite MP in EC'. injection EC' as <- <-. split; [reflexivity|].
    exists xp, yp. split; [reflexivity|]. split; [reflexivity|]. split; [|reflexivity].
    injection W3 as _ W5. exact W5. }
  destruct K as [(c2 & K & _)|(c2 & g' & c3 & K & Q3 & Q)].
  { exfalso. apply MO in K. unfold mbind in K. destruct (circular tan_ log cabs mc v m c1) as [d1 [a| |e]] eqn:ED; try discriminate.
    destruct (CI _ _ eq_refl) as [[l D]|[D _]]; discriminate. }
  apply MO in K. unfold mbind in K. destruct (circular tan_ log cabs mc v m c1) as [c4 [[]| |e]] eqn:ED; try discriminate.
  injection K as -> <-. destruct (CI _ _ eq_refl) as [[l D]|[_ (xp & yp & X1 & X2 & X3 & X4)]]; [discriminate|].
  exists m, xp, yp. split; [exact X1|]. split; [exact X2|]. split; [exact SH|].
  assert (M3 : moved c' = moved c2). { rewrite Q, copy_books by reflexivity. rewrite Q3. reflexivity. }
  unfold moved in M3. injection M3 as M4 M5. unfold cut, rapid in *. rewrite M4, M5. auto.
Qed.

Lemma near_of x r : rel 300 x r -> near_arc x r.
Proof.
  intros (F & P & E). split; [exact F|]. change (amount x) with (fR x). eapply Rle_trans; [exact E|].
  apply Rmult_le_compat_r; [lra|]. unfold u. lra.
Qed.

Lemma around_rel x y x' y' r : good_atan tan_ -> (forall x, cabs x = dabs x) ->
  finite x -> finite y -> finite x' -> finite y' -> (Rabs (fR x) <= limit -> Rabs (fR y) <= limit -> Rabs (fR x') <= limit -> Rabs (fR y') <= limit ->
  finite r -> / 1000000 <= Rabs (fR r) <= 1000000 -> let c := chord (fR x) (fR y) (fR x') (fR y') in
  / 1000000 <= c <= 15 / 8 * Rabs (fR r) -> near_arc (arc_r tan_ cabs x y x' y' r) (way_around (fR r) c))%R.
Proof.
  intros G CA F1 F2 F3 F4 B1 B2 B3 B4 Fr RB c CB. unfold arc_r. rewrite CA. apply near_of.
  assert (FA : finite (dabs r)) by (destruct r; exact Fr).
  assert (LT : dltb r dzero = if Rlt_dec (fR r) 0 then true else false).
  { assert (Z0 : fR dzero = 0%R) by reflexivity. destruct (Rlt_dec (fR r) 0) as [N|N].
    - apply (dltb_lt r dzero Fr Logic.I). apply lt_IZR. rewrite !sval_fR by (exact Fr || exact Logic.I). rewrite Z0.
      apply Rmult_lt_compat_r; [apply bpow_gt_0|exact N].
    - apply not_ltb; [exact Fr|exact Logic.I|]. rewrite Z0. lra. }
  rewrite LT. rewrite <- dabs_fR in RB, CB.
  pose proof (arc_near tan_ cabs x y x' y' (dabs r) (if Rlt_dec (fR r) 0 then true else false) G CA F1 F2 F3 F4 B1 B2 B3 B4 FA RB CB) as A.
  fold c in A. unfold way_around. rewrite dabs_fR in A. destruct (Rlt_dec (fR r) 0) as [N|N].
  - rewrite Rabs_left in A by exact N. exact A.
  - rewrite Rabs_pos_eq in A by lra. exact A.
Qed.

Theorem arced inch line b c mv c' mv' g p pl a1 a2 a3 p1 p2 ox oy r xp yp xc yc k : good_atan tan_ -> (forall x, cabs x = dabs x) -> b <> [] -> no_tool b -> plain_codes b ->
  motion_code b c g -> In g [2; 3] -> in_force (code_of programmings) b (c_prog c) p -> in_force (code_of planes) b (c_plane c) pl -> share mc pl k ->
  arc_words pl a1 a2 a3 p1 p2 -> c_helix c = HNone -> block_value a1 b ox -> block_value a2 b oy -> block_value a3 b None ->
  block_value p1 b None -> block_value "R" b (Some r) -> block_value "Q" b None -> block_value "L" b None ->
  evaluate tan_ log cabs stale mc inch line b c mv = (c', mv', None) -> position a1 c = Some xp -> position a2 c = Some yp ->
  goes_to p ox xp xc -> goes_to p oy yp yc -> coordinate xp -> coordinate yp -> coordinate xc -> coordinate yc ->
  finite r -> (/ 1000000 <= Rabs (amount r) <= 1000000)%R ->
  (/ 1000000 <= chord (amount xp / k) (amount yp) (amount xc / k) (amount yc) <= 15 / 8 * Rabs (amount r))%R ->
  near_arc (cut c') (way_around (amount r) (chord (amount xp / k) (amount yp) (amount xc / k) (amount yc))) /\ rapid c' = dzero.
Proof.
  intros GA CA NE NT PL MC G P L SK TA HN BX BY BZ BI BR BQ BL E Xp Yp GX GY (OX1 & OX2 & OX3) (OY1 & OY2 & OY3) (OX1' & OX2' & OX3') (OY1' & OY2' & OY3') Fr RB CB.
  destruct (radius_block inch line b c mv c' mv' g p pl a1 a2 a3 p1 p2 ox oy r NE NT PL MC G P L TA HN BX BY BZ BI BR BQ BL E)
    as (m & xp' & yp' & X1 & X2 & SH & RA & CU).
  rewrite Xp in X1. injection X1 as <-. rewrite Yp in X2. injection X2 as <-. split; [|exact RA].
  assert (EN : forall o q q', goes_to p o q q' -> match o with Some x => if p =? 91 then dadd q x else x | None => q end = q').
  { intros [x|] q q' D; cbn in D; [destruct D as [[-> ->]|[-> ->]]; reflexivity|now symmetry]. }
  rewrite (EN _ _ _ GX), (EN _ _ _ GY) in CU. rewrite CU.
  assert (LI : (1000000 <= limit)%R) by (eapply Rle_trans; [|unfold limit; apply (bpow_le radix2 20 400); lia]; cbn; lra).
  assert (HX : forall x, finite x -> (Rabs (amount x) <= 1000000)%R -> (amount x = 0%R \/ (bpow radix2 (-400) <= Rabs (amount x))%R) ->
    finite (halved m x) /\ fR (halved m x) = (amount x / k)%R /\ (Rabs (fR (halved m x)) <= limit)%R).
  { intros x F1 F2 F3. unfold halved. destruct (SH k SK) as [[-> MH]|[-> MH]]; rewrite MH.
    - destruct (half_exact x F1) as (H1 & H2 & H3); [change (fR x) with (amount x); destruct F3; [now left|right; lra]|].
      rewrite H2. auto.
    - change (fR x) with (amount x). split; [exact F1|]. split; [field|lra]. }
  destruct (HX xp OX1 OX2 OX3) as (H1 & H2 & H3). destruct (HX xc OX1' OX2' OX3') as (H1' & H2' & H3').
  rewrite <- H2, <- H2' in CB |- *. change (amount yp) with (fR yp) in *. change (amount yc) with (fR yc) in *. change (amount r) with (fR r) in *.
  apply around_rel; try assumption; lra.
Qed.
End Radius.
