(** Arcs with a centre: what a block is reported to have travelled. *)
From Coq Require Import Reals Lra.
From Flocq Require Import Core BinarySingleNaN.
From Verif Require Import Model.Base Model.Attr Model.Double Model.Macro Model.Verifiers Model.Splitter Model.PathGeom Model.PathCalc
  Spec.DoubleSpec Spec.SplitSpec Spec.PathSpec Spec.MotionSpec Spec.DrillSpec Spec.ArcSpec Spec.RadiusSpec Proofs.Tactics Proofs.DoubleFacts Proofs.FloatReal
  Proofs.ArcFloats Proofs.ArcProofs Proofs.RadiusFloats Proofs.ArcEnds Proofs.ArcOpposite.

Open Scope string_scope.
Open Scope list_scope.
Open Scope Z_scope.

Lemma curve_way tan_ log cabs stale mc inch line b c mv c' mv' g p pl a1 a2 a3 p1 p2 ox oy i j xp yp xc yc :
  proper_axes mc -> b <> [] -> no_tool b -> plain_codes b -> motion_code b c g -> In g [2; 3] ->
  in_force (code_of programmings) b (c_prog c) p -> in_force (code_of planes) b (c_plane c) pl -> ~ diameters mc pl -> arc_words pl a1 a2 a3 p1 p2 ->
  c_helix c = HNone -> block_value a1 b ox -> block_value a2 b oy -> block_value a3 b None -> block_value p1 b (Some i) -> block_value p2 b (Some j) ->
  block_value "Q" b None -> block_value "L" b None ->
  evaluate tan_ log cabs stale mc inch line b c mv = (c', mv', None) -> position a1 c = Some xp -> position a2 c = Some yp ->
  goes_to p ox xp xc -> goes_to p oy yp yc ->
  cut c' = arc_ij tan_ cabs g xp yp xc yc i j /\ rapid c' = dzero.
Proof.
  intros AX NE NT PL MC G P L ND TA HN BX BY BZ BI BJ BQ BL E Xp Yp GX GY.
  destruct (arc_block_circle tan_ log cabs stale mc AX inch line b c mv c' mv' g p pl a1 a2 a3 p1 p2 ox oy i j NE NT PL MC G P L TA HN BX BY BZ BI BJ BQ BL E)
    as (m & xp' & yp' & X1 & X2 & SH & RA & CU).
  rewrite Xp in X1. injection X1 as <-. rewrite Yp in X2. injection X2 as <-.
  destruct (SH 1%R) as [[D _]|[_ MH]]; [now right|lra|].
  assert (EN : forall o q q', goes_to p o q q' -> match o with Some x => if p =? 91 then dadd q x else x | None => q end = q').
  { intros [x|] q q' D; cbn in D; [destruct D as [[-> ->]|[-> ->]]; reflexivity|now symmetry]. }
  rewrite (EN _ _ _ GX), (EN _ _ _ GY) in CU. unfold halved in CU. rewrite MH in CU. split; [exact CU|exact RA].
Qed.

Theorem curved tan_ log cabs stale mc inch line b c mv c' mv' g p pl a1 a2 a3 p1 p2 ox oy i j xp yp xc yc :
  proper_axes mc -> good_atan tan_ -> (forall x, cabs x = dabs x) -> b <> [] -> no_tool b -> plain_codes b -> motion_code b c g -> In g [2; 3] ->
  in_force (code_of programmings) b (c_prog c) p -> in_force (code_of planes) b (c_plane c) pl -> ~ diameters mc pl -> arc_words pl a1 a2 a3 p1 p2 ->
  c_helix c = HNone -> block_value a1 b ox -> block_value a2 b oy -> block_value a3 b None -> block_value p1 b (Some i) -> block_value p2 b (Some j) ->
  block_value "Q" b None -> block_value "L" b None ->
  evaluate tan_ log cabs stale mc inch line b c mv = (c', mv', None) -> position a1 c = Some xp -> position a2 c = Some yp ->
  goes_to p ox xp xc -> goes_to p oy yp yc -> on_machine xp -> on_machine yp -> on_machine xc -> on_machine yc -> on_machine i -> on_machine j ->
  let cx := (amount xc - (amount xp + amount i))%R in let cy := (amount yc - (amount yp + amount j))%R in
  let radius := sqrt (amount i * amount i + amount j * amount j) in let over := chord (amount xp) (amount yp) (amount xc) (amount yc) in
  (/ 1000 <= Rabs (amount i))%R -> (/ 1000 <= Rabs (amount j))%R -> (/ 1000 <= Rabs cx)%R -> (/ 1000 <= Rabs cy)%R ->
  neighbours (- amount i) (- amount j) cx cy -> (radius <= 999999)%R -> (/ 1000 <= over <= 7 / 4 * radius)%R ->
  finite (cut c') /\ (Rabs (amount (cut c') - turned g (- amount i) (- amount j) cx cy radius over) <= / 1000000)%R /\ rapid c' = dzero.
Proof.
  intros AX GA CA NE NT PL MC G P L ND TA HN BX BY BZ BI BJ BQ BL E Xp Yp GX GY OX OY OX' OY' OI OJ cx cy radius over MI MJ MX MY NB RB CB.
  destruct (curve_way tan_ log cabs stale mc inch line b c mv c' mv' g p pl a1 a2 a3 p1 p2 ox oy i j xp yp xc yc AX NE NT PL MC G P L ND TA HN BX BY BZ BI BJ BQ BL E Xp Yp GX GY) as [-> RA].
  assert (G' : g = 2 \/ g = 3) by (cbn in G; intuition).
  destruct (arc_ij_near tan_ cabs g xp yp xc yc i j GA CA G' OX OY OX' OY' OI OJ MI MJ MX MY NB RB CB) as [F N].
  split; [exact F|]. split; [exact N|exact RA].
Qed.

Theorem curved_across tan_ log cabs stale mc inch line b c mv c' mv' g p pl a1 a2 a3 p1 p2 ox oy i j xp yp xc yc :
  proper_axes mc -> whole_atan tan_ -> (forall x, cabs x = dabs x) -> b <> [] -> no_tool b -> plain_codes b -> motion_code b c g -> In g [2; 3] ->
  in_force (code_of programmings) b (c_prog c) p -> in_force (code_of planes) b (c_plane c) pl -> ~ diameters mc pl -> arc_words pl a1 a2 a3 p1 p2 ->
  c_helix c = HNone -> block_value a1 b ox -> block_value a2 b oy -> block_value a3 b None -> block_value p1 b (Some i) -> block_value p2 b (Some j) ->
  block_value "Q" b None -> block_value "L" b None ->
  evaluate tan_ log cabs stale mc inch line b c mv = (c', mv', None) -> position a1 c = Some xp -> position a2 c = Some yp ->
  goes_to p ox xp xc -> goes_to p oy yp yc -> on_machine xp -> on_machine yp -> on_machine xc -> on_machine yc -> on_machine i -> on_machine j ->
  let cx := (amount xc - (amount xp + amount i))%R in let cy := (amount yc - (amount yp + amount j))%R in
  let radius := sqrt (amount i * amount i + amount j * amount j) in let over := chord (amount xp) (amount yp) (amount xc) (amount yc) in
  (/ 1000 <= Rabs (amount i))%R -> (/ 1000 <= Rabs (amount j))%R -> (/ 1000 <= Rabs cx)%R -> (/ 1000 <= Rabs cy)%R ->
  opposite (- amount i) (- amount j) cx cy -> (radius <= 999999)%R -> (/ 1000 <= over <= 7 / 4 * radius)%R ->
  finite (cut c') /\ (Rabs (amount (cut c') - turned g (- amount i) (- amount j) cx cy radius over) <= / 1000000)%R /\ rapid c' = dzero.
Proof.
  intros AX GA CA NE NT PL MC G P L ND TA HN BX BY BZ BI BJ BQ BL E Xp Yp GX GY OX OY OX' OY' OI OJ cx cy radius over MI MJ MX MY NB RB CB.
  destruct (curve_way tan_ log cabs stale mc inch line b c mv c' mv' g p pl a1 a2 a3 p1 p2 ox oy i j xp yp xc yc AX NE NT PL MC G P L ND TA HN BX BY BZ BI BJ BQ BL E Xp Yp GX GY) as [-> RA].
  assert (G' : g = 2 \/ g = 3) by (cbn in G; intuition).
  destruct (arc_ij_opposite tan_ cabs g xp yp xc yc i j GA CA G' OX OY OX' OY' OI OJ MI MJ MX MY NB RB CB) as [F N].
  split; [exact F|]. split; [exact N|exact RA].
Qed.
