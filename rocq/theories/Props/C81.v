(** C81: the ways of circles. *)
From Coq Require Import Reals Lra.
From Flocq Require Import Core BinarySingleNaN.
From Verif Require Import Model.Base Model.Attr Model.Double Model.Macro Model.Verifiers Model.PathGeom Model.PathCalc
  Spec.DoubleSpec Spec.SplitSpec Spec.PathSpec Spec.MotionSpec Spec.DrillSpec Spec.ArcSpec Spec.RadiusSpec Proofs.Tactics Proofs.FloatReal Proofs.ArcFloats Proofs.ArcProofs Proofs.ArcCentre.
From Verif Require Props.C84.

Local Open Scope string_scope.
Local Open Scope list_scope.
Local Open Scope Z_scope.

(** A full circle with its centre given is reported as [2 * PI * r], whatever the
    arc tangent of the library. *)
Theorem C81_circle_partial : forall tan_ log cabs stale mc inch line b c mv c' mv' g p pl a1 a2 a3 p1 p2 ox oy i j xp yp,
  proper_axes mc -> (forall x, cabs x = dabs x) -> b <> [] -> no_tool b -> plain_codes b -> motion_code b c g -> In g [2; 3] ->
  in_force (code_of programmings) b (c_prog c) p -> in_force (code_of planes) b (c_plane c) pl -> ~ diameters mc pl ->
  arc_words pl a1 a2 a3 p1 p2 -> c_helix c = HNone ->
  block_value a1 b ox -> block_value a2 b oy -> block_value a3 b None -> block_value p1 b (Some i) -> block_value p2 b (Some j) ->
  block_value "Q" b None -> block_value "L" b None ->
  evaluate tan_ log cabs stale mc inch line b c mv = (c', mv', None) -> position a1 c = Some xp -> position a2 c = Some yp ->
  same_place p ox xp -> same_place p oy yp -> on_machine xp -> on_machine yp -> on_machine i -> on_machine j ->
  (/ 1000000 <= sqrt (amount i * amount i + amount j * amount j))%R ->
  within (cut c') (circumference (amount i) (amount j)) (24 * (size xp + size yp + size i + size j)) /\ rapid c' = dzero.
Proof. intros. eapply circled; eassumption. Qed.
Print Assumptions C81_circle_partial.

(** An arc with its centre given that starts and ends in neighbouring quadrants is
    reported with its length in its direction, to a millionth of a millimetre, if
    the arc tangent of the library is accurate. *)
Theorem C81_arc_partial : forall tan_ log cabs stale mc inch line b c mv c' mv' g p pl a1 a2 a3 p1 p2 ox oy i j xp yp xc yc,
  proper_axes mc -> good_atan tan_ -> (forall x, cabs x = dabs x) -> b <> [] -> no_tool b -> plain_codes b -> motion_code b c g -> In g [2; 3] ->
  in_force (code_of programmings) b (c_prog c) p -> in_force (code_of planes) b (c_plane c) pl -> ~ diameters mc pl -> arc_words pl a1 a2 a3 p1 p2 ->
  c_helix c = HNone -> block_value a1 b ox -> block_value a2 b oy -> block_value a3 b None -> block_value p1 b (Some i) -> block_value p2 b (Some j) ->
  block_value "Q" b None -> block_value "L" b None ->
  evaluate tan_ log cabs stale mc inch line b c mv = (c', mv', None) -> position a1 c = Some xp -> position a2 c = Some yp ->
  goes_to p ox xp xc -> goes_to p oy yp yc -> on_machine xp -> on_machine yp -> on_machine xc -> on_machine yc -> on_machine i -> on_machine j ->
  let cx := (amount xc - (amount xp + amount i))%R in let cy := (amount yc - (amount yp + amount j))%R in
  let radius := sqrt (amount i * amount i + amount j * amount j) in let over := chord (amount xp) (amount yp) (amount xc) (amount yc) in
  (/ 1000 <= Rabs (amount i))%R -> (/ 1000 <= Rabs (amount j))%R -> (/ 1000 <= Rabs cx)%R -> (/ 1000 <= Rabs cy)%R ->
  neighbours (- amount i) (- amount j) cx cy -> (radius <= 999999)%R -> (/ 1000 <= over <= 7 / 4 * radius)%R ->
  finite (cut c') /\ (Rabs (amount (cut c') - turned g (- amount i) (- amount j) cx cy radius over) <= / 1000000)%R /\ rapid c' = dzero.
Proof. exact curved. Qed.
Print Assumptions C81_arc_partial.

(** The same for an arc that starts and ends in opposite quadrants, if the points are not
    nearly on one line with the centre. *)
Theorem C81_opposite_partial : forall tan_ log cabs stale mc inch line b c mv c' mv' g p pl a1 a2 a3 p1 p2 ox oy i j xp yp xc yc,
  proper_axes mc -> whole_atan tan_ -> (forall x, cabs x = dabs x) -> b <> [] -> no_tool b -> plain_codes b -> motion_code b c g -> In g [2; 3] ->
  in_force (code_of programmings) b (c_prog c) p -> in_force (code_of planes) b (c_plane c) pl -> ~ diameters mc pl -> arc_words pl a1 a2 a3 p1 p2 ->
  c_helix c = HNone -> block_value a1 b ox -> block_value a2 b oy -> block_value a3 b None -> block_value p1 b (Some i) -> block_value p2 b (Some j) ->
  block_value "Q" b None -> block_value "L" b None ->
  evaluate tan_ log cabs stale mc inch line b c mv = (c', mv', None) -> position a1 c = Some xp -> position a2 c = Some yp ->
  goes_to p ox xp xc -> goes_to p oy yp yc -> on_machine xp -> on_machine yp -> on_machine xc -> on_machine yc -> on_machine i -> on_machine j ->
  let cx := (amount xc - (amount xp + amount i))%R in let cy := (amount yc - (amount yp + amount j))%R in
  let radius := sqrt (amount i * amount i + amount j * amount j) in let over := chord (amount xp) (amount yp) (amount xc) (amount yc) in
  (/ 1000 <= Rabs (amount i))%R -> (/ 1000 <= Rabs (amount j))%R -> (/ 1000 <= Rabs cx)%R -> (/ 1000 <= Rabs cy)%R ->
  opposite (- amount i) (- amount j) cx cy -> (radius <= 999999)%R -> (/ 1000 <= over <= 7 / 4 * radius)%R ->
  finite (cut c') /\ (Rabs (amount (cut c') - turned g (- amount i) (- amount j) cx cy radius over) <= / 1000000)%R /\ rapid c' = dzero.
Proof. exact curved_across. Qed.
Print Assumptions C81_opposite_partial.

(** A machine whose axes start at X10 Y0 Z0, and words. *)
Definition cnc (plane : Z) : cnc_defaults := mkCnc 0 plane false 90 94 false 98 3 false false false false false false false false.
Definition machine_of (t : machine_tool_type) (plane : Z) : machine :=
  mkMachine false t [] [("X", dz 10); ("Y", dzero); ("Z", dzero)] ["X"; "Y"; "Z"] (dz 20000) 6 0 0 false false "" "" "M" "123" (cnc plane).
Definition mill : machine := machine_of MTMill 17.
Definition lathe : machine := machine_of MTLathe 18.
Definition word (w v : string) : attr := ADec (mkDec w None None None None (Some v) None None None).
Definition minus (w v : string) : attr := ADec (mkDec w None (Some "-"%char) None None (Some v) None None None).

(** From X10 Y0 around X0 Y0 to X0 Y10 it is a quarter of a circle with G3 and three
    quarters with G2, but the same way is reported. *)
Definition quarter (g : string) : block := [word "G" g; word "X" "0"; word "Y" "10"; minus "I" "10"; word "J" "0"; word "F" "100"].

Lemma quarter_way tan_ log cabs s g c' mv' : (s = "2" /\ g = 2 \/ s = "3" /\ g = 3) ->
  evaluate tan_ log cabs 0 mill false 1 (quarter s) (calc_new mill) [] = (c', mv', None) ->
  cut c' = arc_ij tan_ cabs g (dz 10) dzero dzero (dz 10) (dz (-10)) dzero.
Proof.
  intros SG E.
  assert (SI : stoi s = Ok g) by (destruct SG as [[-> ->]|[-> ->]]; vm_compute; reflexivity).
  assert (NG : forall group, ~ In 2 group -> ~ In 3 group -> last_said (code_of group) (quarter s) None).
  { intros group N2 N3 d a I (W & (t & V & N) & M). cbn in I. decompose [or] I; try contradiction; subst d; try discriminate.
    injection V as <-. rewrite SI in N. injection N as <-. destruct SG as [[_ ->]|[_ ->]]; contradiction. }
  assert (BV : forall w t x, (w = "X" /\ t = "0" /\ x = dzero) \/ (w = "Y" /\ t = "10" /\ x = dz 10) \/ (w = "J" /\ t = "0" /\ x = dzero) -> block_value w (quarter s) (Some x)).
  { intros w t x [(-> & -> & ->)|[(-> & -> & ->)|(-> & -> & ->)]]; cbn; exists []; do 2 eexists; (split; [reflexivity|]); (split; [|intros d []]); (split; [left; discriminate|]);
      eexists; split; vm_compute; reflexivity. }
  destruct (arc_block_circle tan_ log cabs 0 mill ltac:(intros w I J; cbn in I, J; intuition (subst; discriminate)) false 1 (quarter s) (calc_new mill) [] c' mv'
    g 90 17 "X" "Y" "Z" "I" "J" (Some dzero) (Some (dz 10)) (dz (-10)) dzero) as (m & xp & yp & X1 & X2 & SH & _ & CU).
  - discriminate.
  - split; intros (d & t & I & _); vm_compute in I; exact I.
  - intros d t n I W V N. cbn in I. decompose [or] I; try contradiction; subst d; try discriminate. injection V as <-. rewrite SI in N. injection N as <-.
    destruct SG as [[_ ->]|[_ ->]]; cbn; auto 10.
  - left. exists []. do 2 eexists. split; [reflexivity|].
    split; [split; [reflexivity|split; [exists s; split; [reflexivity|exact SI]|destruct SG as [[_ ->]|[_ ->]]; cbn; auto 10]]|].
    intros d a I (W & _). cbn in I. decompose [or] I; try contradiction; subst d; discriminate.
  - destruct SG as [[_ ->]|[_ ->]]; cbn; auto.
  - right. split; [apply (NG programmings); cbn; intuition discriminate|reflexivity].
  - right. split; [apply (NG planes); cbn; intuition discriminate|reflexivity].
  - left. auto 10.
  - reflexivity.
  - apply (BV _ "0"). auto.
  - apply (BV _ "10"). auto.
  - intros d I. cbn in I. contradiction.
  - cbn. exists []. do 2 eexists. split; [reflexivity|]. split; [|intros d []]. split; [left; discriminate|]. eexists. split; vm_compute; reflexivity.
  - apply (BV _ "0"). auto.
  - intros d I. cbn in I. contradiction.
  - intros d I. cbn in I. contradiction.
  - exact E.
  - cbn in X1, X2. injection X1 as <-. injection X2 as <-.
    destruct (SH 1%R) as [[D _]|[_ MH]]; [right; split; [intros [_ [D|[D _]]]; discriminate|reflexivity]|lra|].
    unfold halved in CU. rewrite MH in CU. exact CU.
Qed.

Theorem C81_axis_refuted : forall tan_ log cabs c2 mv2 c3 mv3,
  evaluate tan_ log cabs 0 mill false 1 (quarter "2") (calc_new mill) [] = (c2, mv2, None) ->
  evaluate tan_ log cabs 0 mill false 1 (quarter "3") (calc_new mill) [] = (c3, mv3, None) -> cut c2 = cut c3.
Proof.
  intros tan_ log cabs c2 mv2 c3 mv3 E2 E3. apply (quarter_way _ _ _ _ 2) in E2; [|auto]. apply (quarter_way _ _ _ _ 3) in E3; [|auto].
  rewrite E2, E3. unfold arc_ij. f_equal.
Qed.
Print Assumptions C81_axis_refuted.

(** Both blocks are evaluated. *)
Example C81_axis_ex : exists c2 mv2 c3 mv3,
  evaluate (fun x => x) (fun x => x) dabs 0 mill false 1 (quarter "2") (calc_new mill) [] = (c2, mv2, None) /\
  evaluate (fun x => x) (fun x => x) dabs 0 mill false 1 (quarter "3") (calc_new mill) [] = (c3, mv3, None).
Proof. do 4 eexists. split; vm_compute; reflexivity. Qed.

(** From X10 Y0 around X2 Y-6 to X8 Y2, a little further in the same quadrant, it is a
    short arc with G3 and nearly a circle with G2, but the same way is reported. *)
Definition turn (g : string) : block := [word "G" g; word "X" "8"; word "Y" "2"; minus "I" "8"; minus "J" "6"; word "F" "100"].

Lemma turn_way tan_ log cabs s g c' mv' : (s = "2" /\ g = 2 \/ s = "3" /\ g = 3) ->
  evaluate tan_ log cabs 0 mill false 1 (turn s) (calc_new mill) [] = (c', mv', None) ->
  cut c' = arc_ij tan_ cabs g (dz 10) dzero (dz 8) (dz 2) (dz (-8)) (dz (-6)).
Proof.
  intros SG E.
  assert (SI : stoi s = Ok g) by (destruct SG as [[-> ->]|[-> ->]]; vm_compute; reflexivity).
  assert (NG : forall group, ~ In 2 group -> ~ In 3 group -> last_said (code_of group) (turn s) None).
  { intros group N2 N3 d a I (W & (t & V & N) & M). cbn in I. decompose [or] I; try contradiction; subst d; try discriminate.
    injection V as <-. rewrite SI in N. injection N as <-. destruct SG as [[_ ->]|[_ ->]]; contradiction. }
  assert (BV : forall w t x, (w = "X" /\ t = "8" /\ x = dz 8) \/ (w = "Y" /\ t = "2" /\ x = dz 2) \/ (w = "J" /\ t = "6" /\ x = dz (-6)) -> block_value w (turn s) (Some x)).
  { intros w t x [(-> & -> & ->)|[(-> & -> & ->)|(-> & -> & ->)]]; cbn; exists []; do 2 eexists; (split; [reflexivity|]); (split; [|intros d []]); (split; [left; discriminate|]);
      eexists; split; vm_compute; reflexivity. }
  destruct (arc_block_circle tan_ log cabs 0 mill ltac:(intros w I J; cbn in I, J; intuition (subst; discriminate)) false 1 (turn s) (calc_new mill) [] c' mv'
    g 90 17 "X" "Y" "Z" "I" "J" (Some (dz 8)) (Some (dz 2)) (dz (-8)) (dz (-6))) as (m & xp & yp & X1 & X2 & SH & _ & CU).
  - discriminate.
  - split; intros (d & t & I & _); vm_compute in I; exact I.
  - intros d t n I W V N. cbn in I. decompose [or] I; try contradiction; subst d; try discriminate. injection V as <-. rewrite SI in N. injection N as <-.
    destruct SG as [[_ ->]|[_ ->]]; cbn; auto 10.
  - left. exists []. do 2 eexists. split; [reflexivity|].
    split; [split; [reflexivity|split; [exists s; split; [reflexivity|exact SI]|destruct SG as [[_ ->]|[_ ->]]; cbn; auto 10]]|].
    intros d a I (W & _). cbn in I. decompose [or] I; try contradiction; subst d; discriminate.
  - destruct SG as [[_ ->]|[_ ->]]; cbn; auto.
  - right. split; [apply (NG programmings); cbn; intuition discriminate|reflexivity].
  - right. split; [apply (NG planes); cbn; intuition discriminate|reflexivity].
  - left. auto 10.
  - reflexivity.
  - apply (BV _ "8"). auto.
  - apply (BV _ "2"). auto.
  - intros d I. cbn in I. contradiction.
  - cbn. exists []. do 2 eexists. split; [reflexivity|]. split; [|intros d []]. split; [left; discriminate|]. eexists. split; vm_compute; reflexivity.
  - apply (BV _ "6"). auto.
  - intros d I. cbn in I. contradiction.
  - intros d I. cbn in I. contradiction.
  - exact E.
  - cbn in X1, X2. injection X1 as <-. injection X2 as <-.
    destruct (SH 1%R) as [[D _]|[_ MH]]; [right; split; [intros [_ [D|[D _]]]; discriminate|reflexivity]|lra|].
    unfold halved in CU. rewrite MH in CU. exact CU.
Qed.

Theorem C81_quadrant_refuted : forall tan_ log cabs c2 mv2 c3 mv3,
  evaluate tan_ log cabs 0 mill false 1 (turn "2") (calc_new mill) [] = (c2, mv2, None) ->
  evaluate tan_ log cabs 0 mill false 1 (turn "3") (calc_new mill) [] = (c3, mv3, None) -> cut c2 = cut c3.
Proof.
  intros tan_ log cabs c2 mv2 c3 mv3 E2 E3. apply (turn_way _ _ _ _ 2) in E2; [|auto]. apply (turn_way _ _ _ _ 3) in E3; [|auto].
  rewrite E2, E3. unfold arc_ij. f_equal.
Qed.
Print Assumptions C81_quadrant_refuted.

(** Both blocks are evaluated. *)
Example C81_quadrant_ex : exists c2 mv2 c3 mv3,
  evaluate (fun x => x) (fun x => x) dabs 0 mill false 1 (turn "2") (calc_new mill) [] = (c2, mv2, None) /\
  evaluate (fun x => x) (fun x => x) dabs 0 mill false 1 (turn "3") (calc_new mill) [] = (c3, mv3, None).
Proof. do 4 eexists. split; vm_compute; reflexivity. Qed.

(** One turn of a helix of radius 40 that goes down 30 is [sqrt ((80 * PI)^2 + 30^2)]
    long, less than 254.  Reported is [2 * PI * sqrt (40^2 + 30^2)], more than 314. *)
Theorem C81_helix_refuted : forall tan_ log cabs,
  let b := [word "G" "2"; word "X" "10"; word "Y" "0"; minus "Z" "30"; word "I" "40"; word "J" "0"; word "K" "0"; word "F" "100"] in
  exists c' mv', evaluate tan_ log cabs 0 mill false 1 b (calc_new mill) [] = (c', mv', None) /\
    (314 < amount (cut c'))%R /\ (sqrt ((80 * PI) * (80 * PI) + 30 * 30) < 254)%R.
Proof.
  intros. do 2 eexists. split; [vm_compute; reflexivity|]. split.
  - match goal with |- (_ < amount ?x)%R => let y := eval vm_compute in x in replace x with y by (vm_compute; reflexivity) end.
    unfold amount, SF2R, F2R, cond_Zopp. cbn. lra.
  - assert (P : (3 <= PI <= 3142 / 1000)%R) by (pose proof pi_above; pose proof pi_below; lra).
    rewrite <- (sqrt_square 254) by lra. apply sqrt_lt_1_alt. split; nra.
Qed.
Print Assumptions C81_helix_refuted.

(** Where X is a diameter the centre I, which is not, is halved too: a circle of
    radius 10 is reported as 31.4 instead of 62.8 long. *)
Theorem C81_diameter_refuted : forall tan_ log,
  let b := [word "G" "2"; minus "I" "10"; word "K" "0"; word "F" "100"] in
  exists c' mv', evaluate tan_ log dabs 0 lathe false 1 b (calc_new lathe) [] = (c', mv', None) /\
    diameters lathe 18 /\ (amount (cut c') < 32)%R /\ (62 < circumference (-10) 0)%R.
Proof.
  intros. do 2 eexists. split; [vm_compute; reflexivity|]. split; [split; [reflexivity|now left]|]. split.
  - match goal with |- (amount ?x < _)%R => let y := eval vm_compute in x in replace x with y by (vm_compute; reflexivity) end.
    unfold amount, SF2R, F2R, cond_Zopp. cbn. lra.
  - unfold circumference. replace (-10 * -10 + 0 * 0)%R with (10 * 10)%R by ring. rewrite sqrt_square by lra. pose proof pi_below. lra.
Qed.
Print Assumptions C81_diameter_refuted.

(** G2 I-10 J0 from X10 Y0: 62.83. *)
Example C81_ex :
  let b := [word "G" "2"; minus "I" "10"; word "J" "0"; word "F" "100"] in
  let c := calc_new mill in
  exists c' mv', proper_axes mill /\ no_tool b /\ plain_codes b /\ motion_code b c 2 /\ In 2 [2; 3] /\
  in_force (code_of programmings) b (c_prog c) 90 /\ in_force (code_of planes) b (c_plane c) 17 /\ ~ diameters mill 17 /\ arc_words 17 "X" "Y" "Z" "I" "J" /\
  c_helix c = HNone /\ block_value "X" b None /\ block_value "I" b (Some (dz (-10))) /\ block_value "J" b (Some dzero) /\
  evaluate (fun x => x) (fun x => x) dabs 0 mill false 1 b c [] = (c', mv', None) /\
  position "X" c = Some (dz 10) /\ same_place 90 None (dz 10) /\ on_machine (dz (-10)) /\
  (6283 / 100 < amount (cut c') < 6284 / 100)%R.
Proof.
  cbv zeta. do 2 eexists.
  split. { intros w I J. cbn in I, J. intuition (subst; discriminate). }
  split. { split; intros (d & t & I & _); vm_compute in I; exact I. }
  split. { intros d t n I W V N. cbn in I. decompose [or] I; try contradiction; subst d; try discriminate. injection V as <-. vm_compute in N. injection N as <-.
    cbn. auto 10. }
  split. { left. exists []. do 2 eexists. split; [reflexivity|]. split; [split; [reflexivity|split; [exists "2"; split; vm_compute; reflexivity|cbn; auto 10]]|].
    intros d a I (W & _). cbn in I. decompose [or] I; try contradiction; subst d; discriminate. }
  split; [cbn; auto|].
  assert (NG : forall group, ~ In 2 group -> last_said (code_of group) [word "G" "2"; minus "I" "10"; word "J" "0"; word "F" "100"] None).
  { intros group NI d a I (W & (t & V & N) & M). cbn in I. decompose [or] I; try contradiction; subst d; try discriminate.
    injection V as <-. vm_compute in N. injection N as <-. contradiction. }
  split. { right. split; [apply (NG programmings); cbn; intuition discriminate|reflexivity]. }
  split. { right. split; [apply (NG planes); cbn; intuition discriminate|reflexivity]. }
  split. { intros [_ [D|[D _]]]; discriminate. }
  split; [left; auto 10|]. split; [reflexivity|].
  split. { intros d I. cbn in I. contradiction. }
  split. { cbn. exists []. do 2 eexists. split; [reflexivity|]. split; [|intros d []]. split; [left; discriminate|]. eexists. split; vm_compute; reflexivity. }
  split. { cbn. exists []. do 2 eexists. split; [reflexivity|]. split; [|intros d []]. split; [left; discriminate|]. eexists. split; vm_compute; reflexivity. }
  split; [vm_compute; reflexivity|]. split; [vm_compute; reflexivity|]. split; [now left|].
  split. { split; [vm_compute; reflexivity|]. unfold size, amount. replace (dz (-10)) with (S754_finite true 5629499534213120 (-49)) by (vm_compute; reflexivity).
    unfold SF2R, F2R, cond_Zopp. cbn. apply Rabs_le. lra. }
  match goal with |- (_ < amount ?x < _)%R => let y := eval vm_compute in x in replace x with y by (vm_compute; reflexivity) end.
  unfold amount, SF2R, F2R, cond_Zopp. cbn. lra.
Qed.

(** From X10 Y0 around X2 Y-6 to X-4 Y2, a right angle: the numbers meet the
    hypotheses of [C81_arc_partial] and the arc is a quarter of the circle with G3,
    three quarters with G2. *)
Example C81_arc_ex :
  let cx := (-4 - (10 + -8))%R in let cy := (2 - (0 + -6))%R in let radius := sqrt (-8 * -8 + -6 * -6) in let over := chord 10 0 (-4) 2 in
  neighbours (- -8) (- -6) cx cy /\ (radius <= 999999)%R /\ (/ 1000 <= over <= 7 / 4 * radius)%R /\
  turned 3 (- -8) (- -6) cx cy radius over = (2 * PI * 10 / 4)%R /\ turned 2 (- -8) (- -6) cx cy radius over = (2 * PI * 10 * 3 / 4)%R.
Proof.
  cbv zeta. replace (sqrt (-8 * -8 + -6 * -6)) with 10%R.
  2:{ replace (-8 * -8 + -6 * -6)%R with (10 * 10)%R by ring. rewrite sqrt_square by lra. reflexivity. }
  assert (CH : chord 10 0 (-4) 2 = (10 * sqrt 2)%R).
  { unfold chord. replace ((10 - -4) * (10 - -4) + (0 - 2) * (0 - 2))%R with (10 * 10 * 2)%R by ring. rewrite sqrt_mult, sqrt_square by lra. reflexivity. }
  assert (S2 : (1 <= sqrt 2 <= 3 / 2)%R).
  { split; [rewrite <- sqrt_1 at 1|rewrite <- (sqrt_square (3 / 2)) by lra]; apply sqrt_le_1_alt; lra. }
  assert (SH : shorter 10 (10 * sqrt 2) = (2 * PI * 10 / 4)%R).
  { unfold shorter. replace (10 * sqrt 2 / (2 * 10))%R with (/ sqrt 2)%R; [rewrite asin_inv_sqrt2; field|].
    apply (Rmult_eq_reg_r (sqrt 2)); [|lra]. rewrite Rinv_l by lra. replace (10 * sqrt 2 / (2 * 10) * sqrt 2)%R with (sqrt 2 * sqrt 2 / 2)%R by field.
    rewrite sqrt_sqrt by lra. field. }
  rewrite CH. split; [right; lra|]. split; [lra|]. split; [lra|]. unfold turned, cross, longer. rewrite SH. cbn [Z.eqb].
  split; (match goal with |- context [Rlt_dec ?a ?b] => destruct (Rlt_dec a b) end); try (cbn in *; lra).
Qed.

(** From X10 Y0 around X-6 Y-63 to X-69 Y-79, with radius 65: the shorter arc with G3, the
    longer one with G2. *)
Example C81_opposite_ex :
  let cx := (-69 - (10 + -16))%R in let cy := (-79 - (0 + -63))%R in let radius := sqrt (-16 * -16 + -63 * -63) in let over := chord 10 0 (-69) (-79) in
  opposite (- -16) (- -63) cx cy /\ radius = 65%R /\ over = (79 * sqrt 2)%R /\ (/ 1000 <= over <= 7 / 4 * radius)%R /\
  turned 3 (- -16) (- -63) cx cy radius over = shorter 65 (79 * sqrt 2) /\ turned 2 (- -16) (- -63) cx cy radius over = longer 65 (79 * sqrt 2).
Proof.
  cbv zeta. replace (sqrt (-16 * -16 + -63 * -63)) with 65%R.
  2:{ replace (-16 * -16 + -63 * -63)%R with (65 * 65)%R by ring. rewrite sqrt_square by lra. reflexivity. }
  assert (CH : chord 10 0 (-69) (-79) = (79 * sqrt 2)%R).
  { unfold chord. replace ((10 - -69) * (10 - -69) + (0 - -79) * (0 - -79))%R with (79 * 79 * 2)%R by ring. rewrite sqrt_mult, sqrt_square by lra. reflexivity. }
  assert (S2 : (1 <= sqrt 2 <= 1415 / 1000)%R).
  { split; [rewrite <- sqrt_1 at 1|rewrite <- (sqrt_square (1415 / 1000)) by lra]; apply sqrt_le_1_alt; lra. }
  rewrite CH. split; [unfold opposite, cross; lra|]. split; [reflexivity|]. split; [reflexivity|]. split; [lra|]. unfold turned, cross. cbn [Z.eqb].
  split; (match goal with |- context [Rlt_dec ?a ?b] => destruct (Rlt_dec a b) end); try reflexivity; exfalso; cbn in *; lra.
Qed.

(** There is an arc tangent as asked for. *)
Example C81_atan_ex : whole_atan (fun x => if Rlt_dec (amount x) 0 then dopp (Props.C84.nearest (- atan (amount x))) else Props.C84.nearest (atan (amount x))).
Proof.
  intros x F. pose proof (atan_bound (amount x)) as B. pose proof PI_4 as P.
  assert (B2 : (4 <= bpow radix2 1000)%R) by (change 4%R with (bpow radix2 2); apply bpow_le; lia).
  destruct (Rlt_dec (amount x) 0) as [L|L].
  - assert (A : (atan (amount x) < 0)%R) by (rewrite <- atan_0; now apply atan_increasing).
    destruct (Props.C84.nearest_about (- atan (amount x))) as [FN H]; [lra|]. split; [destruct (Props.C84.nearest _); exact FN|].
    change amount with fR in *. rewrite dopp_fR, (Rabs_left (atan _)) by exact A. set (n := Props.C84.nearest _) in *.
    replace (- fR n - atan (fR x))%R with (- (fR n - - atan (fR x)))%R by ring. rewrite Rabs_Ropp. exact H.
  - assert (A : (0 <= atan (amount x))%R).
    { destruct (Rtotal_order (amount x) 0) as [Q|[Q|Q]]; [lra|rewrite Q, atan_0; lra|rewrite <- atan_0; left; now apply atan_increasing]. }
    destruct (Props.C84.nearest_about (atan (amount x))) as [FN H]; [lra|]. split; [exact FN|]. rewrite (Rabs_pos_eq (atan _)) by exact A. exact H.
Qed.
