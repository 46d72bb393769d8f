(** Ways to the tool exchange point and to the base point. *)
From Coq Require Import Reals Lra.
From Flocq Require Import Core BinarySingleNaN.
From Verif Require Import Model.Base Model.Attr Model.Double Model.Macro Model.Verifiers Model.Splitter Model.PathGeom Model.PathCalc
  Spec.DoubleSpec Spec.SplitSpec Spec.PathSpec Spec.MotionSpec Spec.TravelSpec Proofs.Tactics Proofs.PathFrame Proofs.PathVisit Proofs.PathTotals Proofs.PathTime Proofs.PathRange
  Proofs.PathReset Proofs.FloatReal Proofs.MotionFloats Proofs.MotionVisit Proofs.MotionProofs Proofs.MotionBlocks Proofs.MotionTimes.

Open Scope string_scope.
Open Scope list_scope.
Open Scope Z_scope.

Section Travel.
Variables tan_ log cabs : dbl -> dbl.
Variable stale : Z.
Variable mc : machine.
Hypothesis axes : proper_axes mc.

(** ** Special codes *)

Lemma visit_special d u u' : visit_g d u = Ok u' -> d_word d = "G" ->
  (v_other u' = v_other u /\ forall s, ~ special_code d s) \/ (exists s, v_other u' = v_other u ++ [s] /\ special_code d s).
Proof.
  intros E W. unfold visit_g, bind in E. destruct (d_value d) as [t|] eqn:DV.
  2:{ inv E. left. split; [reflexivity|]. intros s (_ & t & n & D & _). congruence. }
  destruct (stoi t) as [n|] eqn:N; [|discriminate].
  assert (IN : forall l, In n l -> incl l (motions ++ planes ++ feed_modes ++ speed_modes ++ returns ++ programmings) -> forall s, ~ special_code d s).
  { intros l I J s (_ & t' & n' & D & N' & X & _). rewrite DV in D. injection D as <-. rewrite N in N'. injection N' as <-. apply X, J, I. }
  change (((0 <=? n) && (n <=? 3)) || (n =? 80) || is_drill_cycle n || is_drill_cycle_qparam n) with (is_motion n) in E.
  change [17; 18; 19] with planes in E. change [94; 95] with feed_modes in E. change [96; 97] with speed_modes in E.
  change [98; 99] with returns in E. change [90; 91] with programmings in E.
  destruct (existsb (Z.eqb n) planes) eqn:E1.
  { apply in_existsb in E1. inv E. left. split; [reflexivity|]. eapply IN; [exact E1|]. intros z Z. rewrite !in_app_iff; tauto. }
  destruct (is_motion n) eqn:E2.
  { apply is_motion_in in E2. inv E. left. split; [reflexivity|]. eapply IN; [exact E2|]. intros z Z. rewrite !in_app_iff; tauto. }
  destruct (existsb (Z.eqb n) feed_modes) eqn:E3.
  { apply in_existsb in E3. inv E. left. split; [reflexivity|]. eapply IN; [exact E3|]. intros z Z. rewrite !in_app_iff; tauto. }
  destruct (existsb (Z.eqb n) speed_modes) eqn:E4.
  { apply in_existsb in E4. inv E. left. split; [reflexivity|]. eapply IN; [exact E4|]. intros z Z. rewrite !in_app_iff; tauto. }
  destruct (existsb (Z.eqb n) returns) eqn:E5.
  { apply in_existsb in E5. inv E. left. split; [reflexivity|]. eapply IN; [exact E5|]. intros z Z. rewrite !in_app_iff; tauto. }
  destruct (existsb (Z.eqb n) programmings) eqn:E6.
  { apply in_existsb in E6. inv E. left. split; [reflexivity|]. eapply IN; [exact E6|]. intros z Z. rewrite !in_app_iff; tauto. }
  inv E. right. eexists. split; [reflexivity|]. split; [exact W|]. exists t, n. split; [exact DV|]. split; [exact N|]. split; [|reflexivity].
  rewrite !in_app_iff, <- is_motion_in, !in_existsb. intuition congruence.
Qed.

Lemma found_special q b v : foldM (visit_attr mc) found_init b = Ok v ->
  (existsb q (v_other v) = true <-> exists d s, In d (effective b) /\ special_code d s /\ q s = true).
Proof.
  intros E. rewrite (block_any mc (fun v => existsb q (v_other v) = true) (fun d => exists s, special_code d s /\ q s = true) (fun _ _ => False)); [| | | | |exact E].
  - split.
    + intros [(d & I & s & H)|(w & t & _ & [])]. exists d, s. tauto.
    + intros (d & s & I & H). left. exists d. split; [exact I|]. exists s. exact H.
  - intros u d u' W C EV. apply (visit_cases mc) in EV; [|exact W|exact C].
    match goal with |- _ <-> _ \/ ?Q => assert (N : d_word d <> "G"%string -> v_other u' = v_other u ->
      (existsb q (v_other u') = true <-> existsb q (v_other u) = true \/ Q)) end.
    { intros H ->. split; [auto|intros [H0|[s [[H0 _] _]]]; [exact H0|contradiction]]. }
    cases EV.
    + apply N; [|rewrite EV; reflexivity]. intros EM. rewrite EM, (not_param mc axes) in PA; [discriminate|cbn; tauto].
    + apply N; [congruence|]. rewrite EV. destruct (whole d); reflexivity.
    + apply N; [congruence|]. rewrite EV. reflexivity.
    + apply N; [congruence|]. rewrite EV. reflexivity.
    + apply N; [congruence|]. destruct (whole d) as [t|]; [|subst; reflexivity].
      destruct EV as [n [EN ->]]. rewrite (codes_other mc v_other) by reflexivity. destruct (n =? 6); reflexivity.
    + clear N. destruct (visit_special d u u' EV) as [[-> X]|(s & -> & X)]; [assumption|..].
      * split; [auto|]. intros [H0|(s & H0 & _)]; [exact H0|]. exfalso. exact (X s H0).
      * rewrite existsb_app. cbn [existsb]. rewrite orb_false_r, orb_true_iff. apply or_iff_compat_l. split; [intro H0; exists s; auto|].
        intros (s' & (_ & t & n & D & N & _ & ->) & H0). destruct X as (_ & t' & n' & D' & _ & _ & ->). rewrite D in D'. injection D' as <-. exact H0.
    + subst u'. apply N; [|reflexivity]. intros EM. apply H. rewrite EM. cbn; tauto.
  - reflexivity.
  - intros u w t. rewrite (codes_other mc v_other) by reflexivity. tauto.
  - discriminate.
Qed.

Lemma found_base b v : foldM (visit_attr mc) found_init b = Ok v -> calls_base b ->
  to_base v = true /\ forall w, is_ignored (v_other v) w = false.
Proof.
  intros F [(d & I & S) A].
  assert (Q : forall s, In s (v_other v) -> s = "28").
  { intros s J. destruct (proj1 (found_special (String.eqb s) b v F)) as (d' & s' & I' & S' & H).
    { apply existsb_exists. exists s. split; [exact J|apply String.eqb_refl]. }
    apply String.eqb_eq in H. subst s'. exact (A _ _ I' S'). }
  split.
  - unfold to_base, mem_str. apply (found_special (String.eqb "28") b v F). exists d, "28". split; [exact I|]. split; [exact S|reflexivity].
  - intro w. unfold is_ignored. destruct (assoc w ignore_g_codes) as [l|] eqn:L; [|reflexivity].
    assert (NI : ~ In "28" l).
    { unfold ignore_g_codes in L. cbn [assoc] in L.
      repeat match type of L with (if ?t then _ else _) = _ => destruct t; [injection L as <-; cbn; intuition discriminate|] end. discriminate. }
    apply not_true_iff_false. intro H. apply existsb_exists in H as (g & J & M). unfold mem_str in M. apply existsb_exists in M as (s & J' & M).
    apply String.eqb_eq in M. rewrite (Q s J') in M. subst g. contradiction.
Qed.

(** ** The way *)

(** The point a block goes to. *)
Definition heads (v : found) (p : dmap) : Prop :=
  to_exchange mc v = true /\ to_base v = false /\ p = mc_exchange_point mc \/ to_exchange mc v = false /\ to_base v = true /\ p = mc_base_point mc.

Lemma heads_one v p : heads v p -> to_exchange mc v || to_base v = true.
Proof. intros [(-> & -> & _)|(-> & -> & _)]; reflexivity. Qed.

Lemma straight_travel v m c c2 p : m_g m = 0 -> heads v p ->
  straight mc v m c = (c2, Go tt) -> exists xp yp zp, assoc "X" (c_prev c) = Some xp /\ assoc "Y" (c_prev c) = Some yp /\ assoc "Z" (c_prev c) = Some zp /\
    moved c2 = (p_work (c_path c), line3_to (halved m xp) yp zp (halved m (or_else (assoc "X" p) xp)) (or_else (assoc "Y" p) yp) (or_else (assoc "Z" p) zp)).
Proof.
  intros G HD E. unfold straight in E. unfold mbind at 1 in E.
  set (t := (m_g m =? 0) && _ || _) in E.
  assert (W : exists c1, when t no_cycle c = (c1, Go tt) /\ c_prev c1 = c_prev c /\ moved c1 = moved c).
  { unfold when. destruct t; eexists; (split; [reflexivity|split; reflexivity]). }
  destruct W as (c1 & W1 & W2 & W3). rewrite W1 in E. unfold mbind at 1, get in E. rewrite W2, <- orb_assoc, (heads_one v p HD), orb_true_r in E.
  destruct (assoc "X" (c_prev c)) as [xp|]; [|discriminate]. destruct (assoc "Y" (c_prev c)) as [yp|]; [|discriminate].
  destruct (assoc "Z" (c_prev c)) as [zp|]; [|discriminate]. exists xp, yp, zp. do 3 (split; [reflexivity|]).
  assert (T : forall w x, target mc v w x = ret (or_else (assoc w p) x)).
  { intros w x. unfold target. destruct HD as [(-> & -> & ->)|(-> & -> & ->)]; [destruct (assoc w (mc_exchange_point mc))|]; reflexivity. }
  unfold mbind, need, ret in E. rewrite !T in E. unfold ret, set_motion, upd_path, upd in E.
  injection E as <-. injection W3 as W4 W5. unfold moved. rewrite G. cbn. congruence.
Qed.

(** What stays the same until the motion. *)
Definition kept (c : calc) := (c_prev c, c_range c, c_prog c, c_plane c, moved c, motion_time c).

Lemma opening_travel v c c1 r : to_exchange mc v || to_base v = true -> (found_tool v <> None -> tool_taken mc v = true) -> opening mc v c = (c1, r) ->
  kept c1 = kept c /\ (r = Go tt /\ c_g c1 = 0 \/ early_failure (outcome r)).
Proof.
  intros TR TK E. unfold opening in E.
  destruct (service_time mc v c) as (s1 & E1 & _).
  assert (K1 : kept s1 = kept c).
  { assert (K : keeps kept (service_times mc v)) by (unfold service_times, exchange_times, add_time; keeps). specialize (K c). rewrite E1 in K. exact K. }
  rewrite (bind_eq _ _ _ _ _ E1) in E. clear E1.
  destruct (match found_tool v with Some t => tool_change mc v t | None => ret tt end s1) as [s2 r2] eqn:E2.
  assert (K2 : kept s2 = kept s1 /\ (r2 = Go tt \/ early_failure (outcome r2))).
  { destruct (found_tool v) as [t|] eqn:FT; [|inv E2; auto]. specialize (TK ltac:(discriminate)). split.
    - assert (K : keeps kept (tool_change mc v t)).
      { unfold tool_change, exchange_times, add_time. rewrite TK. keeps. apply keeps_upd. intros c0. destruct (String.eqb (c_tool c0) ""); reflexivity. }
      specialize (K s1). rewrite E2 in K. exact K.
    - destruct (tool_time mc v t s1 s2 r2 FT E2) as [_ [H|[(_ & H & _)|(H & _)]]]; [now right|now left|congruence]. }
  destruct K2 as [K2 R2]. rewrite (bind_eq _ _ _ _ _ E2) in E. clear E2.
  destruct R2 as [->|R2].
  2:{ destruct r2 as [?| |e]; [destruct R2 as [R2|[R2|[? R2]]]; discriminate|destruct R2 as [R2|[R2|[? R2]]]; discriminate|].
      inv E. split; [congruence|]. right. exact R2. }
  destruct (dwell_time v s2) as (s3 & E3 & _).
  assert (K3 : kept s3 = kept s2).
  { assert (K : keeps kept (dwell v)) by (unfold dwell; keeps). specialize (K s2). rewrite E3 in K. exact K. }
  rewrite (bind_eq _ _ _ _ _ E3) in E. clear E3.
  unfold start_modes in E. rewrite TR in E. cbn [when] in E. unfold mbind, upd, get in E.
  assert (B : forall x y, negb (to_exchange mc v) && negb (to_base v) && x = y -> y = false).
  { intros x y <-. rewrite <- negb_orb, TR. reflexivity. }
  destruct (c_auto _ && _).
  - inv E. split; [rewrite <- K1, <- K2, <- K3; reflexivity|]. left. split; reflexivity.
  - destruct (negb (to_exchange mc v) && _ && _) eqn:Q in E; [apply B in Q; discriminate|].
    inv E. split; [rewrite <- K1, <- K2, <- K3; reflexivity|]. left. split; reflexivity.
Qed.

(** A block that goes to a point. *)
Lemma travel_block inch line b c mv c' mv' v p pl : b <> [] -> foldM (visit_attr mc) found_init b = Ok v -> heads v p ->
  (found_tool v <> None -> tool_taken mc v = true) -> (forall w, is_ignored (v_other v) w = false) ->
  in_rapid b -> in_force (code_of planes) b (c_plane c) pl ->
  evaluate tan_ log cabs stale mc inch line b c mv = (c', mv', None) ->
  exists c1 c2, m_g (current_modes mc v c1) = 0 /\ m_plane (current_modes mc v c1) = pl /\
    c_prev c1 = c_prev c /\ moved c1 = (dzero, dzero) /\ straight mc v (current_modes mc v c1) c1 = (c2, Go tt) /\ moved c' = moved c2 /\
    c_prev c' = fst (fold_left (copy_value 0 stale (v_other v)) p (c_prev c, c_range c)) /\
    rapid_time c' = (if negb (deqb (rapid c') dzero) && dgtb (mc_fast_feed mc) dzero then dmul (dz 60) (calc_time (rapid c') (mc_fast_feed mc)) else dzero).
Proof.
  intros NE F HD TK IG IR PL E. unfold evaluate in E. destruct b as [|a b]; [contradiction|]. set (bb := a :: b) in *. rewrite F in E.
  destruct (evaluate_found tan_ log cabs stale mc inch v (no_motion c)) as [ce r] eqn:EF. injection E as <- _ R.
  apply evaluate_cases in EF as [[EO NG]|(c1 & EO & EF)].
  { apply opening_travel in EO as (_ & [[Q _]|Q]); [exfalso; exact (NG tt Q)| |exact (heads_one v p HD)|exact TK].
    rewrite R in Q. destruct Q as [Q|[Q|[? Q]]]; discriminate. }
  apply opening_travel in EO as (K & [[_ G0]|Q]); [|destruct Q as [Q|[Q|[? Q]]]; discriminate|exact (heads_one v p HD)|exact TK].
  unfold kept in K. change (motion_time (no_motion c)) with (dzero, dzero) in K. change (moved (no_motion c)) with (dzero, dzero) in K.
  change (c_prev (no_motion c)) with (c_prev c) in K. change (c_range (no_motion c)) with (c_range c) in K.
  change (c_plane (no_motion c)) with (c_plane c) in K.
  assert (KK : c_prev c1 = c_prev c /\ c_range c1 = c_range c /\ c_plane c1 = c_plane c /\ moved c1 = (dzero, dzero) /\ motion_time c1 = (dzero, dzero))
    by (repeat split; congruence). destruct KK as (KP & KR & KL & KM & KT).
  set (m := current_modes mc v c1) in *.
  assert (MG : m_g m = 0).
  { subst m. cbn [current_modes m_g]. pose proof (found_motion mc axes bb v F) as FM.
    destruct IR as [IR|IR]; rewrite (said_twice _ _ _ _ (code_of_one motions) FM IR); [reflexivity|exact G0]. }
  assert (ML : m_plane m = pl).
  { subst m. cbn [current_modes m_plane]. apply (said_in_force _ _ _ _ _ (code_of_one planes) (found_plane mc axes bb v F)). rewrite KL. exact PL. }
  assert (MO : motion tan_ log cabs mc v m c1 = mbind (straight mc v m) (fun _ => ret 0) c1) by (unfold motion; rewrite MG; reflexivity).
  rewrite MO in EF. clear MO.
  destruct EF as [(r1 & EM & H)|(c2 & g' & EM & EF)].
  { unfold mbind in EM. destruct (straight mc v m c1) as [c4 [u| |e]] eqn:ST.
    - inv EM. destruct H as [[? _]|(e & ? & _)]; discriminate.
    - exfalso. exact (straight_stays mc v m c1 c4 ST).
    - inv EM. destruct H as [[? _]|(e' & _ & ->)]; discriminate. }
  unfold mbind in EM. destruct (straight mc v m c1) as [c4 [[]| |e]] eqn:ST; inv EM.
  pose proof (straight_books mc v m c1) as B. rewrite ST in B. cbn [fst] in B.
  assert (BB : c_prev c2 = c_prev c1 /\ c_range c2 = c_range c1 /\ c_time c2 = c_time c1) by (unfold books in B; repeat split; congruence).
  destruct BB as (BP & BR & BT).
  apply finish_spec in EF as (c3 & Q & [[_ [e ->]]|[-> H]]); [discriminate R|].
  exists c1, c2. do 5 (split; [assumption || reflexivity|]).
  assert (HC : ce = copy_on_return 0 stale (v_other v) p c3).
  { rewrite H. replace (c_g c3) with 0 by (rewrite Q; reflexivity). destruct HD as [(-> & _ & ->)|(-> & -> & ->)]; reflexivity. }
  split. { rewrite HC, copy_books by reflexivity. rewrite Q. reflexivity. }
  split.
  { rewrite HC. unfold copy_on_return. assert (C3 : (c_prev c3, c_range c3) = (c_prev c, c_range c)).
    { rewrite Q. unfold add_up, set_modes, set_path, set_time. cbn [c_prev c_range]. congruence. }
    rewrite C3. destruct (fold_left _ _ _) as [q1 q2]. reflexivity. }
  unfold rapid_time, rapid. rewrite HC, (copy_books (fun c => t_fast (c_time c))), (copy_books (fun c => p_fast (c_path c))) by reflexivity.
  rewrite Q. unfold add_up. cbn [c_time c_path set_time set_path t_fast p_fast set_modes]. rewrite BT.
  unfold motion_time in KT. injection KT as _ ->. reflexivity.
Qed.

Lemma copy_without g prog other vs : (forall w, is_ignored other w = false) -> forall s,
  fold_left (copy_value g prog other) vs s = fold_left (copy_value g prog []) vs s.
Proof.
  intros IG. induction vs as [|[w x] vs IH]; intro s; [reflexivity|]. cbn [fold_left]. rewrite IH. f_equal. destruct s as [q r].
  unfold copy_value. rewrite IG. replace (is_ignored [] w) with false; [reflexivity|]. unfold is_ignored.
  destruct (assoc w ignore_g_codes) as [l|]; [|reflexivity]. induction l as [|y l IHl]; [reflexivity|exact IHl].
Qed.

Lemma standing p w x y : is_map p -> standing_at p w x y -> or_else (assoc w p) x = y.
Proof.
  intros M [I|[N ->]].
  - replace (assoc w p) with (Some y); [reflexivity|]. induction p as [|[k z] p IH]; [contradiction|]. inversion M as [|? ? NI M']; subst. cbn [assoc].
    destruct I as [I|I].
    + injection I as -> ->. now rewrite String.eqb_refl.
    + destruct (String.eqb_spec w k) as [->|]; [|now apply IH]. exfalso. apply NI. now apply (in_map fst) in I.
  - replace (assoc w p) with (@None dbl); [reflexivity|]. clear M. induction p as [|[k z] p IH]; [reflexivity|]. cbn [assoc].
    destruct (String.eqb_spec w k) as [->|]; [exfalso; apply (N z); left; reflexivity|]. apply IH. intros z' I. apply (N z'). right. exact I.
Qed.

Theorem travel_way inch line b c mv c' mv' v p pl k xp yp zp x y z : b <> [] -> foldM (visit_attr mc) found_init b = Ok v -> heads v p -> is_map p ->
  (found_tool v <> None -> tool_taken mc v = true) -> (forall w, is_ignored (v_other v) w = false) ->
  in_rapid b -> in_force (code_of planes) b (c_plane c) pl -> share mc pl k ->
  evaluate tan_ log cabs stale mc inch line b c mv = (c', mv', None) ->
  position "X" c = Some xp -> position "Y" c = Some yp -> position "Z" c = Some zp ->
  standing_at p "X" xp x -> standing_at p "Y" yp y -> standing_at p "Z" zp z ->
  moderate xp -> moderate yp -> moderate zp -> moderate x -> moderate y -> moderate z ->
  about (rapid c') (way ((amount x - amount xp) / k) (amount y - amount yp) (amount z - amount zp)) /\ cut c' = dzero.
Proof.
  intros NE F HD IM TK IG IR PL K E X0 Y0 Z0 X1 Y1 Z1 MX0 MY0 MZ0 MX MY MZ.
  destruct (travel_block inch line b c mv c' mv' v p pl NE F HD TK IG IR PL E) as (c1 & c2 & MG & ML & CP & MV & S & M2 & _).
  destruct (straight_travel v _ c1 c2 p MG HD S) as (xp' & yp' & zp' & X0' & Y0' & Z0' & W).
  rewrite CP in X0', Y0', Z0'. unfold position in *. rewrite X0 in X0'. rewrite Y0 in Y0'. rewrite Z0 in Z0'. injection X0' as <-. injection Y0' as <-. injection Z0' as <-.
  rewrite (standing p _ _ _ IM X1), (standing p _ _ _ IM Y1), (standing p _ _ _ IM Z1) in W.
  rewrite <- ML in K. apply halving in K. set (m := current_modes mc v c1) in *.
  set (l := way _ _ _).
  assert (N : about (line3_to (halved m xp) yp zp (halved m x) y z) l).
  { destruct (halved_moderate m xp k MX0 K) as (A1 & A2 & A3). destruct (halved_moderate m x k MX K) as (B1 & B2 & B3).
    destruct (moderate_bound _ MY0). destruct (moderate_bound _ MY). destruct (moderate_bound _ MZ0). destruct (moderate_bound _ MZ).
    pose proof (line3_near _ _ _ _ _ _ (rounded_sub _ _ A1 B1 A3 B3) (rounded_sub yp y ltac:(assumption) ltac:(assumption) ltac:(assumption) ltac:(assumption))
                 (rounded_sub zp z ltac:(assumption) ltac:(assumption) ltac:(assumption) ltac:(assumption))) as N.
    unfold l, way, about. change (amount x) with (fR x). unfold near_length in N. 
    replace (sqrt _) with (sqrt ((fR (halved m xp) - fR (halved m x)) * (fR (halved m xp) - fR (halved m x)) + (fR yp - fR y) * (fR yp - fR y) + (fR zp - fR z) * (fR zp - fR z)))%R; [exact N|].
    f_equal. rewrite A2, B2. unfold amount. fold (fR xp) (fR yp) (fR zp) (fR y) (fR z). destruct K as [[-> _]|[-> _]]; field. }
  rewrite <- M2 in W. injection MV as MV1 MV2. unfold moved in W. injection W as W1 W2. unfold cut, rapid. rewrite W1, W2. split; assumption.
Qed.

Theorem travel_end inch line b c mv c' mv' v p w x y : b <> [] -> foldM (visit_attr mc) found_init b = Ok v -> heads v p -> is_map p ->
  (found_tool v <> None -> tool_taken mc v = true) -> (forall w, is_ignored (v_other v) w = false) -> in_rapid b -> stale = 90 ->
  evaluate tan_ log cabs stale mc inch line b c mv = (c', mv', None) ->
  In w ["X"; "Y"; "Z"] -> position w c = Some x -> standing_at p w x y -> position w c' = Some y.
Proof.
  intros NE F HD IM TK IG IR ST E IW X0 X1.
  assert (PL : exists pl, in_force (code_of planes) b (c_plane c) pl).
  { pose proof (found_plane mc axes b v F) as L. destruct (v_plane v) as [n|]; [exists n; now left|exists (c_plane c); right; auto]. }
  destruct PL as [pl PL].
  destruct (travel_block inch line b c mv c' mv' v p pl NE F HD TK IG IR PL E) as (c1 & c2 & _ & _ & _ & _ & _ & _ & P & _).
  unfold position in *. rewrite P, (copy_without _ _ _ _ IG), copied;
    [|exact IM|intros ->; cbn in IW; intuition discriminate|intros ->; cbn in IW; intuition discriminate|reflexivity].
  rewrite <- (standing p w x y IM X1). rewrite ST. destruct (assoc w p); [|exact X0]. cbn [or_else]. destruct (assoc w (c_range c)) as [[[? ?] ?]|]; reflexivity.
Qed.

Theorem travel_time inch line b c mv c' mv' v p : b <> [] -> foldM (visit_attr mc) found_init b = Ok v -> heads v p ->
  (found_tool v <> None -> tool_taken mc v = true) -> (forall w, is_ignored (v_other v) w = false) -> in_rapid b -> rate (mc_fast_feed mc) ->
  evaluate tan_ log cabs stale mc inch line b c mv = (c', mv', None) ->
  moderate (rapid c') -> (0 <= amount (rapid c'))%R -> about (rapid_time c') (seconds (amount (rapid c')) (amount (mc_fast_feed mc))).
Proof.
  intros NE F HD TK IG IR RT E M P.
  assert (PL : exists pl, in_force (code_of planes) b (c_plane c) pl).
  { pose proof (found_plane mc axes b v F) as L. destruct (v_plane v) as [n|]; [exists n; now left|exists (c_plane c); right; auto]. }
  destruct PL as [pl PL].
  destruct (travel_block inch line b c mv c' mv' v p pl NE F HD TK IG IR PL E) as (c1 & c2 & _ & _ & _ & _ & _ & _ & _ & T).
  destruct (rate_bounds _ RT) as [FF FP]. rewrite T, (positive_gtb _ FF FP), andb_true_r.
  destruct (deqb (rapid c') dzero) eqn:D; cbn [negb].
  - apply about_zero. unfold seconds. rewrite (zero_amount _ (proj1 M) D). unfold Rdiv. ring.
  - apply time_near; [apply M|exact FF|exact P|exact FP|]. now apply rate_quotient.
Qed.

(** ** Which blocks go where *)

Lemma exchange_heads b v : foldM (visit_attr mc) found_init b = Ok v -> exchanges mc b -> plain_codes b ->
  b <> [] /\ heads v (mc_exchange_point mc) /\ tool_taken mc v = true /\ forall w, is_ignored (v_other v) w = false.
Proof.
  intros F X PL. pose proof (found_plain mc axes b v F PL) as O.
  assert (TB : to_base v = false) by (unfold to_base; rewrite O; reflexivity).
  assert (TT : to_exchange mc v = true /\ tool_taken mc v = true).
  { unfold exchanges in X. unfold to_exchange, tool_taken. destruct (cd_tool_executes (mc_cnc mc)).
    - apply (tool_named mc axes b v F) in X. rewrite X. split; [apply orb_true_r|reflexivity].
    - apply (found_m6 mc axes b v F) in X. rewrite X. split; reflexivity. }
  destruct TT as [TE TT].
  split. { intros ->. inv F. unfold to_exchange in TE. cbn in TE. rewrite andb_false_r in TE. discriminate. }
  split; [left; auto|]. split; [exact TT|]. intro w. rewrite O. unfold is_ignored.
  destruct (assoc w ignore_g_codes) as [l|]; [|reflexivity]. induction l as [|y l IHl]; [reflexivity|exact IHl].
Qed.

Lemma base_heads b v : foldM (visit_attr mc) found_init b = Ok v -> calls_base b -> no_tool b ->
  b <> [] /\ heads v (mc_base_point mc) /\ found_tool v = None /\ forall w, is_ignored (v_other v) w = false.
Proof.
  intros F B [NT NM]. destruct (found_base b v F B) as [TB IG]. pose proof (no_tool_found mc axes b v F NT) as T.
  assert (M6 : v_m6 v = false). { destruct (v_m6 v) eqn:H; [|reflexivity]. exfalso. apply NM. now apply (found_m6 mc axes b v F). }
  split. { intros ->. destruct B as [(d & [] & _) _]. }
  split. { right. split; [|auto]. unfold to_exchange. rewrite T, M6, andb_false_r. reflexivity. }
  split; assumption.
Qed.

Lemma read_block inch line b c mv c' mv' : b <> [] -> evaluate tan_ log cabs stale mc inch line b c mv = (c', mv', None) ->
  exists v, foldM (visit_attr mc) found_init b = Ok v.
Proof.
  intros NE E. unfold evaluate in E. destruct b; [contradiction|]. destruct (foldM (visit_attr mc) found_init _) as [v|]; [eauto|discriminate].
Qed.

Lemma bound_nonempty b p : bound_for mc b p -> b <> [].
Proof.
  intros H ->. destruct H as [(X & _)|([(d & [] & _) _] & _)]. unfold exchanges in X. destruct (cd_tool_executes (mc_cnc mc)); destruct X as (? & ? & [] & _).
Qed.

Lemma bound_heads b p v : foldM (visit_attr mc) found_init b = Ok v -> bound_for mc b p ->
  heads v p /\ (found_tool v <> None -> tool_taken mc v = true) /\ forall w, is_ignored (v_other v) w = false.
Proof.
  intros F [(X & PL & ->)|(B & N & ->)].
  - destruct (exchange_heads b v F X PL) as (_ & H & T & I). auto.
  - destruct (base_heads b v F B N) as (_ & H & T & I). split; [exact H|]. split; [intro Q; contradiction|exact I].
Qed.

Theorem bound_way inch line b c mv c' mv' p pl k xp yp zp x y z : bound_for mc b p -> is_map p ->
  in_rapid b -> in_force (code_of planes) b (c_plane c) pl -> share mc pl k ->
  evaluate tan_ log cabs stale mc inch line b c mv = (c', mv', None) ->
  position "X" c = Some xp -> position "Y" c = Some yp -> position "Z" c = Some zp ->
  standing_at p "X" xp x -> standing_at p "Y" yp y -> standing_at p "Z" zp z ->
  moderate xp -> moderate yp -> moderate zp -> moderate x -> moderate y -> moderate z ->
  about (rapid c') (way ((amount x - amount xp) / k) (amount y - amount yp) (amount z - amount zp)) /\ cut c' = dzero.
Proof.
  intros B IM IR PL K E. pose proof (bound_nonempty b p B) as NE. destruct (read_block inch line b c mv c' mv' NE E) as [v F].
  destruct (bound_heads b p v F B) as (H & T & I). intros. eapply (travel_way inch line b c mv c' mv' v p pl k xp yp zp x y z); eassumption.
Qed.

Theorem bound_end inch line b c mv c' mv' p w x y : bound_for mc b p -> is_map p -> in_rapid b -> stale = 90 ->
  evaluate tan_ log cabs stale mc inch line b c mv = (c', mv', None) ->
  In w ["X"; "Y"; "Z"] -> position w c = Some x -> standing_at p w x y -> position w c' = Some y.
Proof.
  intros B IM IR ST E. pose proof (bound_nonempty b p B) as NE. destruct (read_block inch line b c mv c' mv' NE E) as [v F].
  destruct (bound_heads b p v F B) as (H & T & I). intros. eapply (travel_end inch line b c mv c' mv' v p w x y); eassumption.
Qed.

Theorem bound_time inch line b c mv c' mv' p : bound_for mc b p -> in_rapid b -> rate (mc_fast_feed mc) ->
  evaluate tan_ log cabs stale mc inch line b c mv = (c', mv', None) ->
  moderate (rapid c') -> (0 <= amount (rapid c'))%R -> about (rapid_time c') (seconds (amount (rapid c')) (amount (mc_fast_feed mc))).
Proof.
  intros B IR R E. pose proof (bound_nonempty b p B) as NE. destruct (read_block inch line b c mv c' mv' NE E) as [v F].
  destruct (bound_heads b p v F B) as (H & T & I). intros. eapply (travel_time inch line b c mv c' mv' v p); eassumption.
Qed.

End Travel.
