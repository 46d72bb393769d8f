(** Blocks with straight motions, and the time any motion takes. *)
From Coq Require Import Reals Lra.
From Flocq Require Import Core BinarySingleNaN.
From Verif Require Import Model.Base Model.Attr Model.Double Model.Macro Model.Verifiers Model.Splitter Model.PathGeom Model.PathCalc
  Spec.DoubleSpec Spec.SplitSpec Spec.PathSpec Spec.MotionSpec Proofs.Tactics Proofs.PathFrame Proofs.PathVisit Proofs.PathTotals Proofs.PathRange
  Proofs.PathReset Proofs.FloatReal Proofs.MotionFloats Proofs.MotionVisit Proofs.MotionProofs.

Open Scope string_scope.
Open Scope list_scope.
Open Scope Z_scope.

(** Motions that do not end the block early. *)
Definition stays {A} (m : M A) : Prop := forall c c', m c <> (c', Return).

Lemma stays_ret {A} (a : A) : stays (ret a). Proof. intros c c'. discriminate. Qed.
Lemma stays_throw {A} l : stays (@throw A l). Proof. intros c c'. discriminate. Qed.
Lemma stays_undefined {A} l : stays (@undefined A l). Proof. intros c c'. discriminate. Qed.
Lemma stays_get {A} (f : calc -> A) : stays (get f). Proof. intros c c'. discriminate. Qed.
Lemma stays_upd f : stays (upd f). Proof. intros c c'. discriminate. Qed.
Lemma stays_lift {A} (r : res A) : stays (lift r). Proof. intros c c'. unfold lift. destruct r; discriminate. Qed.
Lemma stays_bind {A B} (m : M A) (k : A -> M B) : stays m -> (forall a, stays (k a)) -> stays (mbind m k).
Proof. intros S K c c'. unfold mbind. destruct (m c) as [c1 [a| |e]] eqn:E; [apply K|exfalso; apply (S _ _ E)|discriminate]. Qed.

Ltac stays :=
  repeat match goal with
    | |- stays (ret _) => apply stays_ret
    | |- stays (throw _) => apply stays_throw
    | |- stays (undefined _) => apply stays_undefined
    | |- stays (get _) => apply stays_get
    | |- stays (lift _) => apply stays_lift
    | |- stays (need _ _) => unfold need
    | |- stays (deref _) => unfold deref
    | |- stays (upd _) => apply stays_upd
    | |- stays (upd_path _) => apply stays_upd
    | |- stays (when _ _) => unfold when
    | |- stays (mbind _ _) => apply stays_bind; [|intros]
    | |- stays (match ?x with _ => _ end) => destruct x
    end.

Lemma holes_stay n x y : stays (holes n x y).
Proof. induction n; cbn [holes]; stays. assumption. Qed.

Section Blocks.
Variables tan_ log cabs : dbl -> dbl.
Variable stale : Z.
Variable mc : machine.

Lemma straight_stays v m : stays (straight mc v m).
Proof. unfold straight, no_cycle, target, set_motion. stays. Qed.

(** A motion that ends the block has not moved. *)
Lemma motion_return v m c c' : motion tan_ log cabs mc v m c = (c', Return) -> c' = c.
Proof.
  unfold motion. intro E.
  destruct ((m_g m =? 0) || (m_g m =? 1)).
  { exfalso. revert E. apply (stays_bind (straight mc v m)); [apply straight_stays|intros; stays]. }
  destruct ((m_g m =? 2) || (m_g m =? 3)).
  { unfold mbind at 1, circular in E. destruct (negb (is_some (v_g v)) && _); [now inv E|]. exfalso.
    match type of E with context [match ?t c with _ => _ end] => assert (S : stays t) end.
    { unfold no_cycle, helix_block, helix_incremental, helix_absolute, by_centre_or_radius, arc. stays. }
    match type of E with context [match ?t c with _ => _ end] => destruct (t c) as [c1 [a| |e]] eqn:Q; [discriminate|exact (S _ _ Q)|discriminate] end. }
  destruct (m_g m =? 80); [discriminate|].
  destruct (is_drill_cycle (m_g m) || is_drill_cycle_qparam (m_g m)); [|now inv E].
  unfold mbind at 1, drilling in E. destruct (negb (is_some (v_g v)) && _); [now inv E|]. exfalso.
  match type of E with context [match ?t c with _ => _ end] => assert (S : stays t) end.
  { unfold cycle_distance, set_both. stays; apply holes_stay. }
  match type of E with context [match ?t c with _ => _ end] => destruct (t c) as [c1 [a| |e]] eqn:Q; [discriminate|exact (S _ _ Q)|discriminate] end.
Qed.

Hypothesis axes : proper_axes mc.

(** What is in force for a motion. *)
Lemma settled {T} (f : calc -> T) v c c1 : (forall c t, f (set_time t c) = f c) -> (forall c g a, f (set_g g (set_auto a c)) = f c) ->
  timeless c1 = timeless (approached v (no_motion c)) -> f c1 = f (no_motion c).
Proof.
  intros A B E. transitivity (f (timeless c1)); [symmetry; apply A|]. rewrite E. unfold timeless. rewrite A. unfold approached.
  destruct (c_auto (no_motion c) && _); [apply B|reflexivity].
Qed.

Lemma forced v b c c1 p pl : foldM (visit_attr mc) found_init b = Ok v -> timeless c1 = timeless (approached v (no_motion c)) ->
  in_force (code_of programmings) b (c_prog c) p -> in_force (code_of planes) b (c_plane c) pl ->
  m_prog (current_modes mc v c1) = p /\ m_plane (current_modes mc v c1) = pl /\ c_prev c1 = c_prev c /\ c_range c1 = c_range c /\
  moved c1 = (dzero, dzero).
Proof.
  intros F T P L.
  split. { cbn [current_modes m_prog]. apply (said_in_force _ _ _ _ _ (code_of_one programmings) (found_programming mc axes b v F)).
    rewrite (settled c_prog v c c1); [exact P|reflexivity..|exact T]. }
  split. { cbn [current_modes m_plane]. apply (said_in_force _ _ _ _ _ (code_of_one planes) (found_plane mc axes b v F)).
    rewrite (settled c_plane v c c1); [exact L|reflexivity..|exact T]. }
  split. { now rewrite (settled c_prev v c c1). }
  split. { now rewrite (settled c_range v c c1). }
  now rewrite (settled moved v c c1).
Qed.

Lemma halving v c1 k : share mc (m_plane (current_modes mc v c1)) k -> (k = 2 /\ m_halve (current_modes mc v c1) = true \/ k = 1 /\ m_halve (current_modes mc v c1) = false)%R.
Proof.
  set (m := current_modes mc v c1).
  assert (H : m_halve m = true <-> diameters mc (m_plane m)).
  { subst m. unfold current_modes, diameters, turning. cbn [m_halve m_plane]. set (pl := or_else _ _). rewrite andb_true_iff, negb_true_iff.
    destruct (mc_type mc); split.
    - intros [D _]; discriminate.
    - intros [_ [D|[D _]]]; discriminate.
    - intros [_ D]. split; [exact D|now left].
    - intros [D _]. split; [reflexivity|exact D].
    - intros [Q D]. apply Z.eqb_eq in Q. split; [exact D|right; split; [reflexivity|exact Q]].
    - intros [D [Q|[_ Q]]]; [discriminate|]. split; [now apply Z.eqb_eq|exact D]. }
  intros [[D ->]|[D ->]]; [left|right]; (split; [reflexivity|]); [now apply H|].
  destruct (m_halve m); [exfalso; apply D, H; reflexivity|reflexivity].
Qed.

Lemma halved_moderate m x k : moderate x -> (k = 2 /\ m_halve m = true \/ k = 1 /\ m_halve m = false)%R ->
  finite (halved m x) /\ fR (halved m x) = (fR x / k)%R /\ (Rabs (fR (halved m x)) <= limit)%R.
Proof.
  intros [F B] [[-> H]|[-> H]]; unfold halved; rewrite H.
  - destruct (half_exact x F B) as (A1 & A2 & A3). split; [exact A1|]. split; [exact A2|]. rewrite A2. exact A3.
  - split; [exact F|]. split; [field|]. destruct B as [B|[_ B]]; [|exact B]. change (amount x) with (fR x) in B. rewrite B, Rabs_R0. pose proof limit_1. lra.
Qed.

Lemma moderate_bound x : moderate x -> finite x /\ (Rabs (fR x) <= limit)%R.
Proof. intros [F [B|[_ B]]]; (split; [exact F|]); [|exact B]. change (amount x) with (fR x) in B. rewrite B, Rabs_R0. pose proof limit_1. lra. Qed.

(** The way of a straight block: what its motion does and where it ends. *)
Lemma straight_block inch line b c mv c' mv' g p pl : b <> [] -> no_tool b -> plain_codes b -> motion_code b c g -> (g = 0 \/ g = 1) ->
  in_force (code_of programmings) b (c_prog c) p -> in_force (code_of planes) b (c_plane c) pl ->
  evaluate tan_ log cabs stale mc inch line b c mv = (c', mv', None) ->
  exists v c1 c2, foldM (visit_attr mc) found_init b = Ok v /\ to_exchange mc v = false /\ to_base v = false /\
    m_g (current_modes mc v c1) = g /\ m_prog (current_modes mc v c1) = p /\ m_plane (current_modes mc v c1) = pl /\
    c_prev c1 = c_prev c /\ moved c1 = (dzero, dzero) /\ straight mc v (current_modes mc v c1) c1 = (c2, Go tt) /\ moved c' = moved c2 /\
    c_prev c' = fst (fold_left (copy_value g p []) (v_values v) (c_prev c, c_range c)).
Proof.
  intros NE NT PL MC G P L E.
  destruct (block_motion tan_ log cabs stale mc axes inch line b c mv c' mv' g NE NT PL MC ltac:(lia) E)
    as (v & c1 & m & F & O & TE & TB & -> & MG & T & _ & K).
  destruct (forced v b c c1 p pl F T P L) as (MP & ML & CP & CR & MV).
  assert (MO : forall c2 r, motion tan_ log cabs mc v (current_modes mc v c1) c1 = (c2, r) ->
            mbind (straight mc v (current_modes mc v c1)) (fun _ => ret g) c1 = (c2, r)).
  { intros c2 r H. unfold motion in H. rewrite MG in H. destruct G as [-> | ->]; exact H. }
  destruct K as [(c2 & K & _)|(c2 & g' & c3 & K & Q3 & Q)].
  { exfalso. apply MO in K. revert K. apply stays_bind; [apply straight_stays|intros; apply stays_ret]. }
  apply MO in K. unfold mbind in K. destruct (straight mc v (current_modes mc v c1) c1) as [c4 [[]| |e]] eqn:S; inv K.
  assert (B : books c2 = books c1).
  { pose proof (straight_books mc v (current_modes mc v c1) c1) as H. rewrite S in H. exact H. }
  assert (BP : c_prev c2 = c_prev c1 /\ c_range c2 = c_range c1) by (unfold books in B; split; congruence). destruct BP as [BP BR].
  exists v, c1, c2. do 3 (split; [assumption || reflexivity|]). do 5 (split; [assumption || reflexivity|]). split; [exact S|].
  split. { rewrite copy_books by reflexivity. reflexivity. }
  unfold copy_on_return. set (c3 := add_up _ _ _ _).
  assert (C3 : (c_prev c3, c_range c3) = (c_prev c, c_range c)).
  { subst c3. unfold add_up, set_modes, set_path, set_time. cbn [c_prev c_range]. congruence. }
  rewrite C3. destruct (fold_left _ _ _) as [q r]. reflexivity.
Qed.

Lemma not_copied g w : (g = 0 \/ g = 1) -> w = "Z" -> is_drill_cycle g || is_drill_cycle_qparam g = false.
Proof. intros [-> | ->] _; reflexivity. Qed.

Theorem straight_absolute_way inch line b c mv c' mv' g pl k xp yp zp x y z : b <> [] -> no_tool b -> plain_codes b -> motion_code b c g -> (g = 0 \/ g = 1) ->
  in_force (code_of programmings) b (c_prog c) 90 -> in_force (code_of planes) b (c_plane c) pl -> share mc pl k ->
  evaluate tan_ log cabs stale mc inch line b c mv = (c', mv', None) ->
  position "X" c = Some xp -> position "Y" c = Some yp -> position "Z" c = Some zp ->
  position "X" c' = Some x -> position "Y" c' = Some y -> position "Z" c' = Some z ->
  moderate xp -> moderate yp -> moderate zp -> moderate x -> moderate y -> moderate z ->
  let l := way ((amount x - amount xp) / k) (amount y - amount yp) (amount z - amount zp) in
  if g =? 0 then about (rapid c') l /\ cut c' = dzero else about (cut c') l /\ rapid c' = dzero.
Proof.
  intros NE NT PL MC G P L K E X0 Y0 Z0 X1 Y1 Z1 MX0 MY0 MZ0 MX MY MZ l.
  destruct (straight_block inch line b c mv c' mv' g 90 pl NE NT PL MC G P L E)
    as (v & c1 & c2 & F & TE & TB & MG & MP & ML & CP & MV & S & M2 & PP).
  destruct (straight_absolute mc v _ c1 c2 MP ltac:(rewrite MG; exact G) TE TB S) as (xp' & yp' & zp' & X0' & Y0' & Z0' & W). cbv zeta in W.
  rewrite CP in X0', Y0', Z0'. unfold position in *. rewrite X0 in X0'. rewrite Y0 in Y0'. rewrite Z0 in Z0'. injection X0' as <-. injection Y0' as <-. injection Z0' as <-.
  destruct (found_good mc b v F) as [ND _].
  assert (AF : forall w a, w <> "Q" -> w <> "L" -> assoc w (c_prev c) = Some a -> assoc w (c_prev c') = Some (or_else (assoc w (v_values v)) a)).
  { intros w a Q1 Q2 H. rewrite PP, (copied g 90 (v_values v) w ND Q1 Q2 (not_copied g w G)). destruct (assoc w (v_values v)); [|exact H].
    cbn [or_else]. destruct (assoc w (c_range c)) as [[[? ?] ?]|]; reflexivity. }
  rewrite (AF "X" xp) in X1 by (try discriminate; exact X0). rewrite (AF "Y" yp) in Y1 by (try discriminate; exact Y0).
  rewrite (AF "Z" zp) in Z1 by (try discriminate; exact Z0). injection X1 as <-. injection Y1 as <-. injection Z1 as <-.
  rewrite <- ML in K. apply halving in K. set (m := current_modes mc v c1) in *.
  set (x := or_else (assoc "X" (v_values v)) xp) in *. set (y := or_else (assoc "Y" (v_values v)) yp) in *. set (z := or_else (assoc "Z" (v_values v)) zp) in *.
  assert (N : about (line3_to (halved m xp) yp zp (halved m x) y z) l).
  { destruct (halved_moderate m xp k MX0 K) as (A1 & A2 & A3). destruct (halved_moderate m x k MX K) as (B1 & B2 & B3).
    destruct (moderate_bound _ MY0). destruct (moderate_bound _ MY). destruct (moderate_bound _ MZ0). destruct (moderate_bound _ MZ).
    pose proof (line3_near _ _ _ _ _ _ (rounded_sub _ _ A1 B1 A3 B3) (rounded_sub yp y ltac:(assumption) ltac:(assumption) ltac:(assumption) ltac:(assumption))
                 (rounded_sub zp z ltac:(assumption) ltac:(assumption) ltac:(assumption) ltac:(assumption))) as N.
    unfold l, way, about. change (amount x) with (fR x). unfold near_length in N. 
    replace (sqrt _) with (sqrt ((fR (halved m xp) - fR (halved m x)) * (fR (halved m xp) - fR (halved m x)) + (fR yp - fR y) * (fR yp - fR y) + (fR zp - fR z) * (fR zp - fR z)))%R; [exact N|].
    f_equal. rewrite A2, B2. unfold amount. fold (fR xp) (fR yp) (fR zp) (fR y) (fR z). destruct K as [[-> _]|[-> _]]; field. }
  rewrite MG in W. rewrite <- M2 in W. injection MV as MV1 MV2. unfold moved in W. destruct (g =? 0); injection W as W1 W2; unfold cut, rapid; rewrite W1, W2; split; assumption.
Qed.

Theorem straight_incremental_way inch line b c mv c' mv' g pl k ox oy oz : b <> [] -> no_tool b -> plain_codes b -> motion_code b c g -> (g = 0 \/ g = 1) ->
  in_force (code_of programmings) b (c_prog c) 91 -> in_force (code_of planes) b (c_plane c) pl -> share mc pl k ->
  evaluate tan_ log cabs stale mc inch line b c mv = (c', mv', None) ->
  block_value "X" b ox -> block_value "Y" b oy -> block_value "Z" b oz ->
  let x := or_else ox dzero in let y := or_else oy dzero in let z := or_else oz dzero in
  moderate x -> moderate y -> moderate z ->
  let l := way (amount x / k) (amount y) (amount z) in
  if g =? 0 then about (rapid c') l /\ cut c' = dzero else about (cut c') l /\ rapid c' = dzero.
Proof.
  intros NE NT PL MC G P L K E BX BY BZ x y z MX MY MZ l.
  destruct (straight_block inch line b c mv c' mv' g 91 pl NE NT PL MC G P L E)
    as (v & c1 & c2 & F & TE & TB & MG & MP & ML & CP & MV & S & M2 & PP).
  pose proof (straight_incremental mc v _ c1 c2 MP ltac:(rewrite MG; exact G) TE TB S) as W. cbv zeta in W.
  rewrite (block_value_one "X" b _ _ (found_value mc "X" b v eq_refl F) BX) in W.
  rewrite (block_value_one "Y" b _ _ (found_value mc "Y" b v eq_refl F) BY) in W.
  rewrite (block_value_one "Z" b _ _ (found_value mc "Z" b v eq_refl F) BZ) in W.
  rewrite <- ML in K. apply halving in K. set (m := current_modes mc v c1) in *. fold x y z in W.
  assert (N : about (line3 (halved m x) y z) l).
  { destruct (halved_moderate m x k MX K) as (B1 & B2 & B3). destruct (moderate_bound _ MY) as [FY LY]. destruct (moderate_bound _ MZ) as [FZ LZ].
    pose proof (line3_near _ _ _ _ _ _ (rounded_self _ B1 B3) (rounded_self _ FY LY) (rounded_self _ FZ LZ)) as N.
    rewrite B2 in N. exact N. }
  rewrite MG in W. rewrite <- M2 in W. injection MV as MV1 MV2. unfold moved in W. destruct (g =? 0); injection W as W1 W2; unfold cut, rapid; rewrite W1, W2; split; assumption.
Qed.
End Blocks.
