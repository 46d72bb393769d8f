(** What the steps of the path calculation leave alone. *)
From Verif Require Import Model.Base Model.Attr Model.Double Model.Macro Model.Verifiers Model.Splitter Model.PathGeom
  Model.PathCalc Proofs.Tactics.

Section Keeps.
Context {T : Type} (f : calc -> T).

Definition keeps {A} (m : M A) : Prop := forall c, f (fst (m c)) = f c.

Lemma keeps_ret {A} (a : A) : keeps (ret a). Proof. intros c; reflexivity. Qed.
Lemma keeps_stop {A} : keeps (@stop A). Proof. intros c; reflexivity. Qed.
Lemma keeps_throw {A} m : keeps (@throw A m). Proof. intros c; reflexivity. Qed.
Lemma keeps_undefined {A} w : keeps (@undefined A w). Proof. intros c; reflexivity. Qed.
Lemma keeps_get {A} (g : calc -> A) : keeps (get g). Proof. intros c; reflexivity. Qed.
Lemma keeps_lift {A} (r : res A) : keeps (lift r). Proof. intros c; reflexivity. Qed.
Lemma keeps_need {A} (o : option A) m : keeps (need o m). Proof. intros c; destruct o; reflexivity. Qed.
Lemma keeps_deref {A} (o : option A) : keeps (deref o). Proof. intros c; destruct o; reflexivity. Qed.
Lemma keeps_bind {A B} (m : M A) (k : A -> M B) : keeps m -> (forall a, keeps (k a)) -> keeps (mbind m k).
Proof.
  intros Hm Hk c. unfold mbind. specialize (Hm c). destruct (m c) as [c' [a| |e]]; cbn [fst] in *; [|assumption|assumption].
  rewrite (Hk a c'); assumption.
Qed.
Lemma keeps_when b m : keeps m -> keeps (when b m).
Proof. intros H; destruct b; [exact H|apply keeps_ret]. Qed.
Lemma keeps_upd g : (forall c, f (g c) = f c) -> keeps (upd g). Proof. intros H c; apply H. Qed.
Lemma keeps_path g : (forall c, f (set_path (g (c_path c)) c) = f c) -> keeps (upd_path g). Proof. intros H c; apply H. Qed.
Lemma keeps_time g : (forall c, f (set_time (g (c_time c)) c) = f c) -> keeps (upd_time g). Proof. intros H c; apply H. Qed.
End Keeps.

Ltac keeps :=
  repeat match goal with
    | |- keeps _ (ret _) => apply keeps_ret
    | |- keeps _ stop => apply keeps_stop
    | |- keeps _ (throw _) => apply keeps_throw
    | |- keeps _ (undefined _) => apply keeps_undefined
    | |- keeps _ (get _) => apply keeps_get
    | |- keeps _ (lift _) => apply keeps_lift
    | |- keeps _ (need _ _) => apply keeps_need
    | |- keeps _ (deref _) => apply keeps_deref
    | |- keeps _ (upd _) => apply keeps_upd; intros; reflexivity
    | |- keeps _ (upd_path _) => apply keeps_path; intros; reflexivity
    | |- keeps _ (upd_time _) => apply keeps_time; intros; reflexivity
    | |- keeps _ (when _ _) => apply keeps_when
    | |- keeps _ (mbind _ _) => apply keeps_bind; [|intros]
    | |- keeps _ (match ?x with _ => _ end) => destruct x
    end.

(** Everything but the path of the block, the cycle and the helix. *)
Definition books (c : calc) :=
  (p_total (c_path c), p_tool_total (c_path c), p_tool_id (c_path c), c_time c, (c_prev c, c_range c), (c_tpath c, c_ttime c),
   (c_f c, c_s c, c_g c, c_plane c, c_return c, c_prog c, c_css c, c_feed c), c_tool c, c_auto c).

Definition moved (c : calc) := (p_work (c_path c), p_fast (c_path c)).

Section Motion.
Variables atan log cabs : dbl -> dbl.
Variable stale : Z.
Variable mc : machine.

Lemma set_motion_books b x : keeps books (set_motion b x).
Proof. unfold set_motion. apply keeps_path; intros; destruct b; reflexivity. Qed.

Lemma target_keeps {T} (f : calc -> T) v w p : keeps f (target mc v w p).
Proof. unfold target. keeps. Qed.

Lemma straight_books v m : keeps books (straight mc v m).
Proof. unfold straight, no_cycle. keeps; try apply set_motion_books; apply target_keeps. Qed.

Lemma centre_keeps {T} (f : calc -> T) a g h : keeps f (by_centre_or_radius a g h).
Proof. unfold by_centre_or_radius. keeps. Qed.

Lemma helix_books m first a : keeps books (helix_block m first a).
Proof.
  unfold helix_block. destruct (plane_params (m_plane m)) as [[p1 p2] p3].
  unfold helix_incremental, helix_absolute. keeps; apply centre_keeps.
Qed.

Lemma arc_books m a : keeps books (arc atan cabs m a).
Proof. unfold arc. destruct (plane_params (m_plane m)) as [[p1 p2] p3]. keeps. Qed.

Lemma circular_books v m : keeps books (circular atan log cabs mc v m).
Proof.
  unfold circular, no_cycle. destruct (plane_params (m_plane m)) as [[p1 p2] p3].
  destruct (plane_axes (m_plane m)) as [[a1 a2] a3]. keeps; try apply helix_books; apply arc_books.
Qed.

Lemma holes_books n x y : keeps books (holes n x y).
Proof. induction n as [|n IH]; cbn [holes]; keeps. apply IH. Qed.

Lemma distance_keeps {T} (f : calc -> T) v m a : keeps f (cycle_distance mc v m a).
Proof. unfold cycle_distance. keeps. Qed.

Lemma drilling_books v m : keeps books (drilling mc v m).
Proof.
  unfold drilling, set_both. destruct (plane_axes (m_plane m)) as [[a1 a2] a3].
  keeps; try apply distance_keeps; apply holes_books.
Qed.

Lemma motion_books v m : keeps books (motion atan log cabs mc v m).
Proof.
  unfold motion, cancel, no_cycle. keeps; [apply straight_books|apply circular_books|apply drilling_books].
Qed.

(** ** Failures before anything is reported *)

(** A failure that keeps the path of the block. *)
Definition proper (e : exn) : Prop :=
  (forall w, e <> EUB w) /\ (forall l, e <> EPathCalc ("ValueNotSetForEitherEither"%string :: l)).

Definition gave_up {A} (r : ctl A) : Prop := match r with Go _ => False | Return => True | Throw e => proper e end.

Definition silent {A} (m : M A) : Prop := forall c c' r, m c = (c', r) -> gave_up r -> moved c' = moved c.

Lemma silent_keeps {A} (m : M A) : keeps moved m -> silent m.
Proof. intros H c c' e E _. specialize (H c). rewrite E in H; exact H. Qed.

Lemma silent_bind {A B} (m : M A) (k : A -> M B) : keeps moved m -> (forall a, silent (k a)) -> silent (mbind m k).
Proof.
  intros Hm Hk c c' r E P. unfold mbind in E. specialize (Hm c). destruct (m c) as [c1 [a| |e1]]; cbn [fst] in Hm.
  - rewrite (Hk a c1 c' r E P); exact Hm.
  - inv E; exact Hm.
  - inv E; exact Hm.
Qed.

(** Always goes on, or is undefined. *)
Definition safe {A} (m : M A) : Prop := forall c c' r, m c = (c', r) -> ~ gave_up r.

Lemma safe_silent {A} (m : M A) : safe m -> silent m.
Proof. intros H c c' e E P. destruct (H c c' e E P). Qed.

Lemma silent_last {A B} (m : M A) (k : A -> M B) : silent m -> (forall a, safe (k a)) -> silent (mbind m k).
Proof.
  intros Hm Hk c c' r E P. unfold mbind in E. specialize (Hm c). destruct (m c) as [c1 [a| |e1]].
  - destruct (Hk a c1 c' r E P).
  - inv E; eapply Hm; [reflexivity|exact I].
  - inv E; eapply Hm; [reflexivity|exact P].
Qed.

Lemma safe_ret {A} (a : A) : safe (ret a). Proof. intros c c' e E H; inv E; exact H. Qed.
Lemma safe_get {A} (g : calc -> A) : safe (get g). Proof. intros c c' e E H; inv E; exact H. Qed.
Lemma safe_upd g : safe (upd g). Proof. intros c c' e E H; inv E; exact H. Qed.
Lemma safe_path g : safe (upd_path g). Proof. intros c c' e E H; inv E; exact H. Qed.
Lemma safe_undefined {A} w : safe (@undefined A w). Proof. intros c c' e E H; inv E. destruct H as [H _]. exact (H w eq_refl). Qed.
Lemma safe_unset {A} l : safe (@throw A ("ValueNotSetForEitherEither"%string :: l)).
Proof. intros c c' e E H; inv E. destruct H as [_ H]. exact (H l eq_refl). Qed.
Lemma safe_deref {A} (o : option A) : safe (deref o).
Proof. destruct o; [apply safe_ret|apply safe_undefined]. Qed.
Lemma safe_int k : safe (lift (d_to_int k)).
Proof.
  intros c c' e E H. unfold lift, d_to_int in E. inv E.
  destruct (d_trunc k) as [z|]; [|destruct H as [H _]; exact (H _ eq_refl)].
  destruct (_ && _); [exact H|destruct H as [H _]; exact (H _ eq_refl)].
Qed.
Lemma safe_bind {A B} (m : M A) (k : A -> M B) : safe m -> (forall a, safe (k a)) -> safe (mbind m k).
Proof.
  intros Hm Hk c c' r E. unfold mbind in E. specialize (Hm c). destruct (m c) as [c1 [a| |e1]].
  - exact (Hk a c1 c' r E).
  - inv E. exact (Hm c' Return eq_refl).
  - inv E. exact (Hm c' (Throw e1) eq_refl).
Qed.
Lemma safe_when b m : safe m -> safe (when b m).
Proof. intros H; destruct b; [exact H|apply safe_ret]. Qed.

Ltac safe :=
  repeat match goal with
    | |- safe (ret _) => apply safe_ret
    | |- safe (undefined _) => apply safe_undefined
    | |- safe (get _) => apply safe_get
    | |- safe (lift (d_to_int _)) => apply safe_int
    | |- safe (deref _) => apply safe_deref
    | |- safe (upd _) => apply safe_upd
    | |- safe (upd_path _) => apply safe_path
    | |- safe (when _ _) => apply safe_when
    | |- safe (mbind _ _) => apply safe_bind; [|intros]
    | |- safe (match ?x with _ => _ end) => destruct x
    end.

Lemma silent_stop {A} : silent (@stop A). Proof. apply silent_keeps, keeps_stop. Qed.

Lemma no_cycle_moved : keeps moved no_cycle.
Proof. unfold no_cycle. keeps. Qed.

Lemma straight_silent v m : silent (straight mc v m).
Proof.
  unfold straight. apply silent_bind; [apply keeps_when, no_cycle_moved|intros _].
  apply silent_bind; [keeps|intros prev]. destruct (_ || _).
  - repeat (apply silent_bind; [first [apply keeps_need|apply target_keeps]|intros]). apply safe_silent, safe_path.
  - repeat (apply silent_bind; [keeps|intros]). apply safe_silent, safe_path.
Qed.

Lemma centre_safe a g h : safe (by_centre_or_radius a g h).
Proof. unfold by_centre_or_radius. safe. Qed.

Lemma helix_block_safe m first a : safe (helix_block m first a).
Proof.
  unfold helix_block. destruct (plane_params (m_plane m)) as [[p1 p2] p3].
  apply safe_bind; [safe|intros prev].
  destruct (_ && _); [apply safe_unset|]. destruct (_ && _); [apply safe_unset|].
  unfold helix_incremental, helix_absolute. safe; apply centre_safe.
Qed.

(** When an arc is still to come the helix has not reported a path, and the
    parameters given stay given. *)
Lemma helix_then_arc m first a c c' a' : helix_block m first a c = (c', Go (true, a')) ->
  moved c' = moved c /\ (is_some (a_i a) = true -> is_some (a_i a') = true) /\ (is_some (a_j a) = true -> is_some (a_j a') = true).
Proof.
  unfold helix_block. destruct (plane_params (m_plane m)) as [[p1 p2] p3].
  unfold mbind at 1, get at 1.
  assert (O : forall (o p : option dbl), is_some o = true -> is_some (or_opt o p) = true) by (intros [x|] p H; [reflexivity|discriminate]).
  destruct (_ && _); [discriminate|]. destruct (_ && _); [discriminate|].
  assert (I : forall (P : calc -> Prop) (b : M bool) f, (forall c1 x, b c = (c1, Go x) -> x = true -> P c1) ->
              mbind b (fun arc => ret (arc, f)) c = (c', Go (true, a')) -> P c' /\ a' = f).
  { intros P b f Hb E. unfold mbind in E. destruct (b c) as [c1 [x| |e]] eqn:Eb; [|discriminate|discriminate].
    unfold ret in E. injection E as -> -> ->. split; [apply (Hb c' true eq_refl eq_refl)|reflexivity]. }
  destruct (m_prog m =? 91); intros E;
    (match type of E with mbind ?b _ _ = _ =>
       assert (Hb : forall c1 x, b c = (c1, Go x) -> x = true -> moved c1 = moved c) end;
     [clear E; intros c1 x E -> |
      destruct (I (fun c1 => moved c1 = moved c) _ _ Hb E) as [E1 ->]; split; [exact E1|]; cbn [a_i a_j]; split; apply O]).
  - unfold helix_incremental, mbind, get, deref, by_centre_or_radius, upd_path, upd, ret, undefined in E.
    repeat match type of E with context [match ?x with _ => _ end] => destruct x eqn:?; try discriminate end;
      repeat match goal with H : (_, _) = (_, _) |- _ => injection H as ?; subst end; try discriminate; try reflexivity.
  - unfold helix_absolute, mbind, get, deref, by_centre_or_radius, upd_path, upd, ret, undefined in E.
    cbn [a_z a_zp] in E. destruct (a_z a), (a_zp a);
    repeat match type of E with context [match ?x with _ => _ end] => destruct x eqn:?; try discriminate end;
      repeat match goal with H : (_, _) = (_, _) |- _ => injection H as ?; subst end; try discriminate; try reflexivity.
Qed.

Lemma arc_silent m a : silent (arc atan cabs m a).
Proof.
  unfold arc. destruct (plane_params (m_plane m)) as [[p1 p2] p3].
  apply silent_bind; [keeps|intros prev]. destruct (_ && _); [apply silent_keeps; keeps|].
  apply safe_silent. safe.
Qed.

Lemma arc_safe m a : is_some (a_i a) = true -> is_some (a_j a) = true -> safe (arc atan cabs m a).
Proof.
  intros I J. unfold arc. destruct (plane_params (m_plane m)) as [[p1 p2] p3]. unfold both. rewrite I, J.
  cbn [andb negb]. rewrite andb_false_r. rewrite I, J. cbn [andb negb]. rewrite andb_false_r. safe.
Qed.
(** The second half of an arc block: 944-1099. *)
Definition helix_or_arc (m : modes) (do_arc first : bool) (a : arc_block) : M unit :=
  h <~ get c_helix ;;
  s <~ match h with HNone => ret (do_arc, a) | _ => helix_block m first a end ;;
  h <~ get c_helix ;;
  match h with HNone => if fst s then arc atan cabs m (snd s) else ret tt | _ => ret tt end.

Lemma helix_or_arc_silent m do_arc first a : silent (helix_or_arc m do_arc first a).
Proof.
  unfold helix_or_arc. apply silent_bind; [keeps|intros h].
  assert (K : forall s : bool * arc_block, silent (h0 <~ get c_helix ;; match h0 with HNone => if fst s then arc atan cabs m (snd s) else ret tt | _ => ret tt end)).
  { intros s. apply silent_bind; [keeps|intros h0]. destruct h0; try (apply silent_keeps, keeps_ret).
    destruct (fst s); [apply arc_silent|apply silent_keeps, keeps_ret]. }
  assert (H : silent (s <~ helix_block m first a ;; h0 <~ get c_helix ;;
              match h0 with HNone => if fst s then arc atan cabs m (snd s) else ret tt | _ => ret tt end)).
  { intros c c' e E P. unfold mbind at 1 in E. destruct (helix_block m first a c) as [c1 [[b a']| |e1]] eqn:EH.
    - destruct b.
      + apply helix_then_arc in EH as [EH _]. rewrite <- EH. exact (K (true, a') c1 c' e E P).
      + exfalso. unfold mbind, get in E. cbn [fst] in E. destruct (c_helix c1); injection E as <- <-; exact P.
    - destruct (helix_block_safe _ _ _ _ _ _ EH I).
    - injection E as <- <-. destruct (helix_block_safe _ _ _ _ _ _ EH P). }
  destruct h; [|exact H|exact H]. apply silent_bind; [keeps|apply K].
Qed.

Lemma helix_or_arc_safe m first a : is_some (a_i a) = true -> is_some (a_j a) = true -> safe (helix_or_arc m false first a).
Proof.
  intros I J. unfold helix_or_arc. apply safe_bind; [safe|intros h].
  assert (K : forall s : bool * arc_block, (fst s = true -> is_some (a_i (snd s)) = true /\ is_some (a_j (snd s)) = true) ->
              safe (h0 <~ get c_helix ;; match h0 with HNone => if fst s then arc atan cabs m (snd s) else ret tt | _ => ret tt end)).
  { intros s Hs. apply safe_bind; [safe|intros h0]. destruct h0; safe. destruct (Hs eq_refl). apply arc_safe; assumption. }
  assert (H : safe (s <~ helix_block m first a ;; h0 <~ get c_helix ;;
              match h0 with HNone => if fst s then arc atan cabs m (snd s) else ret tt | _ => ret tt end)).
  { intros c c' e E P. unfold mbind at 1 in E. destruct (helix_block m first a c) as [c1 [[b a']| |e1]] eqn:EH.
    - refine (K (b, a') _ c1 c' e E P). cbn [fst snd]. intros ->. apply helix_then_arc in EH as [_ [HI HJ]]. auto.
    - destruct (helix_block_safe _ _ _ _ _ _ EH Logic.I).
    - injection E as <- <-. destruct (helix_block_safe _ _ _ _ _ _ EH P). }
  destruct h; [|exact H|exact H]. intros c c' e E. unfold mbind at 1, ret at 1 in E.
  refine (K (false, a) _ c c' e E). discriminate.
Qed.

Lemma circular_silent v m : silent (circular atan log cabs mc v m).
Proof.
  unfold circular. destruct (_ && _); [apply silent_stop|].
  apply silent_bind; [apply keeps_when, no_cycle_moved|intros _].
  destruct (plane_axes (m_plane m)) as [[a1 a2] a3]. destruct (plane_params (m_plane m)) as [[p1 p2] p3].
  apply silent_bind; [keeps|intros prev]. apply silent_bind; [keeps|intros xp]. apply silent_bind; [keeps|intros yp].
  cbv zeta. apply silent_bind; [keeps|intros h].
  set (K := fun s : bool * bool * arc_block => let '(do_arc, first, a) := s in helix_or_arc m do_arc first a).
  match goal with |- silent (mbind ?S _) => change (silent (mbind S K)); set (F := S) end.
  destruct (is_some (assoc "Q" (v_values v)) || is_some (assoc "L" (v_values v))) eqn:QL.
  - assert (S1 : silent F).
    { unfold F. apply silent_bind; [keeps|intros i]. apply silent_bind; [keeps|intros j].
      apply safe_silent. safe. }
    assert (S2 : forall c c1 s, F c = (c1, Go s) -> exists a, s = (false, false, a) /\ is_some (a_i a) = true /\ is_some (a_j a) = true).
    { intros c c1 s E. unfold F, mbind, need, ret, throw in E.
      repeat match type of E with context [match ?x with _ => _ end] => destruct x eqn:?; try discriminate end;
        injection E as <- <-; eexists; repeat split. }
    clearbody F. intros c c' e E P. unfold mbind in E. destruct (F c) as [c1 [s| |e1]] eqn:EF.
    + destruct (S2 _ _ _ EF) as [a [-> [I J]]]. cbn [K] in E. destruct (helix_or_arc_safe _ _ _ I J _ _ _ E P).
    + injection E as <- <-. exact (S1 _ _ _ EF Logic.I).
    + injection E as <- <-. exact (S1 _ _ _ EF P).
  - apply silent_bind.
    + unfold F. keeps.
    + intros [[da fi] a]. apply helix_or_arc_silent.
Qed.

Lemma holes_safe n x y : safe (holes n x y).
Proof. induction n as [|n IH]; cbn [holes]; safe. exact IH. Qed.

Lemma drilling_silent v m : silent (drilling mc v m).
Proof.
  unfold drilling. destruct (_ && _); [apply silent_stop|].
  destruct (plane_axes (m_plane m)) as [[a1 a2] a3]. cbv zeta.
  apply silent_bind; [keeps|intros n].
  apply silent_bind; [keeps; apply distance_keeps|intros _].
  apply silent_bind; [keeps|intros prev]. apply silent_bind; [keeps|intros xp]. apply silent_bind; [keeps|intros yp].
  apply safe_silent. unfold set_both. safe; apply holes_safe.
Qed.

Lemma motion_silent v m : silent (motion atan log cabs mc v m).
Proof.
  unfold motion, cancel. destruct (_ || _); [apply silent_last; [apply straight_silent|intros; safe]|].
  destruct (_ || _); [apply silent_last; [apply circular_silent|intros; safe]|].
  destruct (_ =? _); [apply silent_bind; [apply no_cycle_moved|intros; apply safe_silent; safe]|].
  destruct (_ || _); [apply silent_last; [apply drilling_silent|intros; safe]|apply silent_stop].
Qed.

End Motion.
