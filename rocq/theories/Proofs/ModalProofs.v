(** Modal words hold until they are replaced. *)
From Verif Require Import Model.Base Model.Attr Model.Double Model.Macro Model.Verifiers Model.Splitter Model.PathGeom Model.PathCalc
  Spec.DoubleSpec Spec.SplitSpec Spec.PathSpec Spec.MotionSpec Spec.ModalSpec Proofs.Tactics Proofs.PathFrame Proofs.PathVisit Proofs.PathTotals
  Proofs.PathReset Proofs.MotionVisit Proofs.MotionProofs Proofs.MotionBlocks.

Open Scope string_scope.
Open Scope list_scope.
Open Scope Z_scope.

Section Modal.
Variables tan_ log cabs : dbl -> dbl.
Variable stale : Z.
Variable mc : machine.
Hypothesis axes : proper_axes mc.

Definition held (c : calc) := (c_f c, c_s c, c_plane c, c_return c, c_prog c, c_css c, c_feed c).
Definition held_g (c : calc) := (held c, c_g c).

Lemma tool_change_holds v t : keeps held_g (tool_change mc v t).
Proof.
  unfold tool_change, exchange_times, add_time. keeps.
  - apply keeps_upd. intros c0. destruct (String.eqb (c_tool c0) ""); reflexivity.
  - apply keeps_upd. intros c0. apply copy_books. reflexivity.
Qed.

Definition before_start (v : found) : M unit :=
  service_times mc v ;;; match found_tool v with Some t => tool_change mc v t | None => ret tt end ;;; dwell v.

Lemma opening_split v c : opening mc v c = mbind (before_start v) (fun _ => start_modes mc v) c.
Proof.
  unfold opening, before_start, mbind. destruct (service_times mc v c) as [c1 [a| |e]]; [|reflexivity..].
  destruct (match found_tool v with Some t => tool_change mc v t | None => ret tt end c1) as [c2 [a2| |e]]; reflexivity.
Qed.

Lemma before_start_holds v : keeps held_g (before_start v).
Proof.
  apply keeps_bind; [unfold service_times, exchange_times, add_time; keeps|intros _].
  apply keeps_bind; [destruct (found_tool v); [apply tool_change_holds|apply keeps_ret]|intros _].
  unfold dwell. keeps.
Qed.

Lemma tool_change_stays v t : tool_taken mc v = true -> stays (tool_change mc v t).
Proof. intro T. unfold tool_change, exchange_times, add_time, upd_time. rewrite T. stays. Qed.

Lemma before_start_stays v : found_tool v = None \/ tool_taken mc v = true -> stays (before_start v).
Proof.
  intros T. unfold before_start. apply stays_bind; [unfold service_times, exchange_times, add_time, upd_time; stays|intros _].
  apply stays_bind; [|intros _; unfold dwell, upd_time; stays].
  destruct T as [-> |T]; [apply stays_ret|]. destruct (found_tool v); [now apply tool_change_stays|apply stays_ret].
Qed.

Lemma opening_holds v c c1 r : opening mc v c = (c1, r) ->
  (r = Go tt /\ held c1 = held c /\ (c_g c1 = c_g c \/ c_g c1 = 0)) \/ (exists e, r = Throw e) \/
  r = Return /\ (~ (found_tool v = None \/ tool_taken mc v = true) \/ c_g c = -1 /\ v_g v = None).
Proof.
  rewrite opening_split. intros E. unfold mbind in E. pose proof (before_start_holds v c) as K.
  destruct (before_start v c) as [s [[]| |e]] eqn:B; cbn [fst] in K.
  - injection K as K1 K2 K3 K4 K5 K6 K7 K8.
    assert (K : held s = held c) by (unfold held; congruence).
    unfold start_modes in E. unfold mbind, upd, get, when, ret, stop in E.
    destruct (to_exchange mc v || to_base v) eqn:X.
    + destruct (c_auto _ && _) in E; [injection E as <- <-; left; split; [reflexivity|split; [exact K|now right]]|].
      rewrite <- negb_orb, X in E. cbn [negb andb] in E. injection E as <- <-. left; split; [reflexivity|split; [exact K|now right]].
    + destruct (c_auto _ && _) in E; [injection E as <- <-; left; split; [reflexivity|split; [exact K|now right]]|].
      rewrite <- negb_orb, X in E. cbn [negb andb] in E.
      destruct ((c_g s =? -1) && negb (is_some (v_g v))) eqn:Q.
      * injection E as <- <-. right. right. split; [reflexivity|right]. apply andb_prop in Q as [Q1 Q2]. apply Z.eqb_eq in Q1.
        split; [congruence|]. destruct (v_g v); [discriminate|reflexivity].
      * injection E as <- <-. left; split; [reflexivity|split; [exact K|left; congruence]].
  - injection E as <- <-. right. right. split; [reflexivity|left]. intro H. exact (before_start_stays v H c s B).
  - injection E as <- <-. right. left. now exists e.
Qed.

(** When a motion ends the block. *)
Lemma motion_ends v m c c' : motion tan_ log cabs mc v m c = (c', Return) ->
  ~ In (m_g m) motions \/ ~ In (m_g m) [0; 1; 80] /\ v_g v = None /\ List.length (v_values v) = O.
Proof.
  intros E. unfold motion in E.
  destruct ((m_g m =? 0) || (m_g m =? 1)) eqn:G0.
  { exfalso. revert E. apply (stays_bind (straight mc v m)); [apply straight_stays|intros; stays]. }
  apply orb_false_elim in G0 as [G0 G1]. apply Z.eqb_neq in G0, G1.
  destruct (m_g m =? 80) eqn:G80.
  { apply Z.eqb_eq in G80. rewrite G80 in E. discriminate E. }
  apply Z.eqb_neq in G80.
  assert (N : ~ In (m_g m) [0; 1; 80]) by (cbn; intros [H|[H|[H|[]]]]; congruence).
  assert (Q : negb (is_some (v_g v)) && Nat.eqb (List.length (v_values v)) 0 = true -> v_g v = None /\ List.length (v_values v) = O).
  { intro H. apply andb_prop in H as [H1 H2]. apply Nat.eqb_eq in H2. split; [|exact H2]. destruct (v_g v); [discriminate|reflexivity]. }
  destruct ((m_g m =? 2) || (m_g m =? 3)) eqn:G2.
  { right. split; [exact N|]. apply Q. unfold mbind at 1, circular in E. destruct (negb (is_some (v_g v)) && _); [reflexivity|]. exfalso.
    match type of E with context [match ?t c with _ => _ end] => assert (S : stays t) end.
    { unfold no_cycle, helix_block, helix_incremental, helix_absolute, by_centre_or_radius, arc. stays. }
    match type of E with context [match ?t c with _ => _ end] => destruct (t c) as [c1 [a| |e]] eqn:P; [discriminate|exact (S _ _ P)|discriminate] end. }
  destruct (is_drill_cycle (m_g m) || is_drill_cycle_qparam (m_g m)) eqn:D.
  { right. split; [exact N|]. apply Q. unfold mbind at 1, drilling in E. destruct (negb (is_some (v_g v)) && _); [reflexivity|]. exfalso.
    match type of E with context [match ?t c with _ => _ end] => assert (S : stays t) end.
    { unfold cycle_distance, set_both. stays; apply holes_stay. }
    match type of E with context [match ?t c with _ => _ end] => destruct (t c) as [c1 [a| |e]] eqn:P; [discriminate|exact (S _ _ P)|discriminate] end. }
  left. intro I. cbn in I. decompose [or] I; try contradiction;
    match goal with H : _ = m_g m |- _ => rewrite <- H in *; congruence || discriminate end.
Qed.

Lemma said_found {A} (says : decimal -> A -> Prop) b before o : last_said says b o -> in_force says b before (or_else o before).
Proof. destruct o as [a|]; intro L; [now left|right; split; [exact L|reflexivity]]. Qed.

(** The block reaches its end. *)
Lemma reaches_end inch line b c mv c' mv' : b <> [] -> carried_out mc b c ->
  evaluate tan_ log cabs stale mc inch line b c mv = (c', mv', None) ->
  exists v c1 c2 g, foldM (visit_attr mc) found_init b = Ok v /\ held c1 = held c /\
    opening mc v (no_motion c) = (c1, Go tt) /\ motion tan_ log cabs mc v (current_modes mc v c1) c1 = (c2, Go g) /\
    held c' = held (set_modes (m_f (current_modes mc v c1)) (m_s (current_modes mc v c1)) g (m_plane (current_modes mc v c1))
      (m_return (current_modes mc v c1)) (m_prog (current_modes mc v c1)) (m_css (current_modes mc v c1)) (m_feed (current_modes mc v c1)) c2) /\
    c_g c' = g.
Proof.
  intros NE [H HT] E. unfold evaluate in E. destruct b as [|a b]; [contradiction|]. set (bb := a :: b) in *.
  destruct (foldM (visit_attr mc) found_init bb) as [v|] eqn:F; [|discriminate].
  destruct (evaluate_found tan_ log cabs stale mc inch v (no_motion c)) as [ce r] eqn:EF. injection E as <- _ R.
  pose proof (found_motion mc axes bb v F) as FM.
  assert (T : found_tool v = None \/ tool_taken mc v = true).
  { destruct HT as [HT|[HT|HT]]; [left; exact (no_tool_found mc axes bb v F HT)|right; unfold tool_taken; now rewrite HT|].
    right. unfold tool_taken. apply (found_m6 mc axes bb v F) in HT. rewrite HT. apply orb_true_r. }
  assert (NG : v_g v <> None \/ In (c_g c) [0; 1; 80] \/ In (c_g c) motions /\ List.length (v_values v) <> O).
  { destruct H as [[g H]|[H|[H C]]]; [|now right; left|].
    - left. rewrite (said_twice _ _ _ _ (code_of_one motions) FM H). discriminate.
    - right. right. split; [exact H|]. exact (values_found mc bb v F C). }
  assert (MM : forall g, v_g v = Some g -> In g motions).
  { intros g Q. rewrite Q in FM. destruct FM as (l1 & d & l2 & _ & (_ & _ & I) & _). exact I. }
  apply evaluate_cases in EF as [[EO NGo]|(c1 & EO & EF)].
  { apply opening_holds in EO as [(-> & _)|[[e ->]|[-> [N|[N1 N2]]]]]; [exfalso; apply (NGo tt eq_refl)|discriminate R|contradiction|].
    exfalso. destruct NG as [NG|[NG|[NG _]]]; [contradiction|cbn in NG; change (c_g (no_motion c)) with (c_g c) in N1; rewrite N1 in NG; intuition discriminate|].
    change (c_g (no_motion c)) with (c_g c) in N1. rewrite N1 in NG. cbn in NG. intuition discriminate. }
  pose proof (opening_holds _ _ _ _ EO) as [(_ & HE & HG)|[[e Q]|[Q _]]]; [|discriminate..].
  change (held (no_motion c)) with (held c) in HE. change (c_g (no_motion c)) with (c_g c) in HG.
  destruct EF as [(r1 & EM & [[-> ->]|(e & -> & ->)])|(c2 & g & EM & EF)].
  - exfalso. apply motion_ends in EM. unfold current_modes in EM. cbn [m_g] in EM.
    destruct (v_g v) as [g|] eqn:VG; cbn [or_else] in EM.
    + destruct EM as [EM|(_ & EM & _)]; [apply EM; now apply MM|discriminate].
    + destruct NG as [NG|NG]; [contradiction|].
      assert (IM : In (c_g c1) motions).
      { destruct HG as [-> | ->]; [|cbn; auto]. destruct NG as [NG|[NG _]]; [cbn in NG; decompose [or] NG; try contradiction; match goal with X : _ = c_g c |- _ => rewrite <- X end; cbn; tauto|exact NG]. }
      destruct EM as [EM|(EM & _ & EL)]; [contradiction|].
      destruct NG as [NG|[_ NG]]; [|contradiction]. apply EM. destruct HG as [-> | ->]; [exact NG|cbn; auto].
  - discriminate R.
  - exists v, c1, c2, g. split; [reflexivity|]. split; [exact HE|]. split; [exact EO|]. split; [exact EM|].
    apply finish_spec in EF as (c3 & Q & [[-> [e ->]]|[-> Q2]]); [discriminate R|].
    assert (K : forall T (f : calc -> T), (forall c p r, f (set_positions p r c) = f c) -> f ce = f c3).
    { intros T0 f P. rewrite Q2. destruct (to_exchange mc v); [|destruct (to_base v)]; apply copy_books; intros; apply P. }
    split; [rewrite (K _ held (fun _ _ _ => eq_refl)), Q; reflexivity|rewrite (K _ c_g (fun _ _ _ => eq_refl)), Q; reflexivity].
Qed.

Theorem modes_hold inch line b c mv c' mv' A says (f : calc -> A) : modal A says f -> b <> [] -> carried_out mc b c ->
  evaluate tan_ log cabs stale mc inch line b c mv = (c', mv', None) -> in_force says b (f c) (f c').
Proof.
  intros MD NE CO E. destruct (reaches_end inch line b c mv c' mv' NE CO E) as (v & c1 & c2 & g & F & HE & _ & _ & HC & _).
  unfold held, set_modes, current_modes in HE, HC. cbn [m_f m_s m_plane m_return m_prog m_css m_feed c_f c_s c_plane c_return c_prog c_css c_feed] in HE, HC.
  injection HE as E1 E2 E3 E4 E5 E6 E7. injection HC as H1 H2 H3 H4 H5 H6 H7. rewrite E1 in H1. rewrite E2 in H2. rewrite E3 in H3. rewrite E4 in H4.
  rewrite E5 in H5. rewrite E6 in H6. rewrite E7 in H7.
  destruct MD; [rewrite H1|rewrite H2|rewrite H3|rewrite H4|rewrite H5|rewrite H6|rewrite H7]; apply said_found.
  - exact (found_feed mc axes b v F).
  - exact (found_speed mc axes b v F).
  - exact (found_plane mc axes b v F).
  - exact (found_return mc axes b v F).
  - exact (found_programming mc axes b v F).
  - exact (found_speed_mode mc axes b v F).
  - exact (found_feed_mode mc axes b v F).
Qed.

(** Through a program. *)
Theorem holds_on inch c bs c' A says (f : calc -> A) : modal A says f -> runs tan_ log cabs stale mc inch c bs c' ->
  (forall b, In b bs -> last_said says b None) -> f c' = f c.
Proof.
  intros MD R. induction R as [|c b c1 bs c2 line mv mv' NE CO E R IH]; intros N; [reflexivity|].
  rewrite IH by (intros; apply N; now right). pose proof (modes_hold inch line b c mv c1 mv' A says f MD NE CO E) as [(l1 & d & l2 & EB & S & _)|[_ H]]; [|exact H].
  exfalso. refine (N b (or_introl eq_refl) d _ _ S). rewrite EB. apply in_elt.
Qed.

Lemma modal_one A says f : modal A says f -> forall d a a', says d a -> says d a' -> a = a'.
Proof. intros []; (apply number_of_one || apply code_of_one). Qed.

Theorem holds_until inch line c b mv c1 mv' bs c2 A says (f : calc -> A) a : modal A says f -> b <> [] -> carried_out mc b c ->
  evaluate tan_ log cabs stale mc inch line b c mv = (c1, mv', None) -> last_said says b (Some a) ->
  runs tan_ log cabs stale mc inch c1 bs c2 -> (forall b', In b' bs -> last_said says b' None) -> f c2 = a.
Proof.
  intros MD NE CO E L R N. rewrite (holds_on inch c1 bs c2 A says f MD R N).
  destruct (modes_hold inch line b c mv c1 mv' A says f MD NE CO E) as [L'|[L' _]].
  - pose proof (said_twice says b _ _ (modal_one A says f MD) L' L) as Q. now injection Q.
  - pose proof (said_twice says b _ _ (modal_one A says f MD) L' L). discriminate.
Qed.

(** The motion code. *)
Lemma motion_leaves v m c c2 g : motion tan_ log cabs mc v m c = (c2, Go g) -> g = left_by mc (m_g m).
Proof.
  intros E. unfold motion in E. unfold left_by.
  assert (K : forall A (t : M A) g0, mbind t (fun _ => ret g0) c = (c2, Go g) -> g = g0).
  { intros A t g0 H. unfold mbind, ret in H. destruct (t c) as [c1 [a| |e]]; [now injection H|discriminate..]. }
  destruct ((m_g m =? 0) || (m_g m =? 1)) eqn:G0.
  { apply K in E. rewrite E. destruct (Z.eqb_spec (m_g m) 80) as [Q|Q]; [rewrite Q in G0; discriminate|reflexivity]. }
  destruct ((m_g m =? 2) || (m_g m =? 3)) eqn:G2.
  { apply K in E. rewrite E. destruct (Z.eqb_spec (m_g m) 80) as [Q|Q]; [rewrite Q in G2; discriminate|reflexivity]. }
  destruct (Z.eqb_spec (m_g m) 80) as [Q|Q]; [unfold cancel in E; exact (K _ _ _ E)|].
  destruct (is_drill_cycle (m_g m) || is_drill_cycle_qparam (m_g m)); [exact (K _ _ _ E)|discriminate].
Qed.

Theorem motion_said inch line b c mv c' mv' g : b <> [] -> carried_out mc b c -> last_said (code_of motions) b (Some g) ->
  evaluate tan_ log cabs stale mc inch line b c mv = (c', mv', None) -> c_g c' = left_by mc g.
Proof.
  intros NE CO L E. destruct (reaches_end inch line b c mv c' mv' NE CO E) as (v & c1 & c2 & g' & F & _ & _ & EM & _ & ->).
  pose proof (found_motion mc axes b v F) as FM. rewrite (motion_leaves _ _ _ _ _ EM). cbn [current_modes m_g].
  now rewrite (said_twice _ _ _ _ (code_of_one motions) FM L).
Qed.

(** Without a motion code in the block, also where the block is not carried out. *)
Theorem motion_kept inch line b c mv c' mv' : b <> [] -> no_tool b -> plain_codes b -> c_auto c = false -> 0 <= c_g c ->
  last_said (code_of motions) b None ->
  evaluate tan_ log cabs stale mc inch line b c mv = (c', mv', None) -> c_g c' = c_g c \/ c_g c' = left_by mc (c_g c).
Proof.
  intros NE NT PL AU G L E.
  assert (MC : motion_code b c (c_g c)) by (right; split; [exact L|rewrite AU; reflexivity]).
  destruct (block_motion tan_ log cabs stale mc axes inch line b c mv c' mv' (c_g c) NE NT PL MC G E)
    as (v & c1 & m & F & O & TE & TB & -> & MG & T & MT & K).
  assert (G1 : c_g c1 = c_g c).
  { change (c_g (timeless c1) = c_g c). rewrite T. unfold approached. change (c_auto (no_motion c)) with (c_auto c). rewrite AU. reflexivity. }
  destruct K as [(c2 & K & _)|(c2 & g' & c3 & K & Q3 & Q)].
  - left. apply motion_return in K. now subst c'.
  - right. apply motion_leaves in K. rewrite MG in K. subst g'. rewrite Q, (copy_books c_g) by reflexivity. rewrite Q3. reflexivity.
Qed.
End Modal.
