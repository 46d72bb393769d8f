(** Straight motions: what a block is reported to have travelled. *)
From Coq Require Import Reals Lra.
From Flocq Require Import Core BinarySingleNaN.
From Verif Require Import Model.Base Model.Attr Model.Double Model.Macro Model.Verifiers Model.Splitter Model.PathGeom Model.PathCalc
  Spec.DoubleSpec Spec.SplitSpec Spec.PathSpec Spec.MotionSpec Proofs.Tactics Proofs.PathFrame Proofs.PathVisit Proofs.PathTotals Proofs.PathRange
  Proofs.PathReset Proofs.FloatReal Proofs.MotionFloats Proofs.MotionVisit.

Open Scope string_scope.
Open Scope list_scope.
Open Scope Z_scope.

(** Everything but the times. *)
Definition timeless (c : calc) : calc := set_time time_zero c.

(** The coordinates after a block in absolute coordinates, or in incremental ones. *)
Lemma copied g prog vs w : NoDup (map fst vs) -> w <> "Q" -> w <> "L" ->
  (w = "Z" -> is_drill_cycle g || is_drill_cycle_qparam g = false) -> forall p r,
  assoc w (fst (fold_left (copy_value g prog []) vs (p, r))) =
  match assoc w vs with
  | Some x => Some (match assoc w r with
                    | Some (_, cur, _) => if (prog =? 91) && mem_str w ["X"; "Y"; "Z"] then dadd cur x else x
                    | None => x end)
  | None => assoc w p
  end.
Proof.
  intros ND Q L Z. induction vs as [|[k x] vs IH]; intros p r; [reflexivity|]. inversion ND as [|? ? NI ND']; subst. clear ND.
  assert (SK : forall k' x' p r, k' <> w -> exists p' r', copy_value g prog [] (p, r) (k', x') = (p', r') /\
             assoc w p' = assoc w p /\ assoc w r' = assoc w r).
  { intros k' x' p0 r0 K. unfold copy_value.
    destruct (String.eqb k' "Z" && (is_drill_cycle g || is_drill_cycle_qparam g)); [eauto|].
    destruct (String.eqb k' "Q" || String.eqb k' "L"); [eauto|].
    destruct (is_ignored [] k'); [eauto|].
    assert (W : String.eqb w k' = false) by (apply String.eqb_neq; congruence).
    destruct (assoc k' r0) as [[[mn cur] mx]|]; do 2 eexists; (split; [reflexivity|]); rewrite !assoc_mset, W; auto. }
  cbn [fold_left assoc]. destruct (String.eqb w k) eqn:WK.
  - apply String.eqb_eq in WK. subst k.
    assert (ST : forall l p r, ~ In w (map fst l) -> assoc w (fst (fold_left (copy_value g prog []) l (p, r))) = assoc w p).
    { induction l as [|[k' x'] l IHl]; intros p0 r0 N; [reflexivity|]. cbn [fold_left].
      destruct (SK k' x' p0 r0) as (p1 & r1 & -> & A & _); [intros ->; apply N; left; reflexivity|].
      rewrite IHl; [exact A|]. intro I. apply N. right. exact I. }
    destruct (copy_value g prog [] (p, r) (w, x)) as [p1 r1] eqn:CV. rewrite ST by exact NI. unfold copy_value in CV.
    assert (E1 : String.eqb w "Z" && (is_drill_cycle g || is_drill_cycle_qparam g) = false).
    { destruct (String.eqb_spec w "Z") as [->|]; [rewrite Z by reflexivity|]; reflexivity. }
    assert (E2 : String.eqb w "Q" || String.eqb w "L" = false).
    { apply orb_false_intro; now apply String.eqb_neq. }
    assert (E3 : is_ignored [] w = false).
    { unfold is_ignored. destruct (assoc w ignore_g_codes) as [l|]; [|reflexivity]. induction l as [|y l IHl]; [reflexivity|]. exact IHl. }
    rewrite E1, E2, E3 in CV. destruct (assoc w r) as [[[mn cur] mx]|]; injection CV as <- <-; rewrite assoc_mset, String.eqb_refl; reflexivity.
  - apply String.eqb_neq in WK. destruct (SK k x p r) as (p1 & r1 & -> & A & B); [congruence|]. rewrite (IH ND'), A, B. reflexivity.
Qed.

Section Straight.
Variables tan_ log cabs : dbl -> dbl.
Variable stale : Z.
Variable mc : machine.
Hypothesis axes : proper_axes mc.

(** Where a block without a tool gets to before its motion. *)
Definition approached (v : found) (c : calc) : calc :=
  if c_auto c && negb (Nat.eqb (List.length (v_values v)) 0) then set_g 0 (set_auto false c) else c.

Lemma opening_plain v c c1 r : found_tool v = None -> v_m6 v = false -> v_other v = [] -> opening mc v c = (c1, r) ->
  motion_time c1 = motion_time c /\
  ((r = Go tt /\ timeless c1 = timeless (approached v c)) \/ (r = Return /\ c_auto c && negb (Nat.eqb (List.length (v_values v)) 0) = false /\ c_g c = -1 /\ v_g v = None)).
Proof.
  intros T M O E. unfold opening in E. rewrite T in E.
  assert (TE : to_exchange mc v = false) by (unfold to_exchange; rewrite T, M, andb_false_r; reflexivity).
  assert (TB : to_base v = false) by (unfold to_base; rewrite O; reflexivity).
  destruct (service_time mc v c) as (s1 & E1 & M1 & _).
  assert (K1 : timeless s1 = timeless c).
  { assert (K : keeps timeless (service_times mc v)) by (unfold service_times, exchange_times, add_time; keeps).
    specialize (K c). rewrite E1 in K. exact K. }
  unfold mbind at 1 in E. rewrite E1 in E. unfold mbind at 1 in E. cbn [ret] in E.
  destruct (dwell_time v s1) as (s2 & E2 & M2 & _).
  assert (K2 : timeless s2 = timeless s1).
  { assert (K : keeps timeless (dwell v)) by (unfold dwell; keeps). specialize (K s1). rewrite E2 in K. exact K. }
  unfold mbind at 1 in E. rewrite E2 in E.
  assert (TM : motion_time c1 = motion_time s2).
  { pose proof (start_time mc v s2) as K. rewrite E in K. unfold motion_time. cbn [fst] in K. now rewrite K. }
  split; [congruence|]. rewrite K1 in K2. clear K1.
  assert (G : forall (f : calc -> Z) , (forall c, f (timeless c) = f c) -> f s2 = f c) by (intros f F; rewrite <- (F s2), K2; apply F).
  assert (A : c_auto s2 = c_auto c) by (change (c_auto (timeless s2) = c_auto c); now rewrite K2).
  unfold start_modes in E. rewrite TE, TB in E. cbn [orb when negb andb] in E. unfold mbind at 1 in E. cbn [ret] in E.
  unfold mbind at 1 in E. unfold get in E. rewrite A in E. unfold approached.
  destruct (c_auto c && negb (Nat.eqb (List.length (v_values v)) 0)) eqn:AU.
  - unfold mbind, upd in E. injection E as <- <-. left. split; [reflexivity|].
    change (timeless (set_g 0 (set_auto false s2))) with (set_g 0 (set_auto false (timeless s2))). rewrite K2. reflexivity.
  - rewrite (G c_g (fun _ => eq_refl)) in E. destruct ((c_g c =? -1) && negb (is_some (v_g v))) eqn:B.
    + right. apply andb_prop in B as [B1 B2]. apply Z.eqb_eq in B1. unfold mbind, upd, stop in E. injection E as <- <-.
      split; [reflexivity|]. split; [reflexivity|]. split; [exact B1|]. destruct (v_g v); [discriminate|reflexivity].
    + injection E as <- <-. left. split; [reflexivity|exact K2].
Qed.

(** What a straight motion does. *)
Lemma straight_absolute v m c c2 : m_prog m = 90 -> (m_g m = 0 \/ m_g m = 1) -> to_exchange mc v = false -> to_base v = false ->
  straight mc v m c = (c2, Go tt) -> exists xp yp zp, assoc "X" (c_prev c) = Some xp /\ assoc "Y" (c_prev c) = Some yp /\ assoc "Z" (c_prev c) = Some zp /\
    let l := line3_to (halved m xp) yp zp (halved m (or_else (assoc "X" (v_values v)) xp)) (or_else (assoc "Y" (v_values v)) yp)
                      (or_else (assoc "Z" (v_values v)) zp) in
    moved c2 = if m_g m =? 0 then (p_work (c_path c), l) else (l, p_fast (c_path c)).
Proof.
  intros P G TE TB E. unfold straight in E. unfold mbind at 1 in E.
  set (t := (m_g m =? 0) && _ || _) in E.
  assert (W : exists c1, when t no_cycle c = (c1, Go tt) /\ c_prev c1 = c_prev c /\ moved c1 = moved c).
  { unfold when. destruct t; eexists; (split; [reflexivity|split; reflexivity]). }
  destruct W as (c1 & W1 & W2 & W3). rewrite W1 in E. unfold mbind at 1, get in E. rewrite W2, P, Z.eqb_refl in E. cbn [orb] in E.
  destruct (assoc "X" (c_prev c)) as [xp|]; [|discriminate]. destruct (assoc "Y" (c_prev c)) as [yp|]; [|discriminate].
  destruct (assoc "Z" (c_prev c)) as [zp|]; [|discriminate]. exists xp, yp, zp. do 3 (split; [reflexivity|]).
  unfold target in E. rewrite TE, TB in E. unfold mbind, need, ret, set_motion, upd_path, upd in E.
  injection E as <-. injection W3 as W4 W5. unfold moved. destruct (m_g m =? 0); cbn; congruence.
Qed.

Lemma straight_incremental v m c c2 : m_prog m = 91 -> (m_g m = 0 \/ m_g m = 1) -> to_exchange mc v = false -> to_base v = false ->
  straight mc v m c = (c2, Go tt) ->
    let l := line3 (halved m (or_else (assoc "X" (v_values v)) dzero)) (or_else (assoc "Y" (v_values v)) dzero) (or_else (assoc "Z" (v_values v)) dzero) in
    moved c2 = if m_g m =? 0 then (p_work (c_path c), l) else (l, p_fast (c_path c)).
Proof.
  intros P G TE TB E. unfold straight in E. unfold mbind at 1 in E.
  set (t := (m_g m =? 0) && _ || _) in E.
  assert (W : exists c1, when t no_cycle c = (c1, Go tt) /\ c_prev c1 = c_prev c /\ moved c1 = moved c).
  { unfold when. destruct t; eexists; (split; [reflexivity|split; reflexivity]). }
  destruct W as (c1 & W1 & W2 & W3). rewrite W1 in E. unfold mbind at 1, get in E. rewrite W2, P, TE, TB in E. cbn [Z.eqb Pos.eqb orb] in E.
  assert (K : forall w y c0 c', (match assoc w (v_values v), assoc w (c_prev c) with
       | Some x, _ => ret x | None, Some _ => ret dzero | None, None => throw ["MissingValue"; w] end) c0 = (c', Go y) ->
       c' = c0 /\ y = or_else (assoc w (v_values v)) dzero).
  { intros w y c0 c'. destruct (assoc w (v_values v)); [intro H; now inv H|]. destruct (assoc w (c_prev c)); intro H; now inv H. }
  unfold mbind in E.
  destruct (_ c1) as [d1 [x| |]] eqn:EX in E; try discriminate. apply K in EX as [-> ->].
  destruct (_ c1) as [d2 [y| |]] eqn:EY in E; try discriminate. apply K in EY as [-> ->].
  destruct (_ c1) as [d3 [z| |]] eqn:EZ in E; try discriminate. apply K in EZ as [-> ->].
  unfold set_motion, upd_path, upd in E. injection E as <-. injection W3 as W4 W5. cbv zeta. unfold moved. destruct (m_g m =? 0); cbn; congruence.
Qed.

(** The values in force. *)
Lemma last_unique {A} (says : decimal -> A -> Prop) d e a a' : says d a -> says e a' -> forall l1 k1 l2 k2, l1 ++ d :: l2 = k1 ++ e :: k2 ->
  (forall d' x, In d' l2 -> ~ says d' x) -> (forall d' x, In d' k2 -> ~ says d' x) -> d = e.
Proof.
  intros Y Y' l1. induction l1 as [|x l1 IH]; intros [|y k1] l2 k2 Q N N'; cbn [app] in Q.
  - congruence.
  - injection Q as <- Q. exfalso. apply (N e a'); [rewrite Q; apply in_elt|exact Y'].
  - injection Q as -> Q. exfalso. apply (N' d a); [rewrite <- Q; apply in_elt|exact Y].
  - injection Q as -> Q. eapply IH; eassumption.
Qed.

Lemma said_twice {A} (says : decimal -> A -> Prop) b o o' : (forall d a a', says d a -> says d a' -> a = a') ->
  last_said says b o -> last_said says b o' -> o = o'.
Proof.
  intros F. destruct o as [a|], o' as [a'|]; cbn; [| | |reflexivity].
  - intros (l1 & d & l2 & Q & Y & N) (k1 & e & k2 & Q' & Y' & N'). rewrite Q in Q'.
    pose proof (last_unique says d e a a' Y Y' _ _ _ _ Q' N N'). subst e. f_equal. eapply F; eassumption.
  - intros (l1 & d & l2 & Q & Y & _) N. exfalso. apply (N d a); [rewrite Q; apply in_elt|exact Y].
  - intros N (l1 & d & l2 & Q & Y & _). exfalso. apply (N d a'); [rewrite Q; apply in_elt|exact Y].
Qed.

Lemma said_in_force {A} (says : decimal -> A -> Prop) b o old a : (forall d a a', says d a -> says d a' -> a = a') ->
  last_said says b o -> in_force says b old a -> or_else o old = a.
Proof.
  intros F L [H|[H ->]]; [rewrite (said_twice says b o (Some a) F L H)|rewrite (said_twice says b o None F L H)]; reflexivity.
Qed.

Lemma code_of_one group d a a' : code_of group d a -> code_of group d a' -> a = a'.
Proof. intros (_ & (t & D & N) & _) (_ & (t' & D' & N') & _). rewrite D in D'. injection D' as <-. congruence. Qed.

Lemma number_of_one w d a a' : number_of w d a -> number_of w d a' -> a = a'.
Proof. intros (_ & _ & N) (_ & _ & N'). congruence. Qed.

(** What a block gives for a coordinate. *)
Lemma block_value_one w b o o' : block_value w b o -> block_value w b o' -> o = o'.
Proof.
  assert (R : forall d x x', reading d x -> reading d x' -> x = x').
  { intros d x x' (_ & y & S & ->) (_ & y' & S' & ->). rewrite S in S'. injection S' as <-. reflexivity. }
  assert (N : forall d x, reading d x -> ~ (d_value d = None /\ d_dot d = None)).
  { intros d x ([H|H] & _) [A B]; contradiction. }
  unfold block_value. destruct o as [x|], o' as [x'|]; [| | |reflexivity].
  - intros (l1 & d & l2 & Q & Y & L) (k1 & e & k2 & Q' & Y' & L'). rewrite Q in Q'.
    assert (E : d = e).
    { eapply (last_unique reading d e x x' Y Y' _ _ _ _ Q'); intros d' y I H; eapply N; eauto. }
    subst e. f_equal. eapply R; eassumption.
  - intros (l1 & d & l2 & Q & Y & _) H. exfalso. eapply N; [exact Y|]. apply H. rewrite Q. apply in_elt.
  - intros H (l1 & d & l2 & Q & Y & _). exfalso. eapply N; [exact Y|]. apply H. rewrite Q. apply in_elt.
Qed.

(** A block with a motion of its own, without tool and special codes. *)
Theorem block_motion inch line b c mv c' mv' g : b <> [] -> no_tool b -> plain_codes b -> motion_code b c g -> 0 <= g ->
  evaluate tan_ log cabs stale mc inch line b c mv = (c', mv', None) ->
  exists v c1 m, foldM (visit_attr mc) found_init b = Ok v /\ v_other v = [] /\ to_exchange mc v = false /\ to_base v = false /\
    m = current_modes mc v c1 /\ m_g m = g /\ timeless c1 = timeless (approached v (no_motion c)) /\ motion_time c1 = (dzero, dzero) /\
    ((exists c2, motion tan_ log cabs mc v m c1 = (c', Return) /\ c2 = c') \/
     exists c2 g' c3, motion tan_ log cabs mc v m c1 = (c2, Go g') /\
       c3 = add_up mc m inch (set_modes (m_f m) (m_s m) g' (m_plane m) (m_return m) (m_prog m) (m_css m) (m_feed m) c2) /\
       c' = copy_on_return g' (m_prog m) [] (v_values v) c3).
Proof.
  intros NE [NT NM] PL MC G E. unfold evaluate in E. destruct b as [|a b]; [contradiction|]. set (bb := a :: b) in *.
  destruct (foldM (visit_attr mc) found_init bb) as [v|] eqn:F; [|discriminate].
  destruct (evaluate_found tan_ log cabs stale mc inch v (no_motion c)) as [ce r] eqn:EF. injection E as <- _ R.
  pose proof (no_tool_found mc axes bb v F NT) as T.
  assert (M6 : v_m6 v = false). { destruct (v_m6 v) eqn:H; [|reflexivity]. exfalso. apply NM. now apply (found_m6 mc axes bb v F). }
  pose proof (found_plain mc axes bb v F PL) as O.
  assert (TE : to_exchange mc v = false) by (unfold to_exchange; rewrite T, M6, andb_false_r; reflexivity).
  assert (TB : to_base v = false) by (unfold to_base; rewrite O; reflexivity).
  pose proof (found_motion mc axes bb v F) as FM.
  assert (GV : or_else (v_g v) (c_g (approached v (no_motion c))) = g /\
    ~ (c_auto c && negb (Nat.eqb (List.length (v_values v)) 0) = false /\ c_g c = -1 /\ v_g v = None)).
  { destruct MC as [MC|[MC H]].
    - rewrite (said_twice _ _ _ _ (code_of_one motions) FM MC). split; [reflexivity|intros (_ & _ & ?); discriminate].
    - rewrite (said_twice _ _ _ _ (code_of_one motions) FM MC). cbn [or_else]. unfold approached.
      change (c_auto (no_motion c)) with (c_auto c). destruct (c_auto c).
      + destruct H as [GC ->]. pose proof (values_found mc bb v F GC) as VF.
        destruct (Nat.eqb_spec (List.length (v_values v)) 0) as [Q|Q]; [contradiction|]. split; [reflexivity|]. intros [? _]; discriminate.
      + rewrite H. split; [reflexivity|]. intros (_ & Q & _). lia. }
  destruct GV as [GV GN].
  apply evaluate_cases in EF as [[EO NG]|(c1 & EO & EF)].
  { apply opening_plain in EO as (_ & [[Q _]|(_ & Q)]); [| |assumption..].
    - exfalso. apply (NG tt Q).
    - exfalso. apply GN. exact Q. }
  apply opening_plain in EO as (MT & [[_ TL]|(Q & _)]); [|discriminate|assumption..].
  exists v, c1, (current_modes mc v c1). split; [reflexivity|]. split; [exact O|]. split; [exact TE|]. split; [exact TB|]. split; [reflexivity|].
  split. { unfold current_modes. cbn [m_g]. rewrite <- GV. f_equal. change (c_g (timeless c1) = c_g (timeless (approached v (no_motion c)))). now rewrite TL. }
  split; [exact TL|]. split; [exact MT|].
  destruct EF as [(r1 & EM & [[-> ->]|(e & -> & ->)])|(c2 & g' & EM & EF)].
  - left. exists ce. auto.
  - discriminate R.
  - right. apply finish_spec in EF as (c3 & Q & [[-> [e ->]]|[-> H]]); [discriminate R|].
    rewrite TE, TB, O in H. exists c2, g', c3. split; [exact EM|]. split; [exact Q|]. rewrite H. f_equal; rewrite Q; reflexivity.
Qed.
End Straight.
