(** What a reset forgets. *)
From Verif Require Import Model.Base Model.Attr Model.Double Model.Macro Model.Verifiers Model.PathGeom Model.PathCalc
  Spec.SplitSpec Spec.PathSpec Proofs.Tactics Proofs.PathFrame Proofs.PathTotals Proofs.PathVisit Proofs.PathTime Proofs.PathCases.

Open Scope list_scope.

Section Reset.
Variables atan log cabs : dbl -> dbl.
Variable stale : Z.
Variable mc : machine.

Lemma reset_new c : c_auto c = false -> calc_reset mc c = calc_new mc.
Proof. intros H. unfold calc_reset. rewrite H. reflexivity. Qed.

Lemma service_auto v : keeps c_auto (service_times mc v).
Proof. unfold service_times, exchange_times, add_time. keeps. Qed.

Lemma dwell_auto v : keeps c_auto (dwell v).
Proof. unfold dwell. keeps. Qed.

Lemma tool_auto v t : cd_auto_rapid (mc_cnc mc) = false -> keeps c_auto (tool_change mc v t).
Proof.
  intros A. unfold tool_change. rewrite A. unfold when at 1. unfold exchange_times, add_time. keeps.
  - apply keeps_upd. intros c. destruct (String.eqb _ _); reflexivity.
  - apply keeps_upd. intros c. apply (copy_books c_auto). reflexivity.
Qed.

Lemma start_auto v c : c_auto c = false \/ List.length (v_values v) <> O -> c_auto (fst (start_modes mc v c)) = false.
Proof.
  intros H. unfold start_modes, when, mbind, get, upd, stop, ret.
  assert (K : forall x, c_auto (set_g 0 x) = c_auto x) by reflexivity.
  assert (E : forall c, c_auto c = false \/ List.length (v_values v) <> O ->
    c_auto (fst ((if c_auto c && negb (Nat.eqb (List.length (v_values v)) 0) then upd (set_auto false) ;;; upd (set_g 0)
     else if negb (to_exchange mc v) && negb (to_base v) && ((c_g c =? -1) && negb (is_some (v_g v))) then
       upd (fun c => set_modes (c_f c) (c_s c) (c_g c) (or_else (v_plane v) (c_plane c)) (or_else (v_return v) (c_return c))
                             (or_else (v_prog v) (c_prog c)) (or_else (v_css v) (c_css c)) (c_feed c) c) ;;;
       upd (fun c => copy_on_return (c_g c) (c_prog c) (v_other v) (v_values v) c) ;;; stop
     else ret tt) c)) = false).
  { clear c H. intros c H. destruct (c_auto c) eqn:A, (Nat.eqb_spec (List.length (v_values v)) 0) as [L|L]; cbn [negb andb].
    - destruct H as [H|H]; [discriminate|contradiction].
    - reflexivity.
    - destruct (_ && _); unfold mbind, upd, stop, ret; cbn [fst]; [rewrite (copy_books c_auto) by reflexivity|]; exact A.
    - destruct (_ && _); unfold mbind, upd, stop, ret; cbn [fst]; [rewrite (copy_books c_auto) by reflexivity|]; exact A. }
  unfold mbind, upd, stop, ret in E.
  destruct (to_exchange mc v || to_base v).
  - apply (E (set_g 0 c)). exact H.
  - apply (E c). exact H.
Qed.

Lemma opening_auto v c : c_auto c = false \/ List.length (v_values v) <> O /\ found_tool v = None ->
  cd_auto_rapid (mc_cnc mc) = false \/ found_tool v = None -> c_auto (fst (opening mc v c)) = false.
Proof.
  intros H T. unfold opening.
  assert (D : forall c, c_auto c = false \/ List.length (v_values v) <> O -> c_auto (fst ((dwell v ;;; start_modes mc v) c)) = false).
  { intros c1 A1. unfold mbind. pose proof (dwell_auto v c1) as A2. destruct (dwell v c1) as [c2 [a| |e]] eqn:ED; cbn [fst] in A2.
    - apply start_auto. rewrite A2. exact A1.
    - destruct (dwell_time v c1) as [c3 [E3 _]]. congruence.
    - destruct (dwell_time v c1) as [c3 [E3 _]]. congruence. }
  destruct (service_time mc v c) as [c1 [E1 _]]. rewrite (bind_eq _ _ _ _ _ E1).
  pose proof (service_auto v c) as A1. rewrite E1 in A1. cbn [fst] in A1.
  destruct (found_tool v) as [t|].
  - destruct T as [T|T]; [|discriminate]. destruct H as [H|[_ H]]; [|discriminate].
    pose proof (tool_auto v t T c1) as A2. unfold mbind at 1. destruct (tool_change mc v t c1) as [c2 [a| |e]]; cbn [fst] in A2.
    + apply D. left. rewrite A2, A1. exact H.
    + cbn [fst]. rewrite A2, A1. exact H.
    + cbn [fst]. rewrite A2, A1. exact H.
  - unfold mbind at 1, ret at 1. apply D. rewrite A1. tauto.
Qed.

Lemma books_auto c c' : books c' = books c -> c_auto c' = c_auto c.
Proof. intros H. unfold books in H. congruence. Qed.

Lemma evaluate_auto inch v c : c_auto c = false \/ List.length (v_values v) <> O /\ found_tool v = None ->
  cd_auto_rapid (mc_cnc mc) = false \/ found_tool v = None ->
  c_auto (fst (evaluate_found atan log cabs stale mc inch v c)) = false.
Proof.
  intros H T. pose proof (opening_auto v c H T) as O.
  destruct (evaluate_found atan log cabs stale mc inch v c) as [c' r] eqn:E. cbn [fst].
  apply evaluate_cases in E as [[E _]|[c1 [EO E]]].
  - rewrite E in O. exact O.
  - rewrite EO in O. cbn [fst] in O.
    assert (B : forall c2 r2, motion atan log cabs mc v (current_modes mc v c1) c1 = (c2, r2) -> c_auto c2 = false).
    { intros c2 r2 E2. pose proof (motion_books atan log cabs mc v (current_modes mc v c1) c1) as B. rewrite E2 in B. cbn [fst] in B.
      rewrite (books_auto _ _ B). exact O. }
    destruct E as [[r1 [E R]]|[c2 [g [E EF]]]]; [exact (B _ _ E)|].
    specialize (B _ _ E). apply finish_spec in EF as [c3 [E3 EF]].
    assert (A3 : c_auto c3 = false) by (subst c3; exact B). clear E3.
    destruct EF as [[-> _]|[_ ->]]; [exact A3|].
    destruct (to_exchange mc v), (to_base v); rewrite (copy_books c_auto) by reflexivity; exact A3.
Qed.

Lemma after_auto s c : cd_auto_rapid (mc_cnc mc) = false -> c_auto c = false -> c_auto (fst (after atan log cabs stale mc s c)) = false.
Proof.
  intros A H. unfold after, evaluate. destruct (s_block s) as [|a b]; [exact H|].
  destruct (foldM (visit_attr mc) found_init (a :: b)) as [v|e]; [|exact H].
  pose proof (evaluate_auto (s_inch s) v (no_motion c) (or_introl H) (or_introl A)) as E.
  destruct (evaluate_found _ _ _ _ _ _ _ _); exact E.
Qed.

Theorem reset_forgets c : cd_auto_rapid (mc_cnc mc) = false -> reached atan log cabs stale mc c -> calc_reset mc c = calc_new mc.
Proof.
  intros A R. apply reset_new. induction R as [|s c R IH|c R IH].
  - unfold calc_new. rewrite (copy_books c_auto) by reflexivity. reflexivity.
  - apply after_auto; assumption.
  - unfold calc_reset. rewrite (copy_books c_auto) by reflexivity. exact IH.
Qed.

(** ** Machines with automatic rapid traverse *)

Hypothesis axes : proper_axes mc.

Lemma no_tool_found b v : foldM (visit_attr mc) found_init b = Ok v -> ~ names_tool b -> found_tool v = None.
Proof.
  intros E N. destruct (found_tool v) eqn:F; [|reflexivity]. exfalso. apply N, (tool_named mc axes b v E). rewrite F. reflexivity.
Qed.

Lemma values_found b v : foldM (visit_attr mc) found_init b = Ok v -> gives_coordinate b -> List.length (v_values v) <> O.
Proof.
  intros E [w [x [I [l1 [d [l2 [EW [[R _] _]]]]]]]] L.
  assert (P : is_param mc w = true) by (cbn in I; destruct I as [<-|[<-|[<-|[]]]]; reflexivity).
  pose proof (found_value mc w b v P E) as F. destruct (v_values v); [|discriminate]. cbn in F.
  destruct (F d) as [F1 F2]; [rewrite EW; apply in_elt|]. destruct R; contradiction.
Qed.

Lemma after_moved s c : ~ names_tool (s_block s) -> c_auto c = false \/ gives_coordinate (s_block s) ->
  ~ early_failure (snd (after atan log cabs stale mc s c)) \/ c_auto c = false ->
  c_auto (fst (after atan log cabs stale mc s c)) = false.
Proof.
  intros N G F. unfold after, evaluate in *. destruct (s_block s) as [|a b] eqn:EB.
  { destruct G as [G|[w [x [_ [l1 [d [l2 [E _]]]]]]]]; [exact G|]. cbn in E. destruct l1; discriminate. }
  destruct (foldM (visit_attr mc) found_init (a :: b)) as [v|e] eqn:EV.
  2:{ destruct F as [F|F]; [|exact F]. exfalso. apply F. eapply visit_fails. exact EV. }
  pose proof (no_tool_found _ v EV N) as FT.
  assert (H : c_auto (no_motion c) = false \/ List.length (v_values v) <> O /\ found_tool v = None).
  { destruct G as [G|G]; [left; exact G|right; split; [eapply values_found; [exact EV|exact G]|exact FT]]. }
  pose proof (evaluate_auto (s_inch s) v (no_motion c) H (or_intror FT)) as E.
  destruct (evaluate_found _ _ _ _ _ _ _ _); exact E.
Qed.

Theorem reset_after_motion c s l : gives_coordinate (s_block s) -> ~ early_failure (snd (after atan log cabs stale mc s c)) ->
  (forall s', In s' (s :: l) -> ~ names_tool (s_block s')) ->
  calc_reset mc (final c (run atan log cabs stale mc c (s :: l))) = calc_new mc.
Proof.
  intros G F N. apply reset_new. cbn [run]. rewrite final_cons.
  assert (A : c_auto (fst (after atan log cabs stale mc s c)) = false).
  { apply after_moved; [apply N; left; reflexivity|right; exact G|left; exact F]. }
  assert (N' : forall s', In s' l -> ~ names_tool (s_block s')) by (intros s' I; apply N; right; exact I).
  clear G F N. revert A. generalize (fst (after atan log cabs stale mc s c)). clear c s. revert N'.
  induction l as [|s l IH]; intros N c A; [exact A|]. cbn [run]. rewrite final_cons. apply IH.
  - intros s' I. apply N. right. exact I.
  - apply after_moved; [apply N; left; reflexivity|left; exact A|right; exact A].
Qed.

End Reset.

(** T1, a reset, then G1 and X5 on a machine with automatic rapid traverse. *)
Lemma reset_remembers : forall atan log cabs,
  let mc := ex_mill true true in
  let c := final (calc_new mc) (run atan log cabs 90 mc (calc_new mc) [next [word "T" "1"]]) in
  let go c := map (fun r => (p_work (c_path (fst r)), p_fast (c_path (fst r))))
                  (run atan log cabs 90 mc c [next [word "G" "1"; word "F" "100"]; next [word "X" "5"]]) in
  go (calc_reset mc c) = [(dzero, dzero); (dzero, d_of_Z 5)] /\ go (calc_new mc) = [(dzero, dzero); (d_of_Z 5, dzero)].
Proof. intros. split; vm_compute; reflexivity. Qed.
