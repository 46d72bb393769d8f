(** The time of a run. *)
From Verif Require Import Model.Base Model.Attr Model.Double Model.Macro Model.PathGeom Model.PathCalc
  Spec.SplitSpec Spec.PathSpec Proofs.Tactics Proofs.PathFrame Proofs.PathTotals Proofs.PathVisit.

Open Scope list_scope.

Section Time.
Variables atan log cabs : dbl -> dbl.
Variable stale : Z.
Variable mc : machine.
Hypothesis axes : proper_axes mc.

Lemma stoi_fails s e : stoi s = Exc e -> e = EInvalidArgument \/ e = EOutOfRange.
Proof.
  unfold stoi. destruct (span is_space s) as [x s1].
  destruct (match s1 with EmptyString => _ | String c r => _ end) as [neg s2]. destruct (span is_digit s2) as [ds y].
  destruct ds; [intros H; inv H; auto|]. destruct (_ || _); intros H; inv H; auto.
Qed.

Lemma visit_throws b : forall v e, foldM (visit_attr mc) v b = Exc e -> e = EInvalidArgument \/ e = EOutOfRange.
Proof.
  induction b as [|a b IH]; intros v e E; [discriminate|]. cbn [foldM] in E. unfold bind in E.
  destruct (visit_attr mc v a) as [v1|e1] eqn:E1; [apply (IH v1 e E)|]. inv E.
  destruct a as [d|w t|w t]; cbn [visit_attr] in E1; try discriminate.
  unfold visit_decimal, visit_g, param_value, plain_value, bind in E1.
  destruct (String.eqb _ "/"); [discriminate|]. destruct (v_comment v); [discriminate|].
  destruct (is_param mc (d_word d)).
  { destruct (_ && _); [discriminate|]. destruct (stod _) eqn:ES; inv E1. apply stod_fails in ES. exact ES. }
  destruct (String.eqb _ "T"); [destruct (d_value d); [destruct (_ || _)|]; discriminate|].
  destruct (String.eqb _ "F").
  { destruct (_ && _); [discriminate|]. destruct (stod _) eqn:ES; inv E1. apply stod_fails in ES. exact ES. }
  destruct (String.eqb _ "S").
  { destruct (_ && _); [discriminate|]. destruct (stod _) eqn:ES; inv E1. apply stod_fails in ES. exact ES. }
  destruct (String.eqb _ "M").
  { destruct (d_value d); [destruct (_ || _)|]; try discriminate. destruct (stoi _) eqn:ES; inv E1. apply stoi_fails in ES. exact ES. }
  destruct (String.eqb _ "G"); [|discriminate].
  destruct (d_value d); [|discriminate]. destruct (stoi _) eqn:ES; inv E1. apply stoi_fails in ES. exact ES.
Qed.

Lemma visit_fails b v e : foldM (visit_attr mc) v b = Exc e -> early_failure (Some e).
Proof. intros H. apply visit_throws in H as [-> | ->]; unfold early_failure; auto. Qed.

Lemma provided_if (p : Prop) (t : bool) xs : (t = true <-> p) -> provided p xs (if t then xs else []).
Proof.
  intros H. destruct t; [left; split; [apply H|]; reflexivity|right; split; [|reflexivity]].
  intros P. apply H in P. discriminate.
Qed.

Lemma tool_named b v : foldM (visit_attr mc) found_init b = Ok v -> (is_some (found_tool v) = true <-> names_tool b).
Proof.
  intros E. rewrite <- (found_tools mc axes b v E), <- (found_tool_some v).
  destruct (found_tool v); cbn; split; try discriminate; try reflexivity; congruence.
Qed.

Lemma extras_spec b v : foldM (visit_attr mc) found_init b = Ok v -> other_seconds mc b (extras mc v).
Proof.
  intros E. unfold extras, service_list, tool_list, dwell_list.
  eexists (if negb (mc_auto_measure mc) && v_measure v then _ else []), (if v_pallet v then _ else []),
    (if negb (cd_tool_executes (mc_cnc mc)) && v_m6 v then _ else []),
    (if is_some (found_tool v) && cd_tool_executes (mc_cnc mc) then _ else []),
    (if existsb is_dwell (v_other v) then _ else []), (assoc "X" (v_values v)), (assoc "U" (v_values v)), (assoc "P" (v_values v)).
  pose proof (found_m6 mc axes b v E) as M6. pose proof (tool_named b v E) as FT.
  split; [apply provided_if|split; [apply provided_if|split; [apply provided_if|split; [apply provided_if|]]]].
  - rewrite andb_true_iff, negb_true_iff, (found_measure mc axes b v E). tauto.
  - apply (found_pallet mc axes b v E).
  - unfold exchanges. rewrite andb_true_iff, negb_true_iff, M6. destruct (cd_tool_executes (mc_cnc mc)); [|tauto].
    split; intros [H _]; discriminate.
  - unfold exchanges. rewrite andb_true_iff, FT. destruct (cd_tool_executes (mc_cnc mc)); [tauto|].
    split; [intros [_ H]|intros [H _]]; discriminate.
  - split; [apply (found_value mc); [reflexivity|exact E]|].
    split; [apply (found_value mc); [reflexivity|exact E]|].
    split; [apply (found_value mc); [reflexivity|exact E]|].
    split; [apply provided_if, (found_dwell mc axes b v E)|].
    unfold exchange_list. rewrite <- !app_assoc. reflexivity.
Qed.

Lemma no_seconds : other_seconds mc [] [].
Proof.
  assert (N : forall w, block_value w [] None) by (intros w d []).
  assert (W : forall w d, ~ In d (words w [])) by (intros w d []).
  exists [], [], [], [], [], None, None, None.
  split; [right; split; [|reflexivity]; intros [_ [[]|[_ [d [I _]]]]]; exact (W _ _ I)|].
  split; [right; split; [|reflexivity]; intros [[]|[_ [d [I _]]]]; exact (W _ _ I)|].
  assert (X : ~ exchanges mc []).
  { unfold exchanges. destruct (cd_tool_executes (mc_cnc mc)); [intros [d [t [I _]]]|intros [d [t [I _]]]]; exact (W _ _ I). }
  split; [right; split; [|reflexivity]; intros [_ H]; exact (X H)|].
  split; [right; split; [|reflexivity]; intros [_ H]; exact (X H)|].
  split; [apply N|]. split; [apply N|]. split; [apply N|].
  split; [right; split; [|reflexivity]; intros [d [t [I _]]]; exact (W _ _ I)|reflexivity].
Qed.

Lemma same_fold l : forall x y, same_number x y -> same_number (fold_left dadd l x) (fold_left dadd l y).
Proof. induction l as [|a l IH]; intros x y H; [exact H|]. cbn. apply IH, same_add, H. Qed.

Lemma after_time s c c' e : after atan log cabs stale mc s c = (c', e) -> ~ early_failure e ->
  ~ dwell_while_preparing mc (s_block s) ->
  exists o, other_seconds mc (s_block s) o /\
            same_number (t_total (c_time c')) (fold_left dadd (o ++ [block_time c']) (t_total (c_time c))).
Proof.
  intros E N D. unfold after, evaluate in E. destruct (s_block s) as [|a b] eqn:EB.
  { injection E as <- <-. exists []. split; [apply no_seconds|]. cbn. apply same_zero. }
  destruct (foldM (visit_attr mc) found_init (a :: b)) as [v|x] eqn:EV.
  2:{ injection E as <- <-. exfalso. apply N. eapply visit_fails. exact EV. }
  destruct (evaluate_found atan log cabs stale mc (s_inch s) v (no_motion c)) as [c1 r] eqn:EE. injection E as -> <-.
  exists (extras mc v). split; [apply extras_spec, EV|]. rewrite fold_left_app. cbn [fold_left].
  apply evaluate_time in EE as [EE|EE]; [contradiction|].
  assert (P : prepares mc v = true -> dwell_list v = []).
  { intros P. unfold dwell_list. change (existsb _ (v_other v)) with (existsb is_dwell (v_other v)).
    destruct (existsb is_dwell (v_other v)) eqn:DW; [exfalso|reflexivity].
    apply D. split; [apply (found_dwell mc axes _ v EV), DW|].
    unfold prepares, tool_taken in P. apply andb_true_iff in P as [P1 P2]. split; [apply (tool_named _ v EV), P1|].
    apply negb_true_iff, orb_false_iff in P2 as [P2 P3]. unfold exchanges. rewrite P2. intros H.
    apply (found_m6 mc axes _ v EV) in H. congruence. }
  destruct (EE P) as [[T M]|T].
  - rewrite T. unfold block_time. unfold motion_time in M. injection M as -> ->. apply same_zero.
  - rewrite T. left. reflexivity.
Qed.

Theorem time_total c l : fresh mc c ->
  (forall r, In r (run atan log cabs stale mc c l) -> ~ early_failure (snd r)) ->
  (forall s, In s l -> ~ dwell_while_preparing mc (s_block s)) ->
  exists others : list (list dbl),
    Forall2 (fun s o => other_seconds mc (s_block s) o) l others /\
    same_number (t_total (c_time (final c (run atan log cabs stale mc c l))))
      (total (List.concat (map (fun x => fst x ++ [block_time (fst (snd x))])
                          (combine others (run atan log cabs stale mc c l)))))%list.
Proof.
  intros F. assert (T0 : same_number (t_total (c_time c)) dzero) by 
    (destruct F as [->|[c0 ->]]; left; unfold calc_new, calc_reset; rewrite (copy_books (fun c => t_total (c_time c))); reflexivity).
  unfold total. revert T0. generalize dzero as t0. clear F. revert c. induction l as [|s l IH]; intros c t0 T0 N D.
  { exists []. split; [constructor|]. exact T0. }
  cbn [run] in *. destruct (after atan log cabs stale mc s c) as [c' e] eqn:EA. cbn [fst] in *.
  destruct (after_time s c c' e EA (N (c', e) (or_introl eq_refl)) (D s (or_introl eq_refl))) as [o [O S]].
  destruct (IH c' (fold_left dadd (o ++ [block_time c']) t0)%list) as [os [OS SS]].
  - eapply same_trans; [exact S|]. apply same_fold, T0.
  - intros r I. apply N. right. exact I.
  - intros s' I. apply D. right. exact I.
  - exists (o :: os). split; [constructor; assumption|]. rewrite final_cons. cbn [combine map List.concat fst snd].
    rewrite fold_left_app. exact SS.
Qed.

End Time.
