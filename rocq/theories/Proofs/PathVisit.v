(** What the calculator finds in a block. *)
From Verif Require Import Model.Base Model.Attr Model.Double Model.Macro Model.Verifiers Model.Splitter Model.PathGeom
  Model.PathCalc Spec.SplitSpec Spec.PathSpec Proofs.Tactics Proofs.TextProofs.

Lemma assoc_mset {A} w k (x : A) m : assoc w (mset k x m) = if String.eqb w k then Some x else assoc w m.
Proof.
  induction m as [|[k' v'] m IH]; cbn [mset assoc]; [reflexivity|].
  destruct (String.eqb k k') eqn:E1; [apply String.eqb_eq in E1 as <-; cbn [assoc]; destruct (String.eqb w k); reflexivity|].
  destruct (String.ltb k k'); cbn [assoc]; [reflexivity|]. rewrite IH.
  destruct (String.eqb w k') eqn:E2, (String.eqb w k) eqn:E3; try reflexivity.
  apply String.eqb_eq in E2, E3. subst. rewrite String.eqb_refl in E1. discriminate.
Qed.

Lemma app_empty_r (s : string) : (s ++ "")%string = s.
Proof. induction s as [|a s IH]; [reflexivity|]. cbn. rewrite IH. reflexivity. Qed.

Section Visit.
Variable mc : machine.

(** Visiting a word before the mark "/". *)
Lemma visit_flag d v v' : d_word d <> "/"%string -> v_comment v = false -> visit_decimal mc d v = Ok v' -> v_comment v' = false.
Proof.
  intros W C E. unfold visit_decimal in E. apply String.eqb_neq in W. rewrite W, C in E. unfold bind in E.
  destruct (is_param mc (d_word d)).
  { destruct (_ && _); [inv E; exact C|]. destruct (param_value d); inv E; exact C. }
  destruct (String.eqb (d_word d) "T").
  { destruct (d_value d); [destruct (_ || _)|]; inv E; exact C. }
  destruct (String.eqb (d_word d) "F").
  { destruct (_ && _); [inv E; exact C|]. destruct (plain_value d); inv E; exact C. }
  destruct (String.eqb (d_word d) "S").
  { destruct (_ && _); [inv E; exact C|]. destruct (plain_value d); inv E; exact C. }
  destruct (String.eqb (d_word d) "M").
  { destruct (d_value d) as [t|]; [destruct (_ || _)|]; try (inv E; exact C). destruct (stoi t) as [n|]; inv E.
    unfold service_codes. bdestr; exact C. }
  destruct (String.eqb (d_word d) "G"); [|inv E; exact C].
  unfold visit_g, bind in E. destruct (d_value d) as [t|]; [|inv E; exact C].
  destruct (stoi t) as [n|]; inv E. bdestr; exact C.
Qed.

Lemma visit_commented v : forall b v', v_comment v = true -> foldM (visit_attr mc) v b = Ok v' -> v_comment v' = true.
Proof.
  intros b. revert v. induction b as [|a b IH]; intros v v' C E; [inv E; exact C|].
  cbn [foldM] in E. unfold bind in E. destruct (visit_attr mc v a) as [v1|] eqn:E1; [|discriminate].
  apply (IH v1); [|exact E]. destruct a as [d|w t|w t]; cbn [visit_attr] in E1.
  - unfold visit_decimal in E1. rewrite C in E1. destruct (String.eqb _ "/"); inv E1; [reflexivity|exact C].
  - inv E1. unfold service_codes. bdestr; exact C.
  - inv E1. exact C.
Qed.

Section Any.
Variable P : found -> Prop.
Variable Q : decimal -> Prop.
Variable S : string -> string -> Prop.
Hypothesis word : forall v d v', d_word d <> "/"%string -> v_comment v = false -> visit_decimal mc d v = Ok v' -> (P v' <-> P v \/ Q d).
Hypothesis mark : forall v, P (with_comment true v) <-> P v.
Hypothesis text : forall v w t, P (service_codes mc w t v) <-> P v \/ S w t.

Definition some_text (b : block) : Prop := exists w t, In (AStr w t) b /\ S w t.

Lemma visit_any b : forall v v', foldM (visit_attr mc) v b = Ok v' ->
  (v_comment v = true -> (P v' <-> P v \/ some_text b)) /\
  (v_comment v = false -> (P v' <-> P v \/ (exists d, In d (effective b) /\ Q d) \/ some_text b)).
Proof.
  induction b as [|a b IH]; intros v v' E.
  - inv E. split; intros _; split; auto.
    + intros [H|[w [t [[] _]]]]; exact H.
    + intros [H|[[d [[] _]]|[w [t [[] _]]]]]; exact H.
  - cbn [foldM] in E. unfold bind in E. destruct (visit_attr mc v a) as [v1|] eqn:E1; [|discriminate].
    destruct (IH v1 v' E) as [IC IN].
    assert (T : some_text (a :: b) <-> (match a with AStr w t => S w t | _ => False end) \/ some_text b).
    { split.
      - intros [w [t [[->|I] H]]]; [left; exact H|right; exists w, t; auto].
      - intros [H|[w [t [I H]]]]; [destruct a; try contradiction; eexists; eexists; split; [left; reflexivity|exact H]|
                                   exists w, t; split; [right; exact I|exact H]]. }
    destruct a as [d|w t|w t]; cbn [visit_attr effective] in *.
    + destruct (String.eqb (d_word d) "/") eqn:W.
      * assert (v1 = with_comment true v) by (unfold visit_decimal in E1; rewrite W in E1; inv E1; reflexivity). subst v1.
        specialize (IC eq_refl). rewrite mark in IC. split; intros C; rewrite IC, T; [tauto|].
        split; [tauto|]. intros [H|[[d0 [[] _]]|H]]; tauto.
      * split; intros C.
        -- assert (v1 = v) by (unfold visit_decimal in E1; rewrite W, C in E1; inv E1; reflexivity). subst v1.
           rewrite (IC C), T. tauto.
        -- assert (W' : d_word d <> "/"%string) by (apply String.eqb_neq; exact W).
           rewrite (IN (visit_flag d v v1 W' C E1)), (word v d v1 W' C E1), T. cbn [In].
           split.
           ++ intros [[H|H]|[[d0 [I H]]|H]]; eauto 8.
           ++ intros [H|[[d0 [[<-|I] H]]|[[]|H]]]; eauto 8.
    + inv E1.
      assert (CC : v_comment (service_codes mc w t v) = v_comment v) by (unfold service_codes; bdestr; reflexivity).
      rewrite CC in IC, IN. rewrite text in IC, IN. split; intros C; [rewrite (IC C)|rewrite (IN C)]; rewrite T; tauto.
    + inv E1. split; intros C; [rewrite (IC C)|rewrite (IN C)]; rewrite T; tauto.
Qed.

Lemma block_any b v' : ~ P found_init -> foldM (visit_attr mc) found_init b = Ok v' ->
  (P v' <-> (exists d, In d (effective b) /\ Q d) \/ some_text b).
Proof.
  intros N E. destruct (visit_any b found_init v' E) as [_ H]. rewrite (H eq_refl). tauto.
Qed.
End Any.

Hypothesis axes : proper_axes mc.

Lemma not_param w : In w ["/"; "T"; "F"; "S"; "M"; "G"]%string -> is_param mc w = false.
Proof.
  intros I. unfold is_param. apply orb_false_intro.
  - cbn in I. destruct I as [<-|[<-|[<-|[<-|[<-|[<-|[]]]]]]]; reflexivity.
  - apply mem_str_not_In, axes, I.
Qed.

Lemma whole_spec d t : whole d = Some t <-> d_value d = Some t /\ is_some (d_dot d) || is_some (d_value2 d) = false.
Proof.
  unfold whole. destruct (d_value d), (d_dot d), (d_value2 d); cbn; split; try discriminate; try (intros [H _]; discriminate);
    try (intros [_ H]; discriminate); [intros H; inv H; auto|intros [H _]; inv H; reflexivity].
Qed.

(** The kinds of words. *)
Lemma visit_cases d v v' : d_word d <> "/"%string -> v_comment v = false -> visit_decimal mc d v = Ok v' ->
  (is_param mc (d_word d) = true /\ v' = with_values (v_values v') v /\
     ((d_value d = None /\ d_dot d = None /\ v_values v' = v_values v) \/
      exists x, reading d x /\ v_values v' = mset (d_word d) x (v_values v))) \/
  (is_param mc (d_word d) = false /\
   ((d_word d = "T"%string /\ v' = match whole d with
       Some t => with_tools (v_tools v ++ [tool_number_text (mc_type mc) t]) v | None => v end) \/
    (d_word d = "F"%string /\ v' = with_f (v_f v') v) \/
    (d_word d = "S"%string /\ v' = with_s (v_s v') v) \/
    (d_word d = "M"%string /\ match whole d with
       Some t => exists n, stoi t = Ok n /\ v' = service_codes mc "M" t (if n =? 6 then with_m6 true v else v)
       | None => v' = v end) \/
    (d_word d = "G"%string /\ visit_g d v = Ok v') \/
    (v' = v /\ ~ In (d_word d) ["T"; "F"; "S"; "M"; "G"]%string))).
Proof.
  intros W C E. unfold visit_decimal in E. apply String.eqb_neq in W. rewrite W, C in E. unfold bind in E.
  assert (ID : forall u, u = with_values (v_values u) u) by (intros []; reflexivity).
  destruct (is_param mc (d_word d)) eqn:PA; [left|right]; (split; [reflexivity|]).
  { destruct (negb (is_some (d_value d)) && negb (is_some (d_dot d))) eqn:N.
    - inv E. split; [apply ID|]. left. destruct (d_value d), (d_dot d); try discriminate; auto.
    - unfold param_value, bind in E. destruct (stod _) as [y|] eqn:ES; [|discriminate]. inv E. split; [reflexivity|]. right.
      eexists. split; [|reflexivity]. split.
      + destruct (d_value d), (d_dot d); try discriminate; try (left; discriminate); right; discriminate.
      + exists y. split; [exact ES|]. unfold dz. destruct (d_dot d); cbn [is_some negb]; reflexivity. }
  assert (WH : forall t, d_value d = Some t -> is_some (d_dot d) || is_some (d_value2 d) = true -> whole d = None).
  { intros t V D. unfold whole. rewrite V. destruct (d_dot d), (d_value2 d); try reflexivity. discriminate. }
  assert (WS : forall t, d_value d = Some t -> is_some (d_dot d) || is_some (d_value2 d) = false -> whole d = Some t).
  { intros t V D. apply whole_spec. auto. }
  assert (WN : d_value d = None -> whole d = None) by (intros V; unfold whole; rewrite V; reflexivity).
  destruct (String.eqb (d_word d) "T") eqn:ET.
  { left. split; [apply String.eqb_eq; exact ET|]. destruct (d_value d) as [t|]; [|inv E; rewrite WN; reflexivity].
    destruct (_ || _) eqn:D; inv E; [rewrite (WH t)|rewrite (WS t)]; reflexivity. }
  destruct (String.eqb (d_word d) "F") eqn:EF.
  { right; left. split; [apply String.eqb_eq; exact EF|]. destruct (_ && _); [inv E; destruct v'; reflexivity|].
    destruct (plain_value d); inv E; reflexivity. }
  destruct (String.eqb (d_word d) "S") eqn:ES.
  { right; right; left. split; [apply String.eqb_eq; exact ES|]. destruct (_ && _); [inv E; destruct v'; reflexivity|].
    destruct (plain_value d); inv E; reflexivity. }
  destruct (String.eqb (d_word d) "M") eqn:EM.
  { right; right; right; left. apply String.eqb_eq in EM. split; [exact EM|]. rewrite EM in E.
    destruct (d_value d) as [t|]; [|inv E; rewrite WN; reflexivity].
    destruct (_ || _) eqn:D; [inv E; rewrite (WH t); reflexivity|rewrite (WS t) by reflexivity].
    destruct (stoi t) as [n|] eqn:EN; inv E. exists n. split; reflexivity. }
  destruct (String.eqb (d_word d) "G") eqn:EG.
  { right; right; right; right; left. split; [apply String.eqb_eq; exact EG|exact E]. }
  right; right; right; right; right. inv E. split; [reflexivity|]. intros I.
  apply String.eqb_neq in ET, EF, ES, EM, EG. cbn in I. destruct I as [I|[I|[I|[I|[I|[]]]]]]; symmetry in I; contradiction.
Qed.

Lemma codes_other {T} (f : found -> T) w t v :
  (forall u, f (with_pallet true u) = f u) -> (forall u, f (with_measure true u) = f u) -> f (service_codes mc w t v) = f v.
Proof. intros P M. unfold service_codes. bdestr; rewrite ?M, ?P; reflexivity. Qed.

Lemma visit_g_other {T} (f : found -> T) d v v' : visit_g d v = Ok v' ->
  (forall u x, f (with_g x u) = f u) -> (forall u x, f (with_plane x u) = f u) -> (forall u x, f (with_return x u) = f u) ->
  (forall u x, f (with_prog x u) = f u) -> (forall u x, f (with_css x u) = f u) -> (forall u x, f (with_feed x u) = f u) ->
  (forall u x, f (with_other x u) = f u) -> f v' = f v.
Proof.
  intros E. intros. unfold visit_g, bind in E. destruct (d_value d) as [t|]; [|inv E; reflexivity].
  destruct (stoi t) as [n|]; inv E. bdestr; auto.
Qed.

Ltac cases E :=
  let PA := fresh "PA" in
  destruct E as [[PA [E _]]|[PA [[? E]|[[? E]|[[? E]|[[? E]|[[? E]|[E ?]]]]]]]].

Lemma found_m6 b v : foldM (visit_attr mc) found_init b = Ok v -> (v_m6 v = true <-> has_m6 b).
Proof.
  intros E. rewrite (block_any (fun v => v_m6 v = true)
    (fun d => d_word d = "M"%string /\ exists t, whole d = Some t /\ stoi t = Ok 6) (fun _ _ => False)); [| | | | |exact E].
  - unfold has_m6, words. split.
    + intros [[d [I [W [t H]]]]|[w [t [_ []]]]]. exists d, t. split; [|exact H]. apply filter_In. split; [exact I|apply String.eqb_eq, W].
    + intros [d [t [I H]]]. apply filter_In in I as [I W]. apply String.eqb_eq in W. left. exists d. split; [exact I|].
      split; [exact W|]. exists t. exact H.
  - intros u d u' W C EV. apply visit_cases in EV; [|exact W|exact C].
    assert (N : d_word d <> "M"%string -> v_m6 u' = v_m6 u ->
      (v_m6 u' = true <-> v_m6 u = true \/ d_word d = "M"%string /\ exists t, whole d = Some t /\ stoi t = Ok 6)).
    { intros H ->. split; [auto|intros [H0|[H0 _]]; [exact H0|contradiction]]. }
    cases EV.
    + apply N; [|rewrite EV; reflexivity]. intros EM. rewrite EM, not_param in PA; [discriminate|cbn; tauto].
    + apply N; [congruence|]. rewrite EV. destruct (whole d); reflexivity.
    + apply N; [congruence|]. rewrite EV. reflexivity.
    + apply N; [congruence|]. rewrite EV. reflexivity.
    + destruct (whole d) as [t|].
      * destruct EV as [n [EN ->]]. rewrite (codes_other v_m6) by reflexivity.
        destruct (n =? 6) eqn:E6.
        -- apply Z.eqb_eq in E6 as ->. cbn. split; [intros _; right; eauto|reflexivity].
        -- split; [auto|]. intros [H0|[_ [t' [H0 H1]]]]; [exact H0|]. inv H0. rewrite EN in H1. inv H1. discriminate.
      * subst u'. split; [auto|]. intros [H0|[_ [t' [H0 _]]]]; [exact H0|discriminate].
    + apply N; [congruence|]. apply (visit_g_other v_m6) in EV; auto.
    + subst u'. apply N; [|reflexivity]. intros EM. apply H. rewrite EM. cbn; tauto.
  - reflexivity.
  - intros u w t. rewrite (codes_other v_m6) by reflexivity. tauto.
  - discriminate.
Qed.

Lemma found_tools b v : foldM (visit_attr mc) found_init b = Ok v -> (v_tools v <> [] <-> names_tool b).
Proof.
  intros E. rewrite (block_any (fun v => v_tools v <> [])
    (fun d => d_word d = "T"%string /\ exists t, whole d = Some t) (fun _ _ => False)); [| | | | |exact E].
  - unfold names_tool, words. split.
    + intros [[d [I [W [t H]]]]|[w [t [_ []]]]]. exists d, t. split; [|exact H]. apply filter_In. split; [exact I|apply String.eqb_eq, W].
    + intros [d [t [I H]]]. apply filter_In in I as [I W]. apply String.eqb_eq in W. left. exists d. split; [exact I|].
      split; [exact W|]. exists t. exact H.
  - intros u d u' W C EV. apply visit_cases in EV; [|exact W|exact C].
    assert (N : d_word d <> "T"%string -> v_tools u' = v_tools u ->
      (v_tools u' <> [] <-> v_tools u <> [] \/ d_word d = "T"%string /\ exists t, whole d = Some t)).
    { intros H ->. split; [auto|intros [H0|[H0 _]]; [exact H0|contradiction]]. }
    cases EV.
    + apply N; [|rewrite EV; reflexivity]. intros EM. rewrite EM, not_param in PA; [discriminate|cbn; tauto].
    + rewrite EV. destruct (whole d) as [t|].
      * cbn [v_tools with_tools]. split; [intros _; right; eauto|]. intros _ H0. apply app_eq_nil in H0 as [_ H0]. discriminate.
      * split; [auto|]. intros [H0|[_ [t' H0]]]; [exact H0|discriminate].
    + apply N; [congruence|]. rewrite EV. reflexivity.
    + apply N; [congruence|]. rewrite EV. reflexivity.
    + apply N; [congruence|]. destruct (whole d) as [t|]; [|subst; reflexivity].
      destruct EV as [n [EN ->]]. rewrite (codes_other v_tools) by reflexivity. destruct (n =? 6); reflexivity.
    + apply N; [congruence|]. apply (visit_g_other v_tools) in EV; auto.
    + subst u'. apply N; [|reflexivity]. intros EM. apply H. rewrite EM. cbn; tauto.
  - reflexivity.
  - intros u w t. rewrite (codes_other v_tools) by reflexivity. tauto.
  - intros H; apply H; reflexivity.
Qed.

(** Pallet and measurement codes. *)
Lemma found_code (f : found -> bool) (g : Prop) cw ct :
  (forall u w t, f (service_codes mc w t u) = true <-> f u = true \/ g /\ w = cw /\ t = ct) ->
  (forall u x, f (with_values x u) = f u) -> (forall u x, f (with_tools x u) = f u) -> (forall u x, f (with_f x u) = f u) ->
  (forall u x, f (with_s x u) = f u) -> (forall u x, f (with_m6 x u) = f u) -> (forall u x, f (with_comment x u) = f u) ->
  (forall u x, f (with_g x u) = f u) -> (forall u x, f (with_plane x u) = f u) -> (forall u x, f (with_return x u) = f u) ->
  (forall u x, f (with_prog x u) = f u) -> (forall u x, f (with_css x u) = f u) -> (forall u x, f (with_feed x u) = f u) ->
  (forall u x, f (with_other x u) = f u) -> f found_init = false ->
  forall b v, foldM (visit_attr mc) found_init b = Ok v -> (f v = true <-> g /\ has_code cw ct b).
Proof.
  intros HC. intros. rewrite (block_any (fun v => f v = true)
    (fun d => d_word d = "M"%string /\ g /\ cw = "M"%string /\ whole d = Some ct) (fun w t => g /\ w = cw /\ t = ct)); [| | | | |eassumption].
  - unfold has_code, words. split.
    + intros [[d [I [W [G [CW T]]]]]|[w [t [I [G [-> ->]]]]]]; (split; [exact G|]); [right|left; exact I].
      split; [exact CW|]. exists d. split; [|exact T]. apply filter_In. split; [exact I|apply String.eqb_eq, W].
    + intros [G [I|[CW [d [I T]]]]]; [right; exists cw, ct; auto|left].
      apply filter_In in I as [I W]. apply String.eqb_eq in W. exists d. auto.
  - intros u d u' W C EV. apply visit_cases in EV; [|exact W|exact C].
    assert (N : d_word d <> "M"%string -> f u' = f u ->
      (f u' = true <-> f u = true \/ d_word d = "M"%string /\ g /\ cw = "M"%string /\ whole d = Some ct)).
    { intros HM ->. split; [auto|intros [Q0|[Q0 _]]; [exact Q0|contradiction]]. }
    cases EV.
    + apply N; [|rewrite EV; auto]. intros EM. rewrite EM, not_param in PA; [discriminate|cbn; tauto].
    + apply N; [congruence|]. rewrite EV. destruct (whole d); auto.
    + apply N; [congruence|]. rewrite EV. auto.
    + apply N; [congruence|]. rewrite EV. auto.
    + destruct (whole d) as [t|].
      * destruct EV as [n [EN ->]]. rewrite HC.
        assert (X : f (if n =? 6 then with_m6 true u else u) = f u) by (destruct (n =? 6); auto). rewrite X.
        split; [intros [Q0|[Q0 [Q1 Q2]]]; [auto|right; subst; auto]|].
        intros [Q0|[_ [Q0 [Q1 Q2]]]]; [auto|right; split; [exact Q0|]; inv Q2; auto].
      * subst u'. split; [auto|]. intros [Q0|[_ [_ [_ Q0]]]]; [exact Q0|discriminate].
    + apply N; [congruence|]. apply (visit_g_other f) in EV; auto.
    + subst u'. apply N; [|reflexivity]. intros EM. match goal with Q0 : ~ In _ _ |- _ => apply Q0; rewrite EM; cbn; tauto end.
  - intros u. match goal with Q0 : forall u x, f (with_comment x u) = f u |- _ => rewrite Q0 end. tauto.
  - intros u w t. apply HC.
  - match goal with Q0 : f found_init = false |- _ => rewrite Q0 end. discriminate.
Qed.

Lemma found_pallet b v : foldM (visit_attr mc) found_init b = Ok v ->
  (v_pallet v = true <-> has_code (mc_pallet_code mc) (mc_pallet_value mc) b).
Proof.
  intros E. rewrite (found_code v_pallet True (mc_pallet_code mc) (mc_pallet_value mc)) by (try reflexivity; try exact E;
    intros u w t; unfold service_codes; destruct (String.eqb_spec w (mc_pallet_code mc)), (String.eqb_spec t (mc_pallet_value mc)); cbn [andb];
    destruct (negb _ && _); cbn; split; try tauto; try (intros _; right; auto); intros [H|[_ [H1 H2]]]; auto; contradiction).
  tauto.
Qed.

Lemma found_measure b v : foldM (visit_attr mc) found_init b = Ok v ->
  (v_measure v = true <-> mc_auto_measure mc = false /\ has_code (mc_measure_code mc) (mc_measure_value mc) b).
Proof.
  apply (found_code v_measure (mc_auto_measure mc = false) (mc_measure_code mc) (mc_measure_value mc)); try reflexivity.
  intros u w t. unfold service_codes. assert (X : v_measure (if String.eqb w (mc_pallet_code mc) && String.eqb t (mc_pallet_value mc) then with_pallet true u else u) = v_measure u)
    by (destruct (_ && _); reflexivity).
  destruct (mc_auto_measure mc); cbn [negb andb]; [rewrite X; split; [tauto|intros [H|[H _]]; [exact H|discriminate]]|].
  destruct (String.eqb_spec w (mc_measure_code mc)), (String.eqb_spec t (mc_measure_value mc)); cbn [andb];
    [cbn; split; [intros _; right; auto|reflexivity]| | |]; rewrite X; (split; [tauto|intros [H|[_ [H1 H2]]]; [exact H|contradiction]]).
Qed.

(** Dwelling. *)
Definition is_dwell (o : string) : bool := String.eqb o "04" || String.eqb o "4".

Lemma dwell_code t : is_dwell t = true <-> (t = "4" \/ t = "04")%string.
Proof. unfold is_dwell. rewrite orb_true_iff, !String.eqb_eq. tauto. Qed.

Lemma found_dwell b v : foldM (visit_attr mc) found_init b = Ok v -> (existsb is_dwell (v_other v) = true <-> has_dwell b).
Proof.
  intros E. rewrite (block_any (fun v => existsb is_dwell (v_other v) = true)
    (fun d => d_word d = "G"%string /\ exists t, d_value d = Some t /\ (t = "4" \/ t = "04")%string /\
              (d_dot d = None \/ d_value2 d = None)) (fun _ _ => False)); [| | | | |exact E].
  - unfold has_dwell, words. split.
    + intros [[d [I [W [t H]]]]|[w [t [_ []]]]]. exists d, t. split; [|exact H]. apply filter_In. split; [exact I|apply String.eqb_eq, W].
    + intros [d [t [I H]]]. apply filter_In in I as [I W]. apply String.eqb_eq in W. left. exists d. split; [exact I|].
      split; [exact W|]. exists t. exact H.
  - intros u d u' W C EV. apply visit_cases in EV; [|exact W|exact C].
    match goal with |- _ <-> _ \/ ?Q => assert (N : d_word d <> "G"%string -> v_other u' = v_other u ->
      (existsb is_dwell (v_other u') = true <-> existsb is_dwell (v_other u) = true \/ Q)) end.
    { intros H ->. split; [auto|intros [H0|[H0 _]]; [exact H0|contradiction]]. }
    cases EV.
    + apply N; [|rewrite EV; reflexivity]. intros EM. rewrite EM, not_param in PA; [discriminate|cbn; tauto].
    + apply N; [congruence|]. rewrite EV. destruct (whole d); reflexivity.
    + apply N; [congruence|]. rewrite EV. reflexivity.
    + apply N; [congruence|]. rewrite EV. reflexivity.
    + apply N; [congruence|]. destruct (whole d) as [t|]; [|subst; reflexivity].
      destruct EV as [n [EN ->]]. rewrite (codes_other v_other) by reflexivity. destruct (n =? 6); reflexivity.
    + clear N. unfold visit_g, bind in EV. destruct (d_value d) as [t|].
      2:{ inv EV. split; [auto|]. intros [H0|[_ [t [H0 _]]]]; [exact H0|discriminate]. }
      destruct (stoi t) as [n|] eqn:EN; [|discriminate].
      assert (K : forall x, existsb is_dwell (v_other u) = x -> v_other u' = v_other u -> (n =? 4) = false ->
        existsb is_dwell (v_other u') = true <-> existsb is_dwell (v_other u) = true \/ d_word d = "G"%string /\
          (exists t0, Some t = Some t0 /\ (t0 = "4" \/ t0 = "04")%string /\ (d_dot d = None \/ d_value2 d = None))).
      { intros x _ -> N4. split; [auto|]. intros [H0|[_ [t0 [H0 [H1 _]]]]]; [exact H0|]. inv H0.
        destruct H1 as [-> | ->]; vm_compute in EN; inv EN; discriminate. }
      revert EV.
      destruct (existsb (Z.eqb n) [17; 18; 19]) eqn:E1; [intros EV; inv EV; apply (K _ eq_refl); [reflexivity|]; destruct (Z.eqb_spec n 4) as [->|]; [discriminate|reflexivity]|].
      destruct (((0 <=? n) && (n <=? 3)) || (n =? 80) || is_drill_cycle n || is_drill_cycle_qparam n) eqn:E2;
        [intros EV; inv EV; apply (K _ eq_refl); [reflexivity|]; destruct (Z.eqb_spec n 4) as [->|]; [vm_compute in E2; discriminate|reflexivity]|].
      destruct (existsb (Z.eqb n) [94; 95]) eqn:E3; [intros EV; inv EV; apply (K _ eq_refl); [reflexivity|]; destruct (Z.eqb_spec n 4) as [->|]; [discriminate|reflexivity]|].
      destruct (existsb (Z.eqb n) [96; 97]) eqn:E4; [intros EV; inv EV; apply (K _ eq_refl); [reflexivity|]; destruct (Z.eqb_spec n 4) as [->|]; [discriminate|reflexivity]|].
      destruct (existsb (Z.eqb n) [98; 99]) eqn:E5; [intros EV; inv EV; apply (K _ eq_refl); [reflexivity|]; destruct (Z.eqb_spec n 4) as [->|]; [discriminate|reflexivity]|].
      destruct (existsb (Z.eqb n) [90; 91]) eqn:E6; [intros EV; inv EV; apply (K _ eq_refl); [reflexivity|]; destruct (Z.eqb_spec n 4) as [->|]; [discriminate|reflexivity]|].
      intros EV. inv EV. clear K. cbn [v_other with_other]. rewrite existsb_app. cbn [existsb]. rewrite orb_false_r, orb_true_iff.
      apply or_iff_compat_l. rewrite dwell_code.
      destruct (d_dot d) as [c|].
      2:{ rewrite app_empty_r. split; [intros H0; split; [assumption|]; exists t; auto|]. intros [_ [t0 [H0 [H1 _]]]]. inv H0. exact H1. }
      destruct (d_value2 d) as [t2|].
      2:{ rewrite app_empty_r. split; [intros H0; split; [assumption|]; exists t; auto|]. intros [_ [t0 [H0 [H1 _]]]]. inv H0. exact H1. }
      split; [|intros [_ [t0 [_ [_ [H0|H0]]]]]; discriminate].
      intros H0. exfalso. destruct t as [|a [|a2 t]]; [vm_compute in EN; discriminate| |].
      * cbn in H0. destruct H0 as [H0|H0]; [discriminate|]. inv H0. vm_compute in EN. inv EN. discriminate E2.
      * cbn in H0. destruct H0 as [H0|H0]; inversion H0. destruct t; discriminate.
    + subst u'. apply N; [|reflexivity]. intros EM. apply H. rewrite EM. cbn; tauto.
  - reflexivity.
  - intros u w t. rewrite (codes_other v_other) by reflexivity. tauto.
  - discriminate.
Qed.

(** Values. *)
Lemma visit_values d v v' : d_word d <> "/"%string -> v_comment v = false -> visit_decimal mc d v = Ok v' ->
  v_values v' = v_values v \/ exists x, reading d x /\ v_values v' = mset (d_word d) x (v_values v).
Proof.
  intros W C E. apply visit_cases in E; [|exact W|exact C].
  destruct E as [[_ [_ [[_ [_ H]]|H]]]|[_ [[? E]|[[? E]|[[? E]|[[? E]|[[? E]|[E ?]]]]]]]]; auto; left.
  - rewrite E. destruct (whole d); reflexivity.
  - rewrite E. reflexivity.
  - rewrite E. reflexivity.
  - destruct (whole d); [destruct E as [n [_ ->]]; rewrite (codes_other v_values) by reflexivity; destruct (n =? 6)|subst]; reflexivity.
  - apply (visit_g_other v_values) in E; auto.
  - subst. reflexivity.
Qed.

Lemma visit_values_fold b : forall v v', foldM (visit_attr mc) v b = Ok v' ->
  (v_comment v = true -> v_values v' = v_values v) /\
  (v_comment v = false -> forall P : dmap -> Prop, P (v_values v) ->
     (forall m d x, In d (effective b) -> reading d x -> P m -> P (mset (d_word d) x m)) -> P (v_values v')).
Proof.
  induction b as [|a b IH]; intros v v' E; [inv E; auto|].
  cbn [foldM] in E. unfold bind in E. destruct (visit_attr mc v a) as [v1|] eqn:E1; [|discriminate].
  destruct (IH v1 v' E) as [IC IN]. destruct a as [d|w t|w t]; cbn [visit_attr effective] in *.
  - destruct (String.eqb (d_word d) "/") eqn:W.
    + assert (v1 = with_comment true v) by (unfold visit_decimal in E1; rewrite W in E1; inv E1; reflexivity). subst v1.
      rewrite (IC eq_refl). split; auto.
    + split; intros C.
      * assert (v1 = v) by (unfold visit_decimal in E1; rewrite W, C in E1; inv E1; reflexivity). subst v1. auto.
      * apply String.eqb_neq in W. intros P P0 PS. apply (IN (visit_flag d v v1 W C E1)).
        -- destruct (visit_values d v v1 W C E1) as [->|[x [R ->]]]; [exact P0|]. apply PS; [left; reflexivity|exact R|exact P0].
        -- intros m d0 x I. apply PS. right. exact I.
  - inv E1. rewrite (codes_other v_comment) in IC, IN by reflexivity. rewrite (codes_other v_values) in IC, IN by reflexivity. auto.
  - inv E1. auto.
Qed.

Lemma found_value w b v : is_param mc w = true -> foldM (visit_attr mc) found_init b = Ok v -> block_value w b (assoc w (v_values v)).
Proof.
  intros PW E.
  assert (G : forall b v v', foldM (visit_attr mc) v b = Ok v' -> v_comment v = false ->
    (assoc w (v_values v') = assoc w (v_values v) /\ block_value w b None) \/
    (exists x, assoc w (v_values v') = Some x /\ block_value w b (Some x))).
  { clear b v E. induction b as [|a b IH]; intros v v' E C; [inv E; left; split; [reflexivity|intros d []]|].
    cbn [foldM] in E. unfold bind in E. destruct (visit_attr mc v a) as [v1|] eqn:E1; [|discriminate].
    destruct a as [d|w0 t|w0 t]; cbn [visit_attr] in E1.
    - destruct (String.eqb (d_word d) "/") eqn:W.
      + assert (v1 = with_comment true v) by (unfold visit_decimal in E1; rewrite W in E1; inv E1; reflexivity). subst v1.
        destruct (visit_values_fold b _ _ E) as [H _]. rewrite (H eq_refl). left. split; [reflexivity|].
        unfold block_value, words. cbn [effective]. rewrite W. intros d0 [].
      + unfold block_value, words. cbn [effective]. rewrite W. cbn [filter].
        pose proof W as W'. apply String.eqb_neq in W'. pose proof (visit_flag d v v1 W' C E1) as C1.
        destruct (String.eqb (d_word d) w) eqn:DW.
        * apply String.eqb_eq in DW. apply visit_cases in E1; [|exact W'|exact C].
          destruct E1 as [[_ [_ H]]|[H _]]; [|rewrite DW, PW in H; discriminate].
          destruct (IH v1 v' E C1) as [[A B]|[x [A [l1 [d0 [l2 [B1 B2]]]]]]].
          -- destruct H as [[H1 [H2 H3]]|[x [H1 H2]]].
             ++ left. rewrite A, H3. split; [reflexivity|]. intros d0 [<-|I]; [auto|apply B, I].
             ++ right. exists x. rewrite A, H2, assoc_mset, DW, String.eqb_refl. split; [reflexivity|].
                exists [], d, (filter (fun d => String.eqb (d_word d) w) (effective b)). split; [reflexivity|]. split; [exact H1|exact B].
          -- right. exists x. split; [exact A|]. exists (d :: l1)%list, d0, l2. split; [cbn; unfold words in B1; rewrite B1; reflexivity|exact B2].
        * assert (V : assoc w (v_values v1) = assoc w (v_values v)).
          { destruct (visit_values d v v1 W' C E1) as [->|[x [_ ->]]]; [reflexivity|]. rewrite assoc_mset, String.eqb_sym, DW. reflexivity. }
          rewrite <- V. apply (IH v1 v' E C1).
    - inv E1. assert (CC : v_comment (service_codes mc w0 t v) = false) by (rewrite (codes_other v_comment) by reflexivity; exact C).
      destruct (IH _ v' E CC) as [[A B]|H]; [left; split; [|exact B]|right; exact H].
      rewrite A, (codes_other v_values) by reflexivity. reflexivity.
    - inv E1. apply (IH v1 v' E C). }
  destruct (G b found_init v E eq_refl) as [[-> H]|[x [-> H]]]; exact H.
Qed.

Lemma found_tool_some v : found_tool v <> None <-> v_tools v <> [].
Proof.
  unfold found_tool. destruct (v_tools v) as [|t l] eqn:T; [destruct (v_m6 v); cbn; tauto|].
  split; [discriminate|]. intros _. destruct (v_m6 v); [discriminate|].
  destruct (rev (t :: l)) eqn:R; [|discriminate]. apply (f_equal (@rev string)) in R. rewrite rev_involutive in R. discriminate.
Qed.

End Visit.
