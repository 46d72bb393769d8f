(** Totals of path and time. *)
From Verif Require Import Model.Base Model.Attr Model.Double Model.Macro Model.Verifiers Model.Splitter Model.PathGeom
  Model.PathCalc Spec.SplitSpec Spec.PathSpec Proofs.Tactics Proofs.PathFrame.

Lemma copy_books {T} (f : calc -> T) g prog other vs c :
  (forall p r, f (set_positions p r c) = f c) -> f (copy_on_return g prog other vs c) = f c.
Proof. intros H. unfold copy_on_return. destruct (fold_left _ _ _) as [p r]. apply H. Qed.

Section Totals.
Variables atan log cabs : dbl -> dbl.
Variable stale : Z.
Variable mc : machine.

Definition ways (c : calc) := (p_total (c_path c), moved c).

Lemma service_ways v : keeps ways (service_times mc v).
Proof. unfold service_times, exchange_times, add_time. keeps. Qed.

Lemma tool_ways v t : keeps ways (tool_change mc v t).
Proof.
  unfold tool_change, exchange_times, add_time. keeps.
  - apply keeps_upd; intros c. destruct (String.eqb (c_tool c) ""); reflexivity.
  - apply keeps_upd; intros c. apply copy_books; reflexivity.
Qed.

Lemma dwell_ways v : keeps ways (dwell v).
Proof. unfold dwell. keeps. Qed.

Lemma start_ways v : keeps ways (start_modes mc v).
Proof. unfold start_modes. keeps. apply keeps_upd; intros c. apply copy_books; reflexivity. Qed.

(** The end of a block with a motion: 1287-1354. *)
Definition finish (inch : bool) (v : found) (m : modes) (g : Z) : M unit :=
  upd (set_modes (m_f m) (m_s m) g (m_plane m) (m_return m) (m_prog m) (m_css m) (m_feed m)) ;;;
  upd (add_up mc m inch) ;;;
  check_feeds mc m ;;;
  upd (fun c =>
    if to_exchange mc v then copy_on_return (c_g c) stale (v_other v) (mc_exchange_point mc) c
    else if to_base v then copy_on_return (c_g c) stale (v_other v) (mc_base_point mc) c
    else copy_on_return (c_g c) (c_prog c) (v_other v) (v_values v) c).

Definition opening (v : found) : M unit :=
  service_times mc v ;;;
  match found_tool v with Some t => tool_change mc v t | None => ret tt end ;;;
  dwell v ;;;
  start_modes mc v.

Lemma bind_eq {A B} (m : M A) (k : A -> M B) c c1 r : m c = (c1, r) ->
  mbind m k c = match r with Go a => k a c1 | Return => (c1, Return) | Throw e => (c1, Throw e) end.
Proof. unfold mbind. intros ->. destruct r; reflexivity. Qed.

Lemma bind_assoc {A B C} (m : M A) (k : A -> M B) (h : B -> M C) c :
  mbind (mbind m k) h c = mbind m (fun a => mbind (k a) h) c.
Proof. unfold mbind. destruct (m c) as [c1 [a| |e]]; reflexivity. Qed.

(** The three ways a block can end. *)
Lemma evaluate_cases inch v c c' r : evaluate_found atan log cabs stale mc inch v c = (c', r) ->
  (opening v c = (c', r) /\ forall a, r <> Go a) \/
  exists c1, opening v c = (c1, Go tt) /\
    ((exists r1, motion atan log cabs mc v (current_modes mc v c1) c1 = (c', r1) /\
       (r1 = Return /\ r = Return \/ exists e, r1 = Throw e /\ r = Throw e)) \/
     exists c2 g, motion atan log cabs mc v (current_modes mc v c1) c1 = (c2, Go g) /\
       finish inch v (current_modes mc v c1) g c2 = (c', r)).
Proof.
  intros E.
  assert (E2 : mbind (opening v) (fun _ => m <~ get (current_modes mc v) ;; g <~ motion atan log cabs mc v m ;; finish inch v m g) c = (c', r)).
  { rewrite <- E. unfold evaluate_found, opening, mbind.
    destruct (service_times mc v c) as [c1 [a| |e]]; try reflexivity.
    destruct (match found_tool v with Some t => tool_change mc v t | None => ret tt end c1) as [c2 [a2| |e]]; [|reflexivity|reflexivity].
    destruct (dwell v c2) as [c3 [a3| |e]]; reflexivity. }
  clear E. unfold mbind at 1 in E2. destruct (opening v c) as [c1 [[]| |e]].
  - right. exists c1. split; [reflexivity|]. unfold mbind, get in E2.
    destruct (motion atan log cabs mc v (current_modes mc v c1) c1) as [c2 [g| |e]].
    + right. exists c2, g. auto.
    + left. exists Return. injection E2 as <- <-. split; [reflexivity|left; split; reflexivity].
    + left. exists (Throw e). injection E2 as <- <-. split; [reflexivity|right; exists e; split; reflexivity].
  - left. injection E2 as <- <-. split; [reflexivity|discriminate].
  - left. injection E2 as <- <-. split; [reflexivity|discriminate].
Qed.

Lemma opening_ways v : keeps ways (opening v).
Proof.
  unfold opening. keeps; [apply service_ways|apply tool_ways|apply dwell_ways|apply start_ways].
Qed.

Lemma check_keeps {T} (f : calc -> T) m : keeps f (check_feeds mc m).
Proof. unfold check_feeds. keeps. Qed.

(** What the end of the block leaves. *)
Lemma finish_spec inch v m g c c' r : finish inch v m g c = (c', r) ->
  exists c1, c1 = add_up mc m inch (set_modes (m_f m) (m_s m) g (m_plane m) (m_return m) (m_prog m) (m_css m) (m_feed m) c) /\
    ((c' = c1 /\ exists e, r = Throw e) \/
     (r = Go tt /\ c' = if to_exchange mc v then copy_on_return (c_g c1) stale (v_other v) (mc_exchange_point mc) c1
                        else if to_base v then copy_on_return (c_g c1) stale (v_other v) (mc_base_point mc) c1
                        else copy_on_return (c_g c1) (c_prog c1) (v_other v) (v_values v) c1)).
Proof.
  intros E. unfold finish in E. unfold mbind at 1 2, upd at 1 2 in E.
  eexists. split; [reflexivity|]. set (c1 := add_up _ _ _ _) in *.
  unfold mbind in E. pose proof (check_keeps (fun c => c) m c1) as K.
  destruct (check_feeds mc m c1) as [c2 [[]| |e]] eqn:EC; cbn [fst] in K; subst c2.
  - right. injection E as <- <-. split; reflexivity.
  - exfalso. unfold check_feeds, mbind, get, throw, ret in EC. bdestr; discriminate.
  - left. injection E as <- <-. split; [reflexivity|exists e; reflexivity].
Qed.

Lemma finish_ways inch v m g c c' r : finish inch v m g c = (c', r) ->
  moved c' = moved c /\ p_total (c_path c') = dadd (p_total (c_path c)) (block_path c').
Proof.
  intros E. apply finish_spec in E as [c1 [E1 E2]].
  assert (H : moved c1 = moved c /\ p_total (c_path c1) = dadd (p_total (c_path c)) (block_path c1)) by (subst c1; split; reflexivity).
  clear E1. destruct E2 as [[-> _]|[_ ->]]; [exact H|].
  destruct (to_exchange mc v), (to_base v); (split; [rewrite (copy_books moved); [apply H|reflexivity]|]);
    (rewrite (copy_books (fun c => p_total (c_path c))), (copy_books block_path); [apply H|reflexivity|reflexivity]).
Qed.

Lemma books_total c c' : books c' = books c -> p_total (c_path c') = p_total (c_path c).
Proof. intros H. unfold books in H. congruence. Qed.

Definition sound_result {A} (r : ctl A) : Prop := match r with Throw e => proper e | _ => True end.

Lemma evaluate_ways inch v c c' r : evaluate_found atan log cabs stale mc inch v c = (c', r) -> sound_result r ->
  (p_total (c_path c') = p_total (c_path c) /\ moved c' = moved c) \/
  p_total (c_path c') = dadd (p_total (c_path c)) (block_path c').
Proof.
  intros E S.
  assert (K : forall c1 r1, opening v c = (c1, r1) -> p_total (c_path c1) = p_total (c_path c) /\ moved c1 = moved c).
  { intros c1 r1 EO. pose proof (opening_ways v c) as K. rewrite EO in K. cbn [fst] in K.
    split; [exact (f_equal fst K)|exact (f_equal snd K)]. }
  apply evaluate_cases in E as [[E _]|[c1 [EO E]]]; [left; exact (K _ _ E)|].
  destruct (K _ _ EO) as [K1 K2].
  assert (B : forall c2 r2, motion atan log cabs mc v (current_modes mc v c1) c1 = (c2, r2) -> books c2 = books c1).
  { intros c2 r2 E2. pose proof (motion_books atan log cabs mc v (current_modes mc v c1) c1) as B. rewrite E2 in B. exact B. }
  destruct E as [[r1 [E R]]|[c2 [g [E EF]]]].
  - left. rewrite (books_total _ _ (B _ _ E)), K1. split; [reflexivity|]. rewrite <- K2.
    refine (motion_silent atan log cabs mc v _ _ _ _ E _).
    destruct R as [[-> ->]|[e [-> ->]]]; [exact I|exact S].
  - right. apply finish_ways in EF as [_ EF]. rewrite EF, (books_total _ _ (B _ _ E)), K1. reflexivity.
Qed.

(** ** Runs *)

Lemma same_refl x : same_number x x. Proof. left; reflexivity. Qed.

Lemma same_trans x y z : same_number x y -> same_number y z -> same_number x z.
Proof.
  intros [E|[s [t [E1 E2]]]] H; [subst; exact H|]. destruct H as [<-|[s' [t' [_ E3]]]]; right; eauto.
Qed.

Lemma same_add x y z : same_number x y -> same_number (dadd x z) (dadd y z).
Proof.
  intros [->|[s [t [-> ->]]]]; [apply same_refl|]. destruct z as [u|u| |u m e]; try apply same_refl.
  right. cbn. destruct (Bool.eqb s u), (Bool.eqb t u); eexists; eexists; split; reflexivity.
Qed.

Lemma same_zero x : same_number x (dadd x dzero).
Proof.
  destruct x as [u|u| |u m e]; try apply same_refl. right. cbn. destruct (Bool.eqb u false); eexists; eexists; split; reflexivity.
Qed.

Lemma final_cons c x rs : final c (x :: rs) = final (fst x) rs.
Proof.
  unfold final. cbn [map]. generalize (fst x). clear. intros a. revert a c. induction (map fst rs) as [|b l IH]; intros a c; [reflexivity|].
  change (last (b :: l) c = last (b :: l) a). rewrite (IH b c), (IH b a). reflexivity.
Qed.

Lemma after_ways s c : forall c' e, after atan log cabs stale mc s c = (c', e) ->
  ~ unset_in_helix e -> ~ undefined_behaviour e ->
  (p_total (c_path c') = p_total (c_path c) /\ block_path c' = dzero) \/
  p_total (c_path c') = dadd (p_total (c_path c)) (block_path c').
Proof.
  intros c' e E H1 H2. unfold after, evaluate in E. destruct (s_block s) as [|a b]; [injection E as <- <-; left; split; reflexivity|].
  destruct (foldM (visit_attr mc) found_init (a :: b)) as [v|x]; [|injection E as <- <-; left; split; reflexivity].
  destruct (evaluate_found atan log cabs stale mc (s_inch s) v (no_motion c)) as [c1 r] eqn:EE. injection E as -> <-.
  apply evaluate_ways in EE as [[E1 E2]|E1].
  - left. split; [exact E1|]. unfold block_path. unfold moved in E2. injection E2 as -> ->. reflexivity.
  - right. exact E1.
  - destruct r; cbn; auto. split.
    + intros w ->. apply H2. exists w; reflexivity.
    + intros l ->. apply H1. exists l; reflexivity.
Qed.

Lemma run_ways l : forall c t0, same_number (p_total (c_path c)) t0 ->
  (forall r, In r (run atan log cabs stale mc c l) -> ~ unset_in_helix (snd r) /\ ~ undefined_behaviour (snd r)) ->
  same_number (p_total (c_path (final c (run atan log cabs stale mc c l))))
              (fold_left dadd (map (fun r => block_path (fst r)) (run atan log cabs stale mc c l)) t0).
Proof.
  induction l as [|s l IH]; intros c t0 E H; [exact E|].
  cbn [run] in *. rewrite final_cons. cbn [map fold_left].
  destruct (after atan log cabs stale mc s c) as [c' e] eqn:EA. cbn [fst] in *.
  apply IH; [|intros r I; apply H; right; exact I].
  destruct (H (c', e) (or_introl eq_refl)) as [H1 H2]. cbn [snd] in *.
  destruct (after_ways s c c' e EA H1 H2) as [[E1 E2]|E1].
  - rewrite E1, E2. eapply same_trans; [exact E|]. apply same_zero.
  - rewrite E1. apply same_add, E.
Qed.

Lemma new_total : p_total (c_path (calc_new mc)) = dzero /\ forall c, p_total (c_path (calc_reset mc c)) = dzero.
Proof.
  split; [|intros c]; (unfold calc_new, calc_reset; rewrite (copy_books (fun c => p_total (c_path c))); reflexivity).
Qed.

Theorem path_total c l : fresh mc c ->
  (forall r, In r (run atan log cabs stale mc c l) -> ~ unset_in_helix (snd r) /\ ~ undefined_behaviour (snd r)) ->
  same_number (p_total (c_path (final c (run atan log cabs stale mc c l))))
              (total (map (fun r => block_path (fst r)) (run atan log cabs stale mc c l))).
Proof.
  intros F H. apply run_ways; [|exact H]. left. destruct F as [->|[c0 ->]]; apply new_total.
Qed.

(** ** Times *)

Definition exchange_list : list dbl :=
  (dz (mc_exchange_time mc) :: if mc_auto_measure mc then [dz (mc_measure_time mc)] else [])%list.

Definition dwell_list (v : found) : list dbl :=
  if existsb (fun o => String.eqb o "04" || String.eqb o "4") (v_other v)
  then (listed (assoc "X" (v_values v)) ++ listed (assoc "U" (v_values v)) ++ listed (assoc "P" (v_values v)))%list else [].

Definition service_list (v : found) : list dbl :=
  ((if negb (cd_tool_executes (mc_cnc mc)) && v_m6 v then exchange_list else []) ++
   (if negb (mc_auto_measure mc) && v_measure v then [dz (mc_measure_time mc)] else []) ++
   (if v_pallet v then [dz (mc_pallet_time mc)] else []))%list.

Definition tool_list (v : found) : list dbl :=
  if is_some (found_tool v) && cd_tool_executes (mc_cnc mc) then exchange_list else [].

Definition motion_time (c : calc) := (t_work (c_time c), t_fast (c_time c)).

Lemma service_time v c : exists c1, service_times mc v c = (c1, Go tt) /\ motion_time c1 = motion_time c /\
  t_total (c_time c1) = fold_left dadd (service_list v) (t_total (c_time c)).
Proof.
  unfold service_times, service_list, exchange_list, exchange_times, add_time, when, mbind, upd_time, upd, ret.
  destruct (negb (cd_tool_executes (mc_cnc mc)) && v_m6 v); destruct (mc_auto_measure mc); destruct (v_measure v); destruct (v_pallet v);
    cbn [negb andb app]; eexists; repeat split.
Qed.

Definition clock (c : calc) := (t_total (c_time c), motion_time c).

(** 515-533, 544-573: the parts of a tool change around the exchange. *)
Definition take_tool (v : found) (t : string) : M unit :=
  when (cd_auto_rapid (mc_cnc mc)) (upd (set_auto true)) ;;;
  upd (fun c => if String.eqb (c_tool c) "" then c
                else set_tool_maps (mset (c_tool c) (p_tool_total (c_path c)) (c_tpath c))
                                   (mset (c_tool c) (t_tool_total (c_time c)) (c_ttime c)) c) ;;;
  when (tool_taken mc v) (upd (set_tool t) ;;; (_ <~ lift (stod t) ;; ret tt)) ;;;
  upd (fun c => set_path (set_ptool (p_tool_total (c_path c)) (c_tool c) (c_path c)) c) ;;;
  upd (fun c => set_time (set_ttool (t_tool_total (c_time c)) (c_tool c) (c_time c)) c).

Definition tool_restored (v : found) : M unit :=
  upd (fun c => set_path (set_ptool (or_else (assoc (c_tool c) (c_tpath c)) dzero) (p_tool_id (c_path c)) (c_path c)) c) ;;;
  upd (fun c => set_time (set_ttool (or_else (assoc (c_tool c) (c_ttime c)) dzero) (t_tool_id (c_time c)) (c_time c)) c) ;;;
  if tool_taken mc v then ret tt
  else match named_code v with
       | Some n => throw ["TNotWithG"; z_to_string n]
       | None => upd (fun c => copy_on_return (c_g c) (c_prog c) (v_other v) (v_values v) c) ;;; stop
       end.

Lemma tool_change_parts v t c : tool_change mc v t c =
  (take_tool v t ;;; when (cd_tool_executes (mc_cnc mc)) (exchange_times mc) ;;; tool_restored v) c.
Proof.
  unfold tool_change, take_tool, tool_restored. generalize (when (cd_auto_rapid (mc_cnc mc)) (upd (set_auto true))).
  generalize (when (tool_taken mc v) (upd (set_tool t);;; (_ <~ lift (stod t);; ret tt))).
  intros w1 w2. unfold mbind. destruct (w2 c) as [c1 [a| |e]]; [|reflexivity|reflexivity].
  unfold upd. destruct (w1 _) as [c2 [a2| |e]]; reflexivity.
Qed.

Lemma take_clock v t : keeps clock (take_tool v t).
Proof. unfold take_tool. keeps. apply keeps_upd; intros c. destruct (String.eqb (c_tool c) ""); reflexivity. Qed.

Lemma restored_clock v : keeps clock (tool_restored v).
Proof. unfold tool_restored. keeps. apply keeps_upd; intros c. apply copy_books; reflexivity. Qed.

Lemma stod_fails s e : stod s = Exc e -> e = EInvalidArgument \/ e = EOutOfRange.
Proof.
  intros H. unfold stod in H. destruct (span is_space s) as [x1 s1].
  match type of H with (let '(neg, s2) := ?X in _) = _ => destruct X as [neg s2] end.
  destruct (span is_digit s2) as [ip s3]. match type of H with (let '(fp, _) := ?X in _) = _ => destruct X as [fp x] end.
  destruct (_ =? 0)%nat; [inv H; auto|]. destruct (d_of_ratio _ _ _); try destruct (_ =? 0); inv H; auto.
Qed.

Lemma take_result v t c c1 r : take_tool v t c = (c1, r) -> r = Go tt \/ early_failure (outcome r).
Proof.
  unfold take_tool. unfold when at 2. destruct (tool_taken mc v).
  - unfold mbind, upd, lift, ret. destruct (when _ _ c) as [c2 [a| |e]] eqn:EW.
    + destruct (stod t) as [x|e] eqn:ES; intros H; injection H as <- <-; [left; reflexivity|right].
      destruct (stod_fails _ _ ES) as [->| ->]; [right; left; reflexivity|left; reflexivity].
    + unfold when, upd, ret in EW. destruct (cd_auto_rapid _); discriminate.
    + unfold when, upd, ret in EW. destruct (cd_auto_rapid _); discriminate.
  - unfold when, mbind, upd, ret. destruct (cd_auto_rapid _); intros H; injection H as <- <-; left; reflexivity.
Qed.

Lemma restored_result v c c1 r : tool_restored v c = (c1, r) ->
  early_failure (outcome r) \/ (tool_taken mc v = true /\ r = Go tt) \/ (tool_taken mc v = false /\ r = Return).
Proof.
  unfold tool_restored, mbind at 1 2, upd at 1 2. destruct (tool_taken mc v).
  - intros H. injection H as <- <-. auto.
  - destruct (named_code v) as [n|].
    + intros H. injection H as <- <-. left. right. right. eexists; reflexivity.
    + intros H. injection H as <- <-. auto.
Qed.

(** A tool number: taken, or only prepared. *)
Lemma tool_time v t c c1 r : found_tool v = Some t -> tool_change mc v t c = (c1, r) ->
  motion_time c1 = motion_time c /\
  (early_failure (outcome r) \/
   (tool_taken mc v = true /\ r = Go tt /\ t_total (c_time c1) = fold_left dadd (tool_list v) (t_total (c_time c))) \/
   (tool_taken mc v = false /\ r = Return /\ t_total (c_time c1) = t_total (c_time c))).
Proof.
  intros T E. rewrite tool_change_parts in E. unfold tool_list. rewrite T. cbn [is_some andb].
  pose proof (take_clock v t c) as K. destruct (take_tool v t c) as [c2 r2] eqn:E2. cbn [fst] in K.
  rewrite (bind_eq _ _ _ _ _ E2) in E.
  destruct (take_result _ _ _ _ _ E2) as [->|F].
  2: { destruct r2; cbn in F; try (destruct F as [F|[F|[l F]]]; discriminate).
       injection E as <- <-. split; [exact (f_equal snd K)|left; exact F]. }
  assert (X : exists c3, when (cd_tool_executes (mc_cnc mc)) (exchange_times mc) c2 = (c3, Go tt) /\ motion_time c3 = motion_time c2 /\
     t_total (c_time c3) = fold_left dadd (if cd_tool_executes (mc_cnc mc) then exchange_list else []) (t_total (c_time c2))).
  { unfold when, exchange_times, exchange_list, add_time, upd_time, upd, mbind, when, ret.
    destruct (cd_tool_executes (mc_cnc mc)), (mc_auto_measure mc); eexists; repeat split. }
  destruct X as [c3 [E3 [M3 T3]]]. rewrite (bind_eq _ _ _ _ _ E3) in E.
  pose proof (restored_clock v c3) as K3. rewrite E in K3. cbn [fst] in K3.
  pose proof (f_equal snd K) as KM. pose proof (f_equal fst K) as KT. pose proof (f_equal snd K3) as KM3. pose proof (f_equal fst K3) as KT3.
  cbn [clock fst snd] in KM, KT, KM3, KT3.
  split; [rewrite KM3, M3; exact KM|].
  destruct (restored_result _ _ _ _ E) as [H|[[H ->]|[H ->]]]; [left; exact H|right; left|right; right]; (split; [exact H|split; [reflexivity|]]).
  - rewrite KT3, T3, KT. reflexivity.
  - rewrite KT3, T3, KT. unfold tool_taken in H. apply orb_false_elim in H as [-> _]. reflexivity.
Qed.

Lemma dwell_time v c : exists c1, dwell v c = (c1, Go tt) /\ motion_time c1 = motion_time c /\
  t_total (c_time c1) = fold_left dadd (dwell_list v) (t_total (c_time c)).
Proof.
  unfold dwell, dwell_list, when, mbind, upd_time, upd, ret.
  destruct (existsb _ (v_other v)); destruct (assoc "X" (v_values v)), (assoc "U" (v_values v)), (assoc "P" (v_values v));
    cbn [listed app]; eexists; repeat split.
Qed.

Lemma start_time v : keeps c_time (start_modes mc v).
Proof. unfold start_modes. keeps. apply keeps_upd; intros c. apply copy_books; reflexivity. Qed.

Lemma start_result v c c1 r : start_modes mc v c = (c1, r) -> r = Go tt \/ r = Return.
Proof.
  unfold start_modes, when, mbind, get, upd, stop, ret. bdestr; intros H; injection H as <- <-; auto.
Qed.

Definition extras (v : found) : list dbl := (service_list v ++ tool_list v ++ dwell_list v)%list.

Definition prepares (v : found) : bool := is_some (found_tool v) && negb (tool_taken mc v).

Lemma opening_time v c c1 r : opening v c = (c1, r) ->
  motion_time c1 = motion_time c /\
  (early_failure (outcome r) \/
   ((prepares v = true -> dwell_list v = []) -> t_total (c_time c1) = fold_left dadd (extras v) (t_total (c_time c)))).
Proof.
  intros E. unfold opening in E. destruct (service_time v c) as [c2 [E2 [M2 T2]]].
  rewrite (bind_eq _ _ _ _ _ E2) in E. clear E2.
  assert (D : forall c3, motion_time c3 = motion_time c -> prepares v = false ->
                t_total (c_time c3) = fold_left dadd (tool_list v) (t_total (c_time c2)) ->
                (dwell v ;;; start_modes mc v) c3 = (c1, r) ->
                motion_time c1 = motion_time c /\
                (early_failure (outcome r) \/ ((prepares v = true -> dwell_list v = []) ->
                  t_total (c_time c1) = fold_left dadd (extras v) (t_total (c_time c))))).
  { intros c3 M3 P T3 E3. destruct (dwell_time v c3) as [c4 [E4 [M4 T4]]].
    rewrite (bind_eq _ _ _ _ _ E4) in E3. pose proof (start_time v c4) as K. rewrite E3 in K. cbn [fst] in K.
    unfold motion_time at 1. rewrite K. split; [rewrite <- M3; exact M4|]. right. intros _.
    unfold extras. rewrite !fold_left_app, T4, T3, T2. reflexivity. }
  destruct (found_tool v) as [t|] eqn:FT.
  - unfold mbind at 1 in E. destruct (tool_change mc v t c2) as [c3 r3] eqn:ET.
    destruct (tool_time v t c2 c3 r3 FT ET) as [M3 H].
    destruct H as [H|[[TT [-> T3]]|[TT [-> T3]]]].
    + destruct r3; cbn in H; try (destruct H as [H|[H|[l H]]]; discriminate).
      injection E as <- <-. split; [rewrite M3, M2; reflexivity|left; exact H].
    + apply (D c3); [rewrite M3; exact M2|unfold prepares; rewrite TT; apply andb_false_r|exact T3|exact E].
    + injection E as <- <-. split; [rewrite M3; exact M2|]. right. intros H. unfold extras.
      assert (TL : tool_list v = []).
      { unfold tool_list. unfold tool_taken in TT. apply orb_false_elim in TT as [-> _]. rewrite andb_false_r. reflexivity. }
      rewrite TL, (H ltac:(unfold prepares; rewrite FT, TT; reflexivity)). rewrite T3, T2, !app_nil_r. reflexivity.
  - unfold mbind at 1, ret at 1 in E. apply (D c2); [exact M2|unfold prepares; rewrite FT; reflexivity| |exact E].
    unfold tool_list. rewrite FT. reflexivity.
Qed.

Lemma books_time c c' : books c' = books c -> c_time c' = c_time c.
Proof. intros H. unfold books in H. congruence. Qed.

Lemma finish_time inch v m g c c' r : finish inch v m g c = (c', r) ->
  t_total (c_time c') = dadd (t_total (c_time c)) (block_time c').
Proof.
  intros E. apply finish_spec in E as [c1 [E1 E2]].
  assert (H : t_total (c_time c1) = dadd (t_total (c_time c)) (block_time c1)) by (subst c1; reflexivity).
  clear E1. destruct E2 as [[-> _]|[_ ->]]; [exact H|].
  destruct (to_exchange mc v), (to_base v);
    (rewrite (copy_books (fun c => t_total (c_time c))), (copy_books block_time); [apply H|reflexivity|reflexivity]).
Qed.

Lemma evaluate_time inch v c c' r : evaluate_found atan log cabs stale mc inch v c = (c', r) ->
  early_failure (outcome r) \/
  ((prepares v = true -> dwell_list v = []) ->
   (t_total (c_time c') = fold_left dadd (extras v) (t_total (c_time c)) /\ motion_time c' = motion_time c) \/
   t_total (c_time c') = dadd (fold_left dadd (extras v) (t_total (c_time c))) (block_time c')).
Proof.
  intros E. apply evaluate_cases in E as [[E _]|[c1 [EO E]]].
  - apply opening_time in E as [M [E|E]]; [left; exact E|right; intros H; left; split; [exact (E H)|exact M]].
  - apply opening_time in EO as [M [EO|EO]]; [destruct EO as [EO|[EO|[l EO]]]; discriminate|].
    right. intros H. specialize (EO H).
    assert (B : forall c2 r2, motion atan log cabs mc v (current_modes mc v c1) c1 = (c2, r2) -> c_time c2 = c_time c1).
    { intros c2 r2 E2. pose proof (motion_books atan log cabs mc v (current_modes mc v c1) c1) as B. rewrite E2 in B.
      apply books_time, B. }
    destruct E as [[r1 [E R]]|[c2 [g [E EF]]]].
    + left. unfold motion_time at 1. rewrite (B _ _ E). split; [exact EO|exact M].
    + right. rewrite (finish_time _ _ _ _ _ _ _ EF), (B _ _ E), EO. reflexivity.
Qed.

End Totals.
