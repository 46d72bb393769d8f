(** What the settings editor writes is what the server reads. *)
From Verif Require Import Model.Base Model.Attr Model.Double Model.Verifiers Model.PathCalc Model.Enums Model.Wrapper Model.Settings Model.Editor.
From Verif Require Import Spec.Text Spec.EnumSpec Spec.SettingsSpec Spec.DoubleSpec Spec.EditorSpec.
From Verif Require Import Proofs.Tactics Proofs.StringFacts Proofs.CalcProofs Proofs.EnumProofs Proofs.DescProofs Proofs.PathVisit Proofs.PathRange Proofs.WrapperTables.
From Verif Require Import Proofs.SettingsProofs Proofs.SettingsTables Proofs.EditorNumbers Proofs.EditorFloats.
From Coq Require Import Sorting.Sorted.

Local Open Scope string_scope.
Local Open Scope Z_scope.
Local Open Scope list_scope.

(** ** Numbers *)

Lemma trim_end_parts s : exists w, s = (trim_end s ++ w)%string /\ blank w.
Proof.
  induction s as [|c s (w & E & B)]; [exists ""%string; now split|]. cbn [trim_end].
  destruct (all_chars is_space (String c s)) eqn:A; [exists (String c s); now split|].
  exists w. cbn. now rewrite <- E.
Qed.

Lemma nan_symbol_text ct s : nan_symbol ct s = true -> exists w w', blank w /\ blank w' /\ s = (w ++ "NaN" ++ w')%string.
Proof.
  intros H. assert (T : trim s = "NaN"%string) by (destruct ct; try discriminate; now apply String.eqb_eq in H).
  unfold trim in T. destruct (span is_space s) as [w r] eqn:E. cbn [snd] in T. apply span_parts in E as (-> & W & _).
  destruct (trim_end_parts r) as (w' & E & B). rewrite T in E. exists w, w'. now rewrite <- E.
Qed.

Lemma double_shown ct s v : not_nan s -> double_parse ct s = Ok v -> shown ct s v.
Proof.
  intros N E. apply number_parse_sound in E as [E|[_ E]]; [exact E|].
  apply nan_symbol_text in E as (w & w' & W & W' & E). destruct (N w w' W W' E).
Qed.

Lemma float_shown ct s v : not_nan s -> float_parse ct s = Ok v -> shown_single ct s v.
Proof.
  intros N E. apply number_parse_sound in E as [E|[_ E]]; [exact E|].
  apply nan_symbol_text in E as (w & w' & W & W' & E). destruct (N w w' W W' E).
Qed.

Lemma point_shown s : not_nan s -> shown_or_zero s (point_parse s).
Proof.
  intros N. unfold point_parse. destruct (double_parse Invariant s) as [v|x] eqn:E.
  - left. now apply double_shown.
  - right. split; [|reflexivity]. intros u H. apply (number_parse_complete to_double Invariant) in H; [|discriminate].
    unfold double_parse in E. rewrite H in E. discriminate.
Qed.

Lemma denotes_nonneg s n : denotes s n -> 0 <= n.
Proof. intros (_ & D & <-). now apply digits_nonneg. Qed.

Lemma shown_finite ct s v : shown ct s v -> finite v.
Proof.
  intros (w & sg & neg & it & ip & pt & fp & ex & e & m & w' & _ & _ & _ & _ & _ & _ & _ & D & _ & -> & I).
  apply decimal_finite; [eapply denotes_nonneg, D|exact I].
Qed.

Lemma shown_single_finite ct s v : shown_single ct s v -> finite v.
Proof.
  intros (w & sg & neg & it & ip & pt & fp & ex & e & m & w' & _ & _ & _ & _ & _ & _ & _ & D & _ & -> & I).
  apply single_rounds; [eapply denotes_nonneg, D|exact I].
Qed.

Lemma zero_finite s v : shown_or_zero s v -> finite v.
Proof. intros [H|[_ ->]]; [eapply shown_finite, H|exact Logic.I]. Qed.

Lemma int_parse_ok s n : int_parse s = Ok n -> reads_int s n.
Proof. apply value_int_ok. Qed.

Lemma reads_int_range s n : reads_int s n -> int_min <= n <= int_max.
Proof. intros (w & sg & neg & ds & m & w' & _ & _ & _ & _ & _ & _ & R). exact R. Qed.

(** ** Tables *)

Lemma table_back {A} (value : ptree -> res A) (f : A -> ptree) l : (forall k v, In (k, v) l -> value (f v) = Ok v) ->
  forall m, StronglySorted key_lt m -> exists m', read_table value (map (fun x => (fst x, f (snd x))) l) m = Ok m' /\
    StronglySorted key_lt m' /\ forall k, assoc k m' = match assoc k m with Some v => Some v | None => assoc k l end.
Proof.
  induction l as [|[k v] l IH]; intros H m S.
  - exists m. repeat split; auto. intros k. cbn. now destruct (assoc k m).
  - cbn [map fst snd read_table]. rewrite (H k v (or_introl eq_refl)). cbn [bind].
    destruct (IH (fun k' v' I => H k' v' (or_intror I)) (memplace k v m)) as (m' & E & S' & L).
    { unfold memplace. destruct (is_some _); [exact S|]. now apply mset_sorted. }
    exists m'. split; [exact E|]. split; [exact S'|]. intros k'. rewrite L. unfold memplace.
    destruct (assoc k m) as [u|] eqn:K; cbn [is_some].
    + destruct (assoc k' m) eqn:K'; [reflexivity|]. cbn [assoc]. destruct (String.eqb_spec k' k) as [->|]; [congruence|reflexivity].
    + rewrite assoc_mset. cbn [assoc]. destruct (String.eqb_spec k' k) as [->|]; [now rewrite K|reflexivity].
Qed.

Lemma assign_assoc {A} k k' (v : A) m : assoc k' (assign k v m) = if String.eqb k' k then Some v else assoc k' m.
Proof.
  induction m as [|[k0 v0] m IH]; cbn [assign assoc]; [reflexivity|].
  destruct (String.eqb_spec k k0) as [->|N]; cbn [assoc].
  - destruct (String.eqb k' k0); reflexivity.
  - rewrite IH. destruct (String.eqb_spec k' k0) as [->|]; [|reflexivity].
    destruct (String.eqb_spec k0 k) as [->|]; [now destruct N|reflexivity].
Qed.

Lemma assign_in {A} k (v : A) m : forall e, In e (assign k v m) -> e = (k, v) \/ In e m.
Proof.
  induction m as [|[k0 v0] m IH]; cbn [assign]; intros e I.
  - destruct I as [<-|[]]. now left.
  - destruct (String.eqb k k0); destruct I as [<-|I]; auto; [right; now right|right; now left|].
    destruct (IH e I); auto. right. now right.
Qed.

Lemma sorted_in {A} (m : list (string * A)) k v : StronglySorted key_lt m -> In (k, v) m -> assoc k m = Some v.
Proof.
  intros S I. apply nodup_in; [|exact I]. clear I. induction S as [|[k' v'] m S IH F]; cbn; constructor; [|exact IH].
  intros I. apply in_map_iff in I as ([k2 v2] & E & I). rewrite Forall_forall in F. apply F in I. unfold key_lt in I. cbn in E, I. subst k2.
  now rewrite ltb_irrefl in I.
Qed.

(** ** Machine options *)

Lemma extra_checked_iff k fo : extra_checked k (fo_extras fo) = true <-> has_extra k fo.
Proof.
  unfold extra_checked, has_extra. induction (fo_extras fo) as [|[k' b] l IH]; cbn [find fst].
  - split; [discriminate|]. intros (a & b & E & _). destruct a; discriminate.
  - destruct (String.eqb_spec k' k) as [->|N]; cbn [snd].
    + split.
      * intros ->. exists [], l. split; [reflexivity|intros []].
      * intros (a & c & E & I). destruct a as [|x a]; [now injection E|]. injection E as <- _. destruct I. now left.
    + rewrite IH. split; intros (a & c & E & I).
      * exists ((k', b) :: a), c. rewrite E. split; [reflexivity|]. intros [J|J]; auto.
      * destruct a as [|x a]; [injection E as E _; congruence|]. injection E as <- ->. exists a, c. split; [reflexivity|].
        intros J. apply I. now right.
Qed.

Lemma enum_parse_name {E} (name : E -> string) all s e : enum_parse name all s = Ok e -> name e = s.
Proof.
  unfold enum_parse. destruct (find _ all) eqn:F; [|discriminate]. intros H. injection H as <-. apply find_some in F as [_ F]. now apply String.eqb_eq.
Qed.

(** ** Axes *)

Lemma dict_add_ok {A} k (v : A) m m' : dict_add k v m = Ok m' -> assoc k m = None /\ m' = m ++ [(k, v)].
Proof. unfold dict_add. destruct (assoc k m); cbn; [discriminate|]. intros H. injection H as <-. auto. Qed.

Lemma read_axes_ok ct l : forall m m', read_axes ct l m = Ok m' -> NoDup (map fst m) -> NoDup (map fst m') /\
  exists l', m' = m ++ l' /\
    Forall2 (fun x y => fst x = fst y /\ float_parse ct (fst (snd x)) = Ok (fst (snd y)) /\ float_parse ct (snd (snd x)) = Ok (snd (snd y))) l l'.
Proof.
  induction l as [|[k [a b]] l IH]; intros m m' E N; cbn [read_axes] in E.
  - injection E as <-. split; [exact N|]. exists []. split; [now rewrite app_nil_r|constructor].
  - apply bind_ok in E as (x & X & E). apply bind_ok in E as (y & Y & E). apply bind_ok in E as (m1 & D & E).
    apply dict_add_ok in D as [D ->]. destruct (IH _ _ E) as (N' & l' & -> & F).
    + rewrite map_app. cbn. apply NoDup_rev in N. rewrite <- (rev_involutive (map fst m ++ [k])), rev_app_distr. apply NoDup_rev. cbn. constructor; [|exact N].
      intros I. apply in_rev in I. apply in_map_iff in I as ([k' v] & <- & I). apply in_split in I as (p & q & ->). clear -D.
      induction p as [|[k0 v0] p IHp]; cbn in D; [rewrite String.eqb_refl in D; discriminate|]. destruct (String.eqb k' k0); [discriminate|auto].
    + split; [exact N'|]. exists ((k, (x, y)) :: l'). rewrite <- app_assoc. split; [reflexivity|]. constructor; auto.
Qed.

(** ** The settings *)

Section Export.
Variable dtext : dbl -> string.
Hypothesis writes : forall d, finite d -> reads_double (dtext d) d.

Lemma number_back d : finite d -> value_double (pt_data (json_double dtext d)) = Ok d.
Proof. intros F. apply value_double_ok. destruct d; try contradiction; now apply writes. Qed.

Lemma int_back n : int_min <= n <= int_max -> value_int (pt_data (json_int n)) = Ok n.
Proof. apply int_read_back. Qed.

Lemma bool_back b : value_bool (pt_data (json_bool b)) = Ok b.
Proof. now destruct b. Qed.

Lemma double_at k t d : pt_child k t = Ok (json_double dtext d) -> finite d -> pt_double k t = Ok d.
Proof. intros C F. unfold pt_double, pt_get. rewrite C. cbn [bind]. now apply number_back. Qed.

Lemma int_at k t n : pt_child k t = Ok (json_int n) -> int_min <= n <= int_max -> pt_int k t = Ok n.
Proof. intros C R. unfold pt_int, pt_get. rewrite C. cbn [bind]. now apply int_back. Qed.

Lemma bool_at k t b : pt_child k t = Ok (json_bool b) -> pt_bool k t = Ok b.
Proof. intros C. unfold pt_bool, pt_get. rewrite C. cbn [bind]. apply bool_back. Qed.

Lemma string_at k t s : pt_child k t = Ok (leaf s) -> pt_string k t = Ok s.
Proof. intros C. unfold pt_string, pt_get. now rewrite C. Qed.

Lemma enum_at {E} (read : string -> res E) k t s e : pt_child k t = Ok (leaf s) -> setting_read read s = Ok e -> pt_enum read k t = Ok e.
Proof. intros C R. unfold pt_enum, pt_get. now rewrite C. Qed.

Lemma points_back l : (forall k v, In (k, v) l -> finite v) ->
  exists m, read_table (fun t => value_double (pt_data t)) (pt_kids (json_dict (json_double dtext) l)) [] = Ok m /\
    StronglySorted key_lt m /\ forall k, assoc k m = assoc k l.
Proof.
  intros F. destruct (table_back (fun t => value_double (pt_data t)) (json_double dtext) l) with (m := @nil (string * dbl)) as (m & E & S & L).
  - intros k v I. apply number_back. eapply F, I.
  - constructor.
  - exists m. auto.
Qed.

Lemma set_point_says x y z rest m : StronglySorted key_lt m -> (forall k, assoc k m = assoc k (set_point x y z rest)) ->
  not_nan x -> not_nan y -> not_nan z -> point_says x y z rest m.
Proof.
  intros S L X Y Z. unfold point_says, set_point in *. split; [exact S|]. rewrite !L, !assign_assoc. cbn.
  split; [eexists; split; [reflexivity|now apply point_shown]|]. split; [eexists; split; [reflexivity|now apply point_shown]|].
  split; [eexists; split; [reflexivity|now apply point_shown]|].
  intros k N. rewrite L, !assign_assoc. cbn in N.
  destruct (String.eqb_spec k "Z"); [destruct N; auto|]. destruct (String.eqb_spec k "Y"); [destruct N; auto|].
  destruct (String.eqb_spec k "X"); [destruct N; auto|]. reflexivity.
Qed.

Lemma set_point_finite x y z rest : not_nan x -> not_nan y -> not_nan z -> (forall k v, In (k, v) rest -> finite v) ->
  forall k v, In (k, v) (set_point x y z rest) -> finite v.
Proof.
  intros X Y Z F k v I. unfold set_point in I.
  apply assign_in in I as [I|I]; [injection I as -> ->; eapply zero_finite, point_shown, Z|].
  apply assign_in in I as [I|I]; [injection I as -> ->; eapply zero_finite, point_shown, Y|].
  apply assign_in in I as [I|I]; [injection I as -> ->; eapply zero_finite, point_shown, X|]. eapply F, I.
Qed.

Lemma kinematics_tree_back k root :
  (forall w r, In (w, r) (ks_axes k) -> finite (fst r) /\ finite (snd r)) -> finite (ks_work_feed k) -> finite (ks_fast_feed k) ->
  int_min <= ks_spindle k <= int_max -> int_min <= ks_warehouse k <= int_max -> int_min <= ks_exchange_time k <= int_max ->
  int_min <= ks_pallet_time k <= int_max -> int_min <= ks_measure_time k <= int_max ->
  pt_child "kinematics" root = Ok (kinematics_tree dtext k) ->
  exists m, StronglySorted key_lt m /\ (forall w, assoc w m = assoc w (ks_axes k)) /\
    read_kinematics root = Ok (mkKS m (ks_work_feed k) (ks_fast_feed k) (ks_spindle k) (ks_warehouse k) (ks_exchange_time k) (ks_pallet_time k)
      (ks_measure_time k) (ks_diameter_2x k) (ks_auto_measure k) (ks_pallet_code k) (ks_pallet_value k) (ks_measure_code k) (ks_measure_value k)).
Proof.
  intros FA FW FF R1 R2 R3 R4 R5 C.
  destruct (table_back read_axis (fun r => object [("range_min", json_double dtext (fst r)); ("range_max", json_double dtext (snd r))]) (ks_axes k))
    with (m := @nil (string * (dbl * dbl))) as (m & EM & SM & LM); [|constructor|].
  { intros w r I. apply FA in I as [A B]. unfold read_axis.
    rewrite (double_at "range_min" _ (fst r)) by (reflexivity || assumption). rewrite (double_at "range_max" _ (snd r)) by (reflexivity || assumption). now destruct r. }
  exists m. split; [exact SM|]. split; [exact LM|]. unfold read_kinematics. rewrite C. cbn [bind].
  change (pt_child "cartesian_system_axis" (kinematics_tree dtext k)) with
    (Ok (json_dict (fun r => object [("range_min", json_double dtext (fst r)); ("range_max", json_double dtext (snd r))]) (ks_axes k))).
  cbn [bind]. unfold json_dict, object at 1. cbn [pt_kids]. rewrite EM. cbn [bind].
  rewrite (double_at "max_working_feed" _ (ks_work_feed k)) by (reflexivity || assumption). rewrite (double_at "max_fast_feed" _ (ks_fast_feed k)) by (reflexivity || assumption).
  rewrite (int_at "maximum_spindle_speed" _ (ks_spindle k)) by (reflexivity || assumption). rewrite (int_at "numer_of_items_in_the_warehouse" _ (ks_warehouse k)) by (reflexivity || assumption).
  rewrite (int_at "tool_exchange_time" _ (ks_exchange_time k)) by (reflexivity || assumption). rewrite (int_at "pallet_exchange_time" _ (ks_pallet_time k)) by (reflexivity || assumption).
  rewrite (int_at "tool_measurement_time" _ (ks_measure_time k)) by (reflexivity || assumption).
  rewrite (bool_at "diameter_programming_2x" _ (ks_diameter_2x k)) by (reflexivity || assumption). rewrite (bool_at "auto_measure_after_tool_selection" _ (ks_auto_measure k)) by (reflexivity || assumption).
  reflexivity.
Qed.

Lemma cnc_tree_back c root : int_min <= cs_rotation c <= int_max -> pt_child "cnc_default_values" root = Ok (cnc_tree c) ->
  read_cnc root = Ok c.
Proof.
  intros R C. unfold read_cnc. rewrite C. cbn [bind].
  rewrite (enum_at to_motion "default_motion" _ (motion_text (cs_motion c)) (cs_motion c)) by (reflexivity || (now destruct (cs_motion c))).
  rewrite (enum_at to_work_plane "default_work_plane" _ (plane_text (cs_plane c)) (cs_plane c)) by (reflexivity || (now destruct (cs_plane c))).
  rewrite (enum_at to_driver_units "default_driver_units" _ (units_text (cs_units c)) (cs_units c)) by (reflexivity || (now destruct (cs_units c))).
  rewrite (enum_at to_programming "default_programming" _ (programming_text (cs_programming c)) (cs_programming c)) by (reflexivity || (now destruct (cs_programming c))).
  rewrite (enum_at to_feed_mode "default_feed_mode" _ (feed_text (cs_feed_mode c)) (cs_feed_mode c)) by (reflexivity || (now destruct (cs_feed_mode c))).
  rewrite (enum_at to_rotation_dir "default_rotation_direction" _ (direction_text (cs_direction c)) (cs_direction c)) by (reflexivity || (now destruct (cs_direction c))).
  rewrite (enum_at to_depth_programming "drill_cycle_z_value" _ (depth_text (cs_z c)) (cs_z c)) by (reflexivity || (now destruct (cs_z c))).
  rewrite (enum_at to_drill_return "drill_cycle_return_value" _ (return_text (cs_return c)) (cs_return c)) by (reflexivity || (now destruct (cs_return c))).
  rewrite (int_at "default_rotation" _ (cs_rotation c)) by (reflexivity || assumption).
  rewrite (bool_at "rapid_traverse_cancel_cycle" _ (cs_rapid_cancels c)) by (reflexivity || assumption). rewrite (bool_at "linear_interpolation_cancel_cycle" _ (cs_linear_cancels c)) by (reflexivity || assumption).
  rewrite (bool_at "circular_interpolation_cw_cancel_cycle" _ (cs_cw_cancels c)) by (reflexivity || assumption). rewrite (bool_at "circular_interpolation_ccw_cancel_cycle" _ (cs_ccw_cancels c)) by (reflexivity || assumption).
  rewrite (bool_at "cycle_cancel_starts_rapid_traverse" _ (cs_cancel_starts_rapid c)) by (reflexivity || assumption). rewrite (bool_at "operator_turns_on_rotation" _ (cs_operator_rotation c)) by (reflexivity || assumption).
  rewrite (bool_at "tool_number_executes_exchange" _ (cs_tool_executes c)) by (reflexivity || assumption). rewrite (bool_at "auto_rapid_traverse_after_tool_exchange" _ (cs_auto_rapid c)) by (reflexivity || assumption).
  now destruct c.
Qed.

Lemma kinematics_back ct fo k : form_kinematics ct fo = Ok k -> (forall w a b, In (w, (a, b)) (fo_axes fo) -> not_nan a /\ not_nan b) ->
  forall root, pt_child "kinematics" root = Ok (kinematics_tree dtext k) ->
  exists k', read_kinematics root = Ok k' /\ kinematics_says ct fo k'.
Proof.
  intros E NN root C. unfold form_kinematics in E.
  apply bind_ok in E as (wf & WF & E). apply bind_ok in E as (ff & FF & E). apply bind_ok in E as (sp & SP & E).
  apply bind_ok in E as (wh & WH & E). apply bind_ok in E as (te & TE & E).
  apply bind_ok in E as ([[pe pc] pv] & PA & E). apply bind_ok in E as ([[[am tm] mc] mv] & PR & E). apply bind_ok in E as (axes & AX & E).
  injection E as <-. apply read_axes_ok in AX as (ND & l & -> & F2); [|constructor]. cbn [app] in *.
  apply int_parse_ok in WF, FF, SP, WH, TE.
  assert (PE : int_min <= pe <= int_max).
  { destruct (extra_checked _ _); [|injection PA as <- <- <-; unfold int_min, int_max; lia].
    apply bind_ok in PA as (pe' & PE & PA). apply bind_ok in PA as (pc' & PC & PA). injection PA as <- <- <-.
    apply int_parse_ok in PE. eapply reads_int_range, PE. }
  assert (TM : int_min <= tm <= int_max).
  { destruct (extra_checked "cnc_probe" _); [|injection PR as <- <- <- <-; unfold int_min, int_max; lia].
    apply bind_ok in PR as (pe' & PE' & PR). apply bind_ok in PR as (pc' & PC & PR). injection PR as <- <- <- <-.
    apply int_parse_ok in PE'. eapply reads_int_range, PE'. }
  assert (SH : forall w r, In (w, r) l -> exists a b, In (w, (a, b)) (fo_axes fo) /\ shown_single ct a (fst r) /\ shown_single ct b (snd r)).
  { clear -F2 NN. intros w r I. induction F2 as [|[w1 [a1 b1]] [w2 r2] la lb (H1 & H2 & H3) F IH]; [destruct I|]. cbn in H1, H2, H3. subst w2.
    destruct I as [I|I].
    - injection I as <- <-. exists a1, b1. split; [now left|]. destruct (NN w1 a1 b1 (or_introl eq_refl)). split; now apply float_shown.
    - destruct IH as (a & b & J & K); [|exact I|exists a, b; split; [now right|exact K]]. intros w' a b J. apply (NN w'). now right. }
  assert (HS : forall w a b, In (w, (a, b)) (fo_axes fo) -> exists r, In (w, r) l /\ float_parse ct a = Ok (fst r) /\ float_parse ct b = Ok (snd r)).
  { clear -F2. intros w a b I. induction F2 as [|[w1 [a1 b1]] [w2 r2] la lb (H1 & H2 & H3) F IH]; [destruct I|]. cbn in H1, H2, H3. subst w2.
    destruct I as [I|I].
    - injection I as <- <- <-. exists r2. split; [now left|auto].
    - destruct (IH I) as (r & J & K). exists r. split; [now right|exact K]. }
  match type of C with _ = Ok (kinematics_tree dtext ?k) => destruct (kinematics_tree_back k root) as (m & SM & LM & EK) end; cbn [ks_axes ks_work_feed ks_fast_feed ks_spindle ks_warehouse
    ks_exchange_time ks_pallet_time ks_measure_time ks_diameter_2x ks_auto_measure ks_pallet_code ks_pallet_value ks_measure_code ks_measure_value] in *.
  - intros w r I. apply SH in I as (a & b & _ & A & B). split; eapply shown_single_finite; eauto.
  - eapply int_finite, reads_int_range, WF.
  - eapply int_finite, reads_int_range, FF.
  - eapply reads_int_range, SP.
  - eapply reads_int_range, WH.
  - eapply reads_int_range, TE.
  - exact PE.
  - exact TM.
  - exact C.
  - eexists. split; [exact EK|]. pose proof (extra_checked_iff "pallet_changer" fo) as XP. pose proof (extra_checked_iff "cnc_probe" fo) as XC.
    constructor; cbn [ks_axes ks_work_feed ks_fast_feed ks_spindle ks_warehouse ks_exchange_time ks_pallet_time ks_measure_time ks_diameter_2x
      ks_auto_measure ks_pallet_code ks_pallet_value ks_measure_code ks_measure_value].
    + split; [exact SM|]. assert (U : forall w r, In (w, r) m <-> In (w, r) l).
      { intros w r. assert (K : In (w, r) m <-> assoc w m = Some r).
        { split; [|apply assoc_in]. intros I. now apply sorted_in. }
        rewrite K, LM. split; [apply assoc_in|]. intros I. now apply nodup_in. }
      split; [intros w r I; apply SH; now apply U|]. intros w a b I. destruct (HS w a b I) as (r & J & A & B).
      destruct (NN w a b I) as [NA NB]. exists r. split; [now apply U|]. split; now apply float_shown.
    + exists wf. auto.
    + exists ff. auto.
    + exact SP.
    + exact WH.
    + exact TE.
    + reflexivity.
    + intros H. apply XP in H. rewrite H in PA. apply bind_ok in PA as (pe' & PE' & PA). apply bind_ok in PA as (pc' & PC & PA). injection PA as <- <- <-.
      apply int_parse_ok in PE'. split; [exact PE'|]. destruct (fo_pallet_code fo); [injection PC as <-; auto|discriminate].
    + intros H. destruct (extra_checked "pallet_changer" _); [destruct H; now apply XP|]. now injection PA as <- <- <-.
    + intros H. apply XC in H. rewrite H in PR. apply bind_ok in PR as (pe' & PE' & PR). apply bind_ok in PR as (pc' & PC & PR). injection PR as <- <- <- <-.
      apply int_parse_ok in PE'. split; [reflexivity|]. split; [exact PE'|]. destruct (fo_measure_code fo); [injection PC as <-; auto|discriminate].
    + intros H. destruct (extra_checked "cnc_probe" _); [destruct H; now apply XC|]. now injection PR as <- <- <- <-.
Qed.

Lemma cnc_says_form fo c : form_cnc fo = Ok c -> cnc_says fo c /\ int_min <= cs_rotation c <= int_max.
Proof.
  unfold form_cnc. intros E.
  apply bind_ok in E as (mo & MO & E). apply bind_ok in E as (pl & PL & E). apply bind_ok in E as (un & UN & E).
  apply bind_ok in E as (pr & PR & E). apply bind_ok in E as (fm & FM & E). apply bind_ok in E as (ro & RO & E).
  apply bind_ok in E as (rd & RD & E). apply bind_ok in E as (dz & DZ & E). apply bind_ok in E as (dr & DR & E). injection E as <-.
  apply enum_parse_name in MO, PL, UN, PR, FM, RD, DZ, DR. apply int_parse_ok in RO. cbn [cs_rotation]. split; [|eapply reads_int_range, RO].
  constructor; cbn; try reflexivity; try exact RO; subst.
  - rewrite <- MO; destruct mo; cbn; tauto.
  - rewrite <- PL; destruct pl; cbn; tauto.
  - rewrite <- UN; destruct un; cbn; tauto.
  - rewrite <- PR; destruct pr; cbn; tauto.
  - rewrite <- FM; destruct fm; cbn; tauto.
  - rewrite <- RD; destruct rd; cbn; tauto.
  - rewrite <- DZ; destruct dz; cbn; tauto.
  - rewrite <- DR; destruct dr; cbn; tauto.
Qed.

Lemma dict_child {A} k (f : A -> ptree) l v : assoc k l = Some v -> pt_child k (json_dict f l) = Ok (f v).
Proof.
  intros E. unfold pt_child, json_dict, object. cbn [pt_kids]. replace (assoc k (map _ l)) with (Some (f v)); [reflexivity|].
  symmetry. induction l as [|[k' u] l IH]; cbn in E |- *; [discriminate|]. destruct (String.eqb k k'); [now injection E as ->|auto].
Qed.

Theorem export_read ct ms base fo file md :
  export ct ms base fo = Ok file -> assoc (fo_machine fo) ms = Some md -> form_sane fo -> points_sane base ->
  exists s, settings_of (file_tree dtext file) = Ok s /\ form_says ct (md_type md) base fo s.
Proof.
  intros E M [SD SM SA SP SZ] PS. unfold export in E. rewrite M in E.
  apply bind_ok in E as (kin & K & E). apply bind_ok in E as (cnc & C & E). cbn zeta in E. apply bind_ok in E as (zero & Z & E). injection E as <-.
  assert (PX : forall t, In t [fo_exchange_x fo; fo_exchange_y fo; fo_exchange_z fo] -> not_nan t) by (intros t I; apply SP; cbn in I |- *; tauto).
  assert (PB : forall t, In t [fo_base_x fo; fo_base_y fo; fo_base_z fo] -> not_nan t) by (intros t I; apply SP; cbn in I |- *; tauto).
  clear SP.
  destruct (points_back (set_point (fo_exchange_x fo) (fo_exchange_y fo) (fo_exchange_z fo) (nf_exchange base))) as (mx & EX & SX & LX).
  { apply set_point_finite; try (apply PX; cbn; tauto). intros k v I. eapply PS. left. exact I. }
  destruct (points_back (set_point (fo_base_x fo) (fo_base_y fo) (fo_base_z fo) (nf_base base))) as (mb & EB & SB & LB).
  { apply set_point_finite; try (apply PB; cbn; tauto). intros k v I. eapply PS. right. exact I. }
  set (file := mkFile _ _ _ _ _ _ _ _ _ _ _).
  destruct (kinematics_back _ _ _ K SA (file_tree dtext file) eq_refl) as (k' & EK & KS).
  apply cnc_says_form in C as [CS R]. pose proof (cnc_tree_back cnc (file_tree dtext file) R eq_refl) as EC.
  destruct (fo_driver fo) as [p|] eqn:D; [|congruence].
  apply in_map_iff in SM as ([mn t] & E & SM). cbn [fst] in E. subst mn.
  assert (EZ : exists z, read_zero (file_tree dtext file) = Ok z /\ (match md_type md with TT_Mill =>
     shown ct (fo_zero_x fo) (zp_x z) /\ shown ct (fo_zero_y fo) (zp_y z)
    | _ => zp_x z = S754_zero false /\ zp_y z = S754_zero false end) /\ shown ct (fo_zero_z fo) (zp_z z)).
  { unfold form_zero in Z. apply bind_ok in Z as (m1 & Z1 & Z). apply bind_ok in Z as (z & ZZ & Z). injection Z as <-.
    apply double_shown in ZZ; [|apply SZ; cbn; tauto].
    assert (E1 : exists x y, assoc "X" m1 = Some x /\ assoc "Y" m1 = Some y /\ finite x /\ finite y /\
      match md_type md with TT_Mill => shown ct (fo_zero_x fo) x /\ shown ct (fo_zero_y fo) y | _ => x = S754_zero false /\ y = S754_zero false end).
    { destruct (md_type md).
      - apply bind_ok in Z1 as (x & X & Z1). apply bind_ok in Z1 as (y & Y & Z1). injection Z1 as <-.
        apply double_shown in X; [|apply SZ; cbn; tauto]. apply double_shown in Y; [|apply SZ; cbn; tauto].
        exists x, y. rewrite !assign_assoc. repeat split; auto; eapply shown_finite; eauto.
      - injection Z1 as <-. do 2 eexists. rewrite !assign_assoc. repeat split; auto.
      - injection Z1 as <-. do 2 eexists. rewrite !assign_assoc. repeat split; auto. }
    destruct E1 as (x & y & X & Y & FX & FY & T). exists (mkZP x y z). split; [|now split].
    unfold read_zero. change (pt_child "zero_point" (file_tree dtext file)) with (Ok (json_dict (json_double dtext) (assign "Z" z m1))). cbn [bind].
    rewrite (double_at "X" _ x) by (auto; apply dict_child; now rewrite assign_assoc).
    rewrite (double_at "Y" _ y) by (auto; apply dict_child; now rewrite assign_assoc).
    rewrite (double_at "Z" _ z) by (try (eapply shown_finite; eauto); apply dict_child; now rewrite assign_assoc). reflexivity. }
  destruct EZ as (z & EZ & ZXY & ZZ).
  exists (mkSettings t (md_type md) p mx mb k' cnc z). split.
  - unfold settings_of. rewrite (enum_at to_machine_tool "machine_tool" (file_tree dtext file) (fo_machine fo) t).
    2: reflexivity.
    2: { apply (agree_setting _ _ _ machine_tool_agree eq_refl). exists ""%string, (fo_machine fo), ""%string. cbn. now rewrite string_app_nil. }
    rewrite (enum_at to_tool_type "machine_tool_type" (file_tree dtext file) (type_text (md_type md)) (md_type md)) by (reflexivity || (now destruct (md_type md))).
    rewrite (enum_at to_parser_type "driver" (file_tree dtext file) (driver_text (Drv p)) p) by (reflexivity || (now destruct p)).
    cbn [bind]. unfold read_points.
    change (pt_child "machine_points_data" (file_tree dtext file)) with (Ok (object [("tool_exchange_point", json_dict (json_double dtext) (nf_exchange file));
                                   ("machine_base_point", json_dict (json_double dtext) (nf_base file))])).
    cbn [bind]. change (pt_child "tool_exchange_point" (object (("tool_exchange_point", ?x) :: ?l))) with (Ok x). cbn [bind].
    change (pt_child "machine_base_point" (object [?a; ("machine_base_point", ?x)])) with (Ok x).
    unfold file at 1. cbn [nf_exchange]. rewrite EX. cbn [bind]. unfold file at 1. cbn [nf_base]. rewrite EB. cbn [bind].
    rewrite EK. cbn [bind]. rewrite EC. cbn [bind]. rewrite EZ. reflexivity.
  - constructor; auto; cbn.
    + apply set_point_says; auto; apply PX; cbn; tauto.
    + apply set_point_says; auto; apply PB; cbn; tauto.
Qed.
End Export.
