(** The tables and records of the configuration files. *)
From Verif Require Import Model.Base Model.Attr Model.Double Model.Verifiers Model.PathCalc Model.Enums Model.Wrapper Model.Settings.
From Verif Require Import Spec.Text Spec.EnumSpec Spec.VerifierSpec Spec.SettingsSpec.
From Verif Require Import Proofs.Tactics Proofs.StringFacts Proofs.CalcProofs Proofs.EnumProofs Proofs.PathVisit Proofs.PathRange Proofs.WrapperTables.
From Verif Require Import Proofs.SettingsProofs.
From Coq Require Import Sorting.Sorted.

Local Open Scope string_scope.
Local Open Scope Z_scope.
Local Open Scope list_scope.

(** ** Ordered tables *)

Lemma assoc_in {A} k (v : A) m : assoc k m = Some v -> In (k, v) m.
Proof. intros E. apply assoc_split in E as (b & a & -> & _). apply in_or_app. right. now left. Qed.

Lemma in_assoc {A} k (v : A) m : NoDup (map fst m) -> In (k, v) m -> assoc k m = Some v.
Proof.
  intros N I. apply assoc_split. apply in_split in I as (b & a & ->). exists b, a. split; [reflexivity|].
  rewrite map_app in N. cbn in N. apply NoDup_remove_2 in N. intros J. apply N, in_or_app. now left.
Qed.

Lemma sorted_nodup {A} (m : list (string * A)) : StronglySorted key_lt m -> NoDup (map fst m).
Proof.
  induction 1 as [|[k x] m S IH F]; [constructor|]. cbn. constructor; [|exact IH].
  intros I. apply in_map_iff in I as [[k' x'] [E I]]. rewrite Forall_forall in F. apply F in I.
  unfold key_lt in I. cbn in *. subst. rewrite ltb_irrefl in I. discriminate.
Qed.

Lemma sorted_unique {A} (m : list (string * A)) : forall n, StronglySorted key_lt m -> StronglySorted key_lt n ->
  (forall e, In e m <-> In e n) -> m = n.
Proof.
  induction m as [|x m IH]; intros [|y n] Sm Sn H.
  - reflexivity.
  - exfalso. apply (proj2 (H y)). now left.
  - exfalso. apply (proj1 (H x)). now left.
  - inv Sm. inv Sn. rewrite Forall_forall in H3, H5.
    assert (x = y).
    { destruct (proj1 (H x) (or_introl eq_refl)) as [E|I]; [now symmetry|]. destruct (proj2 (H y) (or_introl eq_refl)) as [E|J]; [exact E|].
      apply H5 in I. apply H3 in J. unfold key_lt in *. pose proof (ltb_trans _ _ _ I J) as C. rewrite ltb_irrefl in C. discriminate. }
    subst y. f_equal. apply IH; [exact H2|exact H4|]. intros e. split; intros I.
    + destruct (proj1 (H e) (or_intror I)) as [<-|J]; [|exact J]. apply H3 in I. unfold key_lt in I. rewrite ltb_irrefl in I. discriminate.
    + destruct (proj2 (H e) (or_intror I)) as [<-|J]; [|exact J]. apply H5 in I. unfold key_lt in I. rewrite ltb_irrefl in I. discriminate.
Qed.

Section Table.
Context {A : Type} (value : ptree -> res A) (reads : ptree -> A -> Prop).
Hypothesis H : forall t v, value t = Ok v <-> reads t v.

Lemma read_table_spec l : forall m m', read_table value l m = Ok m' -> StronglySorted key_lt m ->
  StronglySorted key_lt m' /\ (forall k c, In (k, c) l -> exists v, value c = Ok v) /\
  forall k, assoc k m' = match assoc k m with
                         | Some v => Some v
                         | None => match assoc k l with Some c => match value c with Ok v => Some v | Exc _ => None end | None => None end
                         end.
Proof.
  induction l as [|[k0 c0] l IH]; intros m m' E S; cbn [read_table] in E.
  - injection E as <-. split; [exact S|]. split; [intros k c []|]. intros k. cbn. now destruct (assoc k m).
  - apply bind_ok in E as (v0 & V0 & E). apply IH in E.
    + destruct E as (S' & R & L). split; [exact S'|]. split.
      * intros k c [X|X]; [injection X as <- <-; eauto|eauto].
      * intros k. rewrite L. unfold memplace. cbn [assoc]. destruct (assoc k0 m) as [v1|] eqn:E0; cbn [is_some].
        -- destruct (assoc k m) eqn:E1; [reflexivity|]. destruct (String.eqb_spec k k0) as [->|]; [congruence|reflexivity].
        -- rewrite assoc_mset. destruct (String.eqb_spec k k0) as [->|]; [now rewrite E0, V0|reflexivity].
    + unfold memplace. destruct (is_some _); [exact S|]. now apply mset_sorted.
Qed.

Lemma read_table_total l : forall m, (forall k c, In (k, c) l -> exists v, value c = Ok v) -> exists m', read_table value l m = Ok m'.
Proof.
  induction l as [|[k0 c0] l IH]; intros m R; cbn [read_table]; [eauto|].
  destruct (R k0 c0 (or_introl eq_refl)) as [v ->]. cbn [bind]. apply IH. intros k c I. apply (R k c). now right.
Qed.

Lemma assoc_child k t c : assoc k (pt_kids t) = Some c <-> child k t c.
Proof. rewrite <- pt_child_ok. unfold pt_child. destruct (assoc k (pt_kids t)); split; intros E; try discriminate; try (injection E as <-; reflexivity). Qed.

Lemma read_table_sound t m : read_table value (pt_kids t) [] = Ok m -> table reads t m.
Proof.
  intros E. apply read_table_spec in E; [|constructor]. destruct E as (S & R & L). split; [exact S|]. split.
  - intros k c I. destruct (R k c I) as [v V]. exists v. now apply H.
  - intros k v. split.
    + intros I. apply in_assoc in I; [|now apply sorted_nodup]. rewrite L in I. cbn in I.
      destruct (assoc k (pt_kids t)) as [c|] eqn:C; [|discriminate]. destruct (value c) as [v'|] eqn:V; [|discriminate]. injection I as ->.
      exists c. split; [now apply assoc_child|now apply H].
    + intros (c & C & V). apply assoc_in. rewrite L. cbn. apply assoc_child in C. rewrite C. apply H in V. now rewrite V.
Qed.

Lemma read_table_ok t m : read_table value (pt_kids t) [] = Ok m <-> table reads t m.
Proof.
  split; [apply read_table_sound|]. intros T. destruct (read_table_total (pt_kids t) []) as [m' E].
  - intros k c I. destruct T as (_ & R & _). destruct (R k c I) as [v V]. exists v. now apply H.
  - rewrite E. f_equal. apply read_table_sound in E. destruct E as (S & _ & L). destruct T as (S' & _ & L').
    apply sorted_unique; [exact S|exact S'|]. intros [k v]. rewrite L, L'. reflexivity.
Qed.
End Table.

(** ** Settings *)

Ltac binds :=
  repeat match goal with
  | H : bind _ _ = Ok _ |- _ => apply bind_ok in H; destruct H as (? & ? & H)
  end.

Ltac steps :=
  repeat match goal with
  | H : ?x = Ok ?v |- context [bind ?x ?f] => rewrite H; change (bind (Ok v) f) with (f v); cbv beta
  end.

Lemma read_axis_ok t r : read_axis t = Ok r <-> axis_described t r.
Proof.
  unfold read_axis, axis_described. rewrite <- !pt_double_ok. split.
  - intros E. binds. injection E as <-. auto.
  - intros [E F]. steps. now destruct r.
Qed.

Lemma read_kinematics_ok root k : read_kinematics root = Ok k <-> exists t, child "kinematics" root t /\ kinematics_described t k.
Proof.
  unfold kinematics_described. split.
  - unfold read_kinematics. intros E. apply bind_ok in E as (t & T & E). exists t. split; [now apply pt_child_ok|].
    rewrite <- !pt_double_ok, <- !pt_int_ok, <- !pt_bool_ok, <- !pt_string_ok. binds. injection E as <-. cbn [ks_axes ks_work_feed ks_fast_feed
      ks_spindle ks_warehouse ks_exchange_time ks_pallet_time ks_measure_time ks_diameter_2x ks_auto_measure ks_pallet_code ks_pallet_value
      ks_measure_code ks_measure_value].
    split; [|repeat split; assumption]. eexists. split; [apply pt_child_ok; eassumption|]. eapply read_table_ok; [exact read_axis_ok|eassumption].
  - intros (t & T & (c & C & A) & R). rewrite <- !pt_double_ok, <- !pt_int_ok, <- !pt_bool_ok, <- !pt_string_ok in R.
    apply pt_child_ok in T, C. apply (read_table_ok read_axis axis_described read_axis_ok) in A. unfold read_kinematics.
    repeat match goal with X : _ /\ _ |- _ => destruct X end. steps. now destruct k.
Qed.

Lemma read_cnc_ok root k : read_cnc root = Ok k <-> exists t, child "cnc_default_values" root t /\ cnc_described t k.
Proof.
  unfold cnc_described. split.
  - unfold read_cnc. intros E. apply bind_ok in E as (t & T & E). exists t. split; [now apply pt_child_ok|].
    rewrite <- (pt_enum_ok _ _ _ motion_agree eq_refl), <- (pt_enum_ok _ _ _ work_plane_agree eq_refl),
      <- (pt_enum_ok _ _ _ driver_units_agree eq_refl), <- (pt_enum_ok _ _ _ programming_agree eq_refl),
      <- (pt_enum_ok _ _ _ feed_mode_agree eq_refl), <- pt_rotation_ok, <- (pt_enum_ok _ _ _ depth_agree eq_refl),
      <- (pt_enum_ok _ _ _ drill_return_agree eq_refl), <- !pt_int_ok, <- !pt_bool_ok.
    binds. injection E as <-.
    cbn [cs_motion cs_plane cs_units cs_programming cs_feed_mode cs_direction cs_z cs_return cs_rotation cs_rapid_cancels cs_linear_cancels
      cs_cw_cancels cs_ccw_cancels cs_cancel_starts_rapid cs_operator_rotation cs_tool_executes cs_auto_rapid].
    repeat split; assumption.
  - intros (t & T & R). apply pt_child_ok in T.
    rewrite <- (pt_enum_ok _ _ _ motion_agree eq_refl), <- (pt_enum_ok _ _ _ work_plane_agree eq_refl),
      <- (pt_enum_ok _ _ _ driver_units_agree eq_refl), <- (pt_enum_ok _ _ _ programming_agree eq_refl),
      <- (pt_enum_ok _ _ _ feed_mode_agree eq_refl), <- pt_rotation_ok, <- (pt_enum_ok _ _ _ depth_agree eq_refl),
      <- (pt_enum_ok _ _ _ drill_return_agree eq_refl), <- !pt_int_ok, <- !pt_bool_ok in R.
    unfold read_cnc. repeat match goal with X : _ /\ _ |- _ => destruct X end. steps. now destruct k.
Qed.

Lemma read_points_ok root a b : read_points root = Ok (a, b) <->
  exists p ex base, child "machine_points_data" root p /\ child "tool_exchange_point" p ex /\ table point_described ex a /\
     child "machine_base_point" p base /\ table point_described base b.
Proof.
  assert (P : forall t v, value_double (pt_data t) = Ok v <-> point_described t v) by (intros; apply value_double_ok).
  unfold read_points. split.
  - intros E. binds. injection E as <- <-. do 3 eexists. do 2 (split; [apply pt_child_ok; eassumption|]).
    split; [eapply read_table_ok; [exact P|eassumption]|]. split; [apply pt_child_ok; eassumption|].
    eapply read_table_ok; [exact P|eassumption].
  - intros (p & ex & base & C1 & C2 & T1 & C3 & T2). apply pt_child_ok in C1, C2, C3.
    apply (read_table_ok _ _ P) in T1, T2. steps. reflexivity.
Qed.

Lemma read_zero_ok root zp : read_zero root = Ok zp <->
  exists z, child "zero_point" root z /\ field reads_double "X" z (zp_x zp) /\ field reads_double "Y" z (zp_y zp) /\ field reads_double "Z" z (zp_z zp).
Proof.
  unfold read_zero. setoid_rewrite <- pt_double_ok. setoid_rewrite <- pt_child_ok. split.
  - intros E. binds. injection E as <-. eexists. repeat split; eassumption.
  - intros (z & C & X & Y & Z). steps. now destruct zp.
Qed.

Lemma settings_of_ok root s : settings_of root = Ok s <-> settings_described root s.
Proof.
  unfold settings_described.
  rewrite <- (pt_enum_ok _ _ _ machine_tool_agree eq_refl), <- (pt_enum_ok _ _ _ tool_type_agree eq_refl),
    <- (pt_enum_ok _ _ _ parser_type_agree eq_refl), <- read_points_ok, <- read_kinematics_ok, <- read_cnc_ok, <- read_zero_ok.
  unfold settings_of. split.
  - intros E. binds. injection E as <-. cbn [se_tool se_type se_driver se_exchange se_base se_kin se_cnc se_zero].
    repeat split; try assumption. match goal with X : read_points _ = Ok ?p |- _ => now destruct p end.
  - intros (? & ? & ? & ? & ? & ? & ?). steps. now destruct s.
Qed.

(** ** Code groups *)

Lemma read_code_ok x c : (do a <- pt_uint "code" x; do b <- pt_uint "rest" x; Ok (mkCgv a b)) = Ok c <->
  field reads_uint "code" x (cg_code c) /\ field reads_uint "rest" x (cg_rest c).
Proof.
  rewrite <- !pt_uint_ok. split.
  - intros E. binds. injection E as <-. auto.
  - intros [E F]. steps. now destruct c.
Qed.

Definition code_read (x : ptree) : Prop := exists c, field reads_uint "code" x (cg_code c) /\ field reads_uint "rest" x (cg_rest c).

Lemma read_codes_spec g l : forall m m' ok, read_codes g l m = (m', ok) -> groups_sorted m ->
  groups_sorted m' /\ (ok = true <-> forall n x, In (n, x) l -> code_read x) /\
  (ok = true -> forall c g', in_group m' c g' <-> in_group m c g' \/ (g' = g /\ exists n x, In (n, x) l /\
     field reads_uint "code" x (cg_code c) /\ field reads_uint "rest" x (cg_rest c))).
Proof.
  induction l as [|[n0 x0] l IH]; intros m m' ok E S; cbn [read_codes] in E.
  - injection E as <- <-. split; [exact S|]. split; [split; [intros _ n x []|reflexivity]|].
    intros _ c g'. split; [auto|]. intros [I|(_ & n & x & [] & _)]. exact I.
  - destruct (do a <- _; _) as [c0|e] eqn:C.
    + apply read_code_ok in C. destruct (add_group_spec c0 g m S) as (S1 & _ & G). apply IH in E; [|exact S1].
      destruct E as (S' & R & L). split; [exact S'|]. split.
      * rewrite R. split; [intros H n x [X|X]; [injection X as <- <-; now exists c0|eauto]|intros H n x X; apply (H n x); now right].
      * intros T c g'. rewrite (L T), G. split.
        -- intros [[[-> ->]|I]|(-> & n & x & I & F)]; [right|auto|right].
           ++ split; [reflexivity|]. exists n0, x0. split; [now left|exact C].
           ++ split; [reflexivity|]. exists n, x. split; [now right|exact F].
        -- intros [I|(-> & n & x & [X|X] & F)]; [auto| |right; split; [reflexivity|]; eauto].
           injection X as <- <-. left. left. split; [|reflexivity]. apply read_code_ok in F. apply read_code_ok in C. congruence.
    + injection E as <- <-. split; [exact S|]. split; [|discriminate]. split; [discriminate|]. intros H.
      destruct (H n0 x0 (or_introl eq_refl)) as [c F]. apply read_code_ok in F. congruence.
Qed.

Lemma read_group_list_spec l : forall m m' ok, read_group_list l m = (m', ok) -> groups_sorted m ->
  groups_sorted m' /\ (ok = true <-> forall g arr n x, In (g, arr) l -> In (n, x) (pt_kids arr) -> code_read x) /\
  (ok = true -> forall c g, in_group m' c g <-> in_group m c g \/ (exists arr n x, In (g, arr) l /\ In (n, x) (pt_kids arr) /\
     field reads_uint "code" x (cg_code c) /\ field reads_uint "rest" x (cg_rest c))).
Proof.
  induction l as [|[g0 arr0] l IH]; intros m m' ok E S; cbn [read_group_list] in E.
  - injection E as <- <-. split; [exact S|]. split; [split; [intros _ g arr n x []|reflexivity]|].
    intros _ c g. split; [auto|]. intros [I|(arr & n & x & [] & _)]. exact I.
  - destruct (read_codes g0 (pt_kids arr0) m) as [m1 ok1] eqn:C. apply read_codes_spec in C; [|exact S]. destruct C as (S1 & R1 & L1).
    destruct ok1.
    + apply IH in E; [|exact S1]. destruct E as (S' & R & L). split; [exact S'|]. split.
      * rewrite R. split.
        -- intros H g arr n x [X|X] J; [injection X as <- <-; now apply (proj1 R1 eq_refl n x)|eauto].
        -- intros H g arr n x I. apply (H g arr n x). now right.
      * intros T c g. rewrite (L T), (L1 eq_refl). split.
        -- intros [[I|(-> & n & x & I & F)]|(arr & n & x & I & J & F)]; [auto|right; exists arr0, n, x; cbn; auto|right; exists arr, n, x; cbn; auto].
        -- intros [I|(arr & n & x & [X|X] & J & F)]; [auto| |right; eauto 6]. injection X as -> ->. left. right. eauto.
    + injection E as <- <-. split; [exact S1|]. split; [|discriminate]. split; [discriminate|]. intros H.
      apply R1. intros n x I. apply (H g0 arr0 n x); [now left|exact I].
Qed.

Lemma read_groups_exact f m ok : read_groups f = (m, ok) ->
  groups_ok m /\
  (ok = true <-> exists root, f = Some root /\ groups_readable root) /\
  (ok = true -> forall c g, in_group m c g <-> exists root, f = Some root /\ gives_code root g c).
Proof.
  assert (Z : groups_ok []) by (split; constructor).
  unfold read_groups. destruct f as [root|]; [|intros E; injection E as <- <-; split; [exact Z|split; [split; [discriminate|intros (? & ? & _); discriminate]|discriminate]]].
  destruct (pt_child "groups" root) as [gs|e] eqn:C.
  - intros E. apply read_group_list_spec in E; [|split; constructor]. destruct E as (S & R & L). apply pt_child_ok in C.
    assert (U : forall gs', child "groups" root gs' -> gs' = gs) by (intros gs' C'; apply pt_child_ok in C, C'; congruence).
    split; [now apply groups_sorted_ok|]. split.
    + rewrite R. split.
      * intros H. exists root. split; [reflexivity|]. exists gs. split; [exact C|]. intros g arr n x I J. destruct (H g arr n x I J) as [c [A B]]. eauto.
      * intros (r & E & gs' & C' & H) g arr n x I J. injection E as <-. apply U in C'. subst gs'. destruct (H g arr n x I J) as (a & b & A & B).
        now exists (mkCgv a b).
    + intros T c g. rewrite (L T). split.
      * intros [(gs0 & [] & _)|(arr & n & x & I & J & A & B)]. exists root. split; [reflexivity|]. exists gs, arr, n, x. auto.
      * intros (r & E & gs' & arr & n & x & C' & I & J & A & B). injection E as <-. apply U in C'. subst gs'. right. eauto 7.
  - intros E. injection E as <- <-. split; [exact Z|]. split; [|discriminate]. split; [discriminate|].
    intros (r & E & gs & C' & _). injection E as <-. apply pt_child_ok in C'. congruence.
Qed.

(** ** Word grammar *)

Lemma read_word_ok t g : read_word t = Ok g <-> word_described t g.
Proof.
  unfold word_described. rewrite <- pt_string_ok, <- !pt_int_ok, <- !pt_uint_ok, <- pt_bool_ok, <- (pt_enum_ok _ _ _ word_type_agree eq_refl).
  unfold read_word. split.
  - intros E. binds. injection E as <-. cbn [g_word g_from g_to g_dfrom g_dto g_unique g_type]. repeat split; assumption.
  - intros (? & ? & ? & ? & ? & ? & ?). steps. now destruct g.
Qed.

Lemma last_child_cons d w k c l x : last_child w (PTree d ((k, c) :: l)) x <->
  last_child w (PTree d l) x \/ (w = k /\ x = c /\ ~ In w (map fst l)).
Proof.
  split.
  - intros H. inv H. destruct before as [|[k1 c1] b]; cbn in H2; injection H2; intros; subst; [right; auto|left; now constructor].
  - intros [H|(-> & -> & N)]; [inv H; apply (is_last w d ((k, c) :: before)); assumption|apply (is_last k d []); assumption].
Qed.

Lemma read_words_spec d l : forall m m' ok, read_words l m = (m', ok) -> NoDup (map fst m) ->
  NoDup (map fst m') /\ (ok = true <-> forall k c, In (k, c) l -> exists g, word_described c g) /\
  (ok = true -> forall w g, assoc w m' = Some g <->
     (exists c, last_child w (PTree d l) c /\ word_described c g) \/ (~ In w (map fst l) /\ assoc w m = Some g)).
Proof.
  induction l as [|[k0 c0] l IH]; intros m m' ok E S; cbn [read_words] in E.
  - injection E as <- <-. split; [exact S|]. split; [split; [intros _ k c []|reflexivity]|].
    intros _ w g. split; [intros A; right; split; [intros []|exact A]|]. intros [(c & C & _)|[_ A]]; [|exact A].
    inv C. destruct before; discriminate.
  - destruct (read_word c0) as [g0|e] eqn:C.
    + pose proof (assign_keys k0 g0 m S) as [N1 _]. apply IH in E; [|exact N1]. destruct E as (S' & R & L). split; [exact S'|]. split.
      * rewrite R. split; [intros H k c [X|X]; [injection X as <- <-; exists g0; now apply read_word_ok|eauto]|intros H k c X; apply (H k c); now right].
      * intros T w g. rewrite (L T). rewrite assoc_assign. setoid_rewrite last_child_cons. cbn [map fst In]. split.
        -- intros [(c & I & D)|[N A]]; [left; exists c; auto|]. destruct (String.eqb_spec k0 w) as [<-|NE].
           ++ injection A as <-. left. exists c0. split; [right; auto|now apply read_word_ok].
           ++ right. split; [|exact A]. intros [X|X]; [congruence|contradiction].
        -- intros [(c & [I|(-> & -> & N)] & D)|[N A]]; [left; eauto| |].
           ++ right. split; [exact N|]. rewrite String.eqb_refl. apply read_word_ok in D. congruence.
           ++ right. split; [tauto|]. destruct (String.eqb_spec k0 w) as [<-|NE]; [exfalso; apply N; now left|exact A].
    + injection E as <- <-. split; [exact S|]. split; [|discriminate]. split; [discriminate|]. intros H.
      destruct (H k0 c0 (or_introl eq_refl)) as [g G]. apply read_word_ok in G. congruence.
Qed.

Lemma read_words_described t m ok : read_words (pt_kids t) [] = (m, ok) ->
  (ok = true <-> forall k c, In (k, c) (pt_kids t) -> exists g, word_described c g) /\ (ok = true -> unit_described t m).
Proof.
  destruct t as [d l]. cbn [pt_kids]. intros E. apply (read_words_spec d) in E; [|constructor]. destruct E as (N & R & L). split; [exact R|].
  intros T. split; [exact N|]. split; [now apply R|]. intros w g. split.
  - intros I. apply in_assoc in I; [|exact N]. apply (L T) in I as [I|[_ I]]; [exact I|discriminate].
  - intros I. apply assoc_in, (L T). now left.
Qed.

Lemma unit_same t m n : unit_described t m -> unit_described t n -> forall w, assoc w m = assoc w n.
Proof.
  intros (N1 & _ & L1) (N2 & _ & L2) w. destruct (assoc w m) as [g|] eqn:E.
  - symmetry. apply in_assoc; [exact N2|]. apply L2, L1, assoc_in, E.
  - destruct (assoc w n) as [g|] eqn:F; [|reflexivity]. exfalso. apply assoc_in in F. apply L2, L1 in F. apply in_assoc in F; [congruence|exact N1].
Qed.

Lemma read_unit_ok u root m ok : read_unit u root = (m, ok) ->
  (ok = true <-> exists t, child u root t /\ forall k c, In (k, c) (pt_kids t) -> exists g, word_described c g) /\
  (ok = true -> exists t, child u root t /\ unit_described t m).
Proof.
  unfold read_unit. destruct (pt_child u root) as [t|e] eqn:C.
  - intros E. apply read_words_described in E as [R D]. apply pt_child_ok in C. split.
    + rewrite R. split; [intros H; exists t; auto|]. intros (t' & C' & H). apply pt_child_ok in C, C'. rewrite C in C'. injection C' as <-. exact H.
    + intros T. exists t. auto.
  - intros E. injection E as <- <-. split; [|discriminate]. split; [discriminate|]. intros (t & C' & _). apply pt_child_ok in C'. congruence.
Qed.

Lemma read_grammar_exact f fg ops ok : read_grammar f = (fg, ops, ok) ->
  (ok = true <-> exists root, f = Some root /\ grammar_readable root) /\
  (ok = true -> exists root, f = Some root /\ grammar_described root (metric fg) (imperial fg) ops).
Proof.
  unfold read_grammar, grammar_readable. destruct f as [root|]; [|intros E; injection E as <- <- <-; split; [split; [discriminate|intros (? & ? & _); discriminate]|discriminate]].
  destruct (read_unit "metric" root) as [m okm] eqn:M. apply read_unit_ok in M as [M1 M2].
  destruct okm.
  2: { intros E. injection E as <- <- <-. split; [|discriminate]. split; [discriminate|]. intros (r & E & H & _). injection E as <-.
       apply M1, H. now left. }
  destruct (read_unit "imperial" root) as [i oki] eqn:I. apply read_unit_ok in I as [I1 I2].
  destruct oki.
  2: { intros E. injection E as <- <- <-. split; [|discriminate]. split; [discriminate|]. intros (r & E & H & _). injection E as <-.
       apply I1, H. now right. }
  destruct (pt_child "operations" root) as [top|e] eqn:O.
  - intros E. injection E as <- <- <-. apply pt_child_ok in O. split.
    + split; [|reflexivity]. intros _. exists root. split; [reflexivity|]. split; [|eauto].
      intros u [->| ->]; [now apply M1|now apply I1].
    + intros _. exists root. split; [reflexivity|]. destruct (M2 eq_refl) as (tm & A & B). destruct (I2 eq_refl) as (ti & C & D).
      exists tm, ti, top. do 5 (split; [assumption|]). reflexivity.
  - intros E. injection E as <- <- <-. split; [|discriminate]. split; [discriminate|]. intros (r & E & _ & top & C). injection E as <-.
    apply pt_child_ok in C. congruence.
Qed.

(** ** Texts that are written *)

Lemma int_read_back n : int_min <= n <= int_max -> value_int (z_to_string n) = Ok n.
Proof.
  intros R. apply value_int_ok. unfold z_to_string. destruct (n <? 0) eqn:N.
  - assert (P : 0 <= - n) by lia. destruct (nat_to_string_spec (- n) P) as (A & B & C).
    exists "", "-", true, (nat_to_string (- n)), (- n), "". rewrite string_app_nil. repeat split; auto; try constructor; unfold signed; lia.
  - assert (P : 0 <= n) by lia. destruct (nat_to_string_spec n P) as (A & B & C).
    exists "", "", false, (nat_to_string n), n, "". rewrite string_app_nil. repeat split; auto; try constructor; unfold signed; lia.
Qed.

Lemma uint_read_back n : 0 <= n < 2 ^ 32 -> value_uint (nat_to_string n) = Ok n.
Proof.
  intros R. apply value_uint_ok. destruct (nat_to_string_spec n ltac:(lia)) as (A & B & C).
  exists "", "", false, (nat_to_string n), n, "". rewrite string_app_nil. repeat split; auto; try constructor; unfold signed; try lia.
Qed.

Lemma bool_read_back b : value_bool (bool_name b) = Ok b.
Proof. now destruct b. Qed.

(** ** What the parser gets *)

Lemma settings_passed_on s :
  let m := machine_of s in let k := kinematics_of s in let c := se_cnc s in let d := mc_cnc m in
  (mc_exchange_point m, mc_base_point m) = (se_exchange s, se_base s) /\
  mc_axes m = map fst (ks_axes (se_kin s)) /\ kin_axes k = ks_axes (se_kin s) /\
  (kin_max_feed k, mc_fast_feed m, kin_max_spindle k, kin_warehouse k) =
    (ks_work_feed (se_kin s), ks_fast_feed (se_kin s), ks_spindle (se_kin s), ks_warehouse (se_kin s)) /\
  (mc_exchange_time m, mc_pallet_time m, mc_measure_time m) =
    (ks_exchange_time (se_kin s), ks_pallet_time (se_kin s), ks_measure_time (se_kin s)) /\
  (mc_diameter_2x m, mc_auto_measure m) = (ks_diameter_2x (se_kin s), ks_auto_measure (se_kin s)) /\
  (mc_pallet_code m, mc_pallet_value m, mc_measure_code m, mc_measure_value m) =
    (ks_pallet_code (se_kin s), ks_pallet_value (se_kin s), ks_measure_code (se_kin s), ks_measure_value (se_kin s)) /\
  (mc_no_y m = true <-> se_tool s = MT_lathe_zx \/ se_tool s = MT_lathe_zxc) /\
  In (se_type s, mc_type m) [(TT_Mill, MTMill); (TT_Lathe, MTLathe); (TT_Millturn, MTMillturn)] /\
  In (cs_motion c, cd_motion d) [(RapidTraverse, 0); (LinearInterpolation, 1)] /\
  In (cs_plane c, cd_plane d) [(WP_XY, 17); (WP_XZ, 18); (WP_YZ, 19)] /\
  In (cs_units c, cd_inch d) [(Millimeter, false); (Inch, true)] /\
  In (cs_programming c, cd_programming d) [(ProgAbsolute, 90); (ProgIncremental, 91)] /\
  In (cs_feed_mode c, cd_feed_mode d) [(FeedPerMinute, 94); (FeedPerRevolution, 95)] /\
  In (cs_z c, cd_z_incremental d) [(DepthAbsolute, false); (DepthIncremental, true)] /\
  In (cs_return c, cd_return d) [(Return_G98, 98); (Return_G99, 99)] /\
  cd_rotation d = cs_rotation c /\
  (cd_rapid_cancels d, cd_linear_cancels d, cd_cw_cancels d, cd_ccw_cancels d) =
    (cs_rapid_cancels c, cs_linear_cancels c, cs_cw_cancels c, cs_ccw_cancels c) /\
  (cd_cancel_starts_rapid d, cd_operator_rotation d, cd_tool_executes d, cd_auto_rapid d) =
    (cs_cancel_starts_rapid c, cs_operator_rotation c, cs_tool_executes c, cs_auto_rapid c).
Proof.
  destruct s as [tool ty dr ex ba k c z]. cbv zeta. cbn [se_tool se_type se_driver se_exchange se_base se_kin se_cnc se_zero machine_of kinematics_of
    mc_exchange_point mc_base_point mc_axes mc_fast_feed mc_exchange_time mc_pallet_time mc_measure_time mc_diameter_2x mc_auto_measure mc_pallet_code
    mc_pallet_value mc_measure_code mc_measure_value mc_cnc mc_no_y mc_type kin_axes kin_max_feed kin_max_spindle kin_warehouse cnc_of cd_motion cd_plane
    cd_inch cd_programming cd_feed_mode cd_z_incremental cd_return cd_rotation cd_rapid_cancels cd_linear_cancels cd_cw_cancels cd_ccw_cancels
    cd_cancel_starts_rapid cd_operator_rotation cd_tool_executes cd_auto_rapid].
  do 7 (split; [reflexivity|]).
  split. { destruct tool; split; intros H; try discriminate; auto; destruct H; discriminate. }
  split. { destruct ty; cbn; auto. }
  split. { destruct (cs_motion c); cbn; auto. }
  split. { destruct (cs_plane c); cbn; auto. }
  split. { destruct (cs_units c); cbn; auto. }
  split. { destruct (cs_programming c); cbn; auto. }
  split. { destruct (cs_feed_mode c); cbn; auto. }
  split. { destruct (cs_z c); cbn; auto. }
  split. { destruct (cs_return c); cbn; auto. }
  repeat split.
Qed.
