(** What a configuration file says: the value of a text, the place of a value in
    the tree, and the settings, word grammars and code groups a tree describes. *)
From Verif Require Import Model.Base Model.Attr Model.Double Model.Verifiers Model.Enums Model.Settings.
From Verif Require Import Spec.Text Spec.EnumSpec Spec.VerifierSpec.
From Coq Require Import Sorting.Sorted.

(** ** Values *)

Inductive sign_text : string -> bool -> Prop :=
| sign_none : sign_text "" false
| sign_plus : sign_text "+" false
| sign_minus : sign_text "-" true.

Definition signed (neg : bool) (n : Z) : Z := if neg then - n else n.

Definition reads_int (s : string) (n : Z) : Prop :=
  exists w sg neg ds m w', s = w ++ sg ++ ds ++ w' /\ blank w /\ blank w' /\ sign_text sg neg /\ denotes ds m /\
    n = signed neg m /\ int_min <= n <= int_max.

Definition reads_uint (s : string) (n : Z) : Prop :=
  exists w sg neg ds m w', s = w ++ sg ++ ds ++ w' /\ blank w /\ blank w' /\ sign_text sg neg /\ denotes ds m /\
    m < 2 ^ 32 /\ n = signed neg m mod 2 ^ 32.

(** An exponent and its value. *)
Inductive exponent : string -> Z -> Prop :=
| exp_none : exponent "" 0
| exp_some c sg neg es m : c = "e"%char \/ c = "E"%char -> sign_text sg neg -> denotes es m ->
    exponent (String c (sg ++ es)) (signed neg m).

(** The digits [ds], the last [k] of them behind the point, times ten to the
    power of [e], rounded to the nearest double; none overflows. *)
Definition decimal (neg : bool) (num e : Z) : dbl :=
  if 0 <=? e then d_of_ratio neg (num * 10 ^ e) 1 else d_of_ratio neg num (10 ^ (- e)).

Definition reads_double (s : string) (v : dbl) : Prop :=
  exists w sg neg ip pt fp ex e m w', s = w ++ sg ++ ip ++ pt ++ fp ++ ex ++ w' /\ blank w /\ blank w' /\
    sign_text sg neg /\ all_chars is_digit ip = true /\ all_chars is_digit fp = true /\
    (pt = "." \/ pt = "" /\ fp = "") /\ denotes (ip ++ fp) m /\ exponent ex e /\
    v = decimal neg m (e - Z.of_nat (String.length fp)) /\ (forall b, v <> S754_infinity b).

(** True and false, 1 and 0; what stands in front of a word and looks like
    another number is passed over. *)
Definition bool_name (b : bool) : string := if b then "true" else "false".

Inductive reads_bool (s : string) : bool -> Prop :=
| reads_zero w sg neg ds w' : s = w ++ sg ++ ds ++ w' -> blank w -> blank w' -> sign_text sg neg -> denotes ds 0 ->
    reads_bool s false
| reads_one w sg ds w' : s = w ++ sg ++ ds ++ w' -> blank w -> blank w' -> sign_text sg false -> denotes ds 1 ->
    reads_bool s true
| reads_word b w sg neg ds w1 w' : s = w ++ sg ++ ds ++ w1 ++ bool_name b ++ w' -> blank w -> blank w1 -> blank w' ->
    sign_text sg neg -> (ds = "" \/ exists m, denotes ds m /\ m <> 0 /\ (neg = true \/ m <> 1)) ->
    reads_bool s b.

Definition reads_text (s t : string) : Prop := t = s.

Definition reads_name {E} (names : list (string * E)) (s : string) (e : E) : Prop :=
  exists w n w', s = w ++ n ++ w' /\ blank w /\ blank w' /\ In (n, e) names.

(** ** Places *)

(** [c] is the first child of [t] that is called [k]. *)
Inductive child (k : string) : ptree -> ptree -> Prop :=
| first_child d before c after : ~ In k (map fst before) -> child k (PTree d (before ++ (k, c) :: after)) c.

Definition field {A} (reads : string -> A -> Prop) (k : string) (t : ptree) (v : A) : Prop :=
  exists c, child k t c /\ reads (pt_data c) v.

(** [m] is the table of the children of [t], ordered by their names; every child
    has to be readable and the first of a name counts. *)
Definition table {A} (reads : ptree -> A -> Prop) (t : ptree) (m : list (string * A)) : Prop :=
  StronglySorted (fun a b => String.ltb (fst a) (fst b) = true) m /\
  (forall k c, In (k, c) (pt_kids t) -> exists v, reads c v) /\
  forall k v, In (k, v) m <-> exists c, child k t c /\ reads c v.

(** ** Code groups: nclangsrv/CodeGroupsReader.cpp, conf/*/gcode_groups.json. *)

(** The file gives the code to the group. *)
Definition gives_code (root : ptree) (g : string) (c : cgv) : Prop :=
  exists gs arr n x, child "groups" root gs /\ In (g, arr) (pt_kids gs) /\ In (n, x) (pt_kids arr) /\
    field reads_uint "code" x (cg_code c) /\ field reads_uint "rest" x (cg_rest c).

Definition groups_readable (root : ptree) : Prop :=
  exists gs, child "groups" root gs /\
    forall g arr n x, In (g, arr) (pt_kids gs) -> In (n, x) (pt_kids arr) ->
      exists a b, field reads_uint "code" x a /\ field reads_uint "rest" x b.

(** ** Word grammar: conf/*/grammar.json. *)

Definition word_described (t : ptree) (g : word_grammar) : Prop :=
  field reads_text "word" t (g_word g) /\
  field reads_int "range_from" t (g_from g) /\ field reads_int "range_to" t (g_to g) /\
  field reads_uint "decimal_from" t (g_dfrom g) /\ field reads_uint "decimal_to" t (g_dto g) /\
  field reads_bool "unique" t (g_unique g) /\ field (reads_name word_types) "type" t (g_type g).

(** [c] is the last child of [t] that is called [k]. *)
Inductive last_child (k : string) : ptree -> ptree -> Prop :=
| is_last d before c after : ~ In k (map fst after) -> last_child k (PTree d (before ++ (k, c) :: after)) c.

Definition unit_described (t : ptree) (m : word_map) : Prop :=
  NoDup (map fst m) /\ (forall k c, In (k, c) (pt_kids t) -> exists g, word_described c g) /\
  forall w g, In (w, g) m <-> exists c, last_child w t c /\ word_described c g.

Definition grammar_described (root : ptree) (metric imperial : word_map) (ops : list string) : Prop :=
  exists tm ti top, child "metric" root tm /\ child "imperial" root ti /\ child "operations" root top /\
    unit_described tm metric /\ unit_described ti imperial /\ ops = map (fun x => pt_data (snd x)) (pt_kids top).

(** What has to be readable in the file of the grammar. *)
Definition grammar_readable (root : ptree) : Prop :=
  (forall u, u = "metric" \/ u = "imperial" ->
    exists t, child u root t /\ forall k c, In (k, c) (pt_kids t) -> exists g, word_described c g) /\
  exists top, child "operations" root top.

(** ** Settings: conf/nc_settings.json, "machine_tools". *)

Definition axis_described (t : ptree) (r : dbl * dbl) : Prop :=
  field reads_double "range_min" t (fst r) /\ field reads_double "range_max" t (snd r).

Definition point_described (t : ptree) (v : dbl) : Prop := reads_double (pt_data t) v.

Definition kinematics_described (t : ptree) (k : kin_settings) : Prop :=
  (exists c, child "cartesian_system_axis" t c /\ table axis_described c (ks_axes k)) /\
  field reads_double "max_working_feed" t (ks_work_feed k) /\
  field reads_double "max_fast_feed" t (ks_fast_feed k) /\
  field reads_int "maximum_spindle_speed" t (ks_spindle k) /\
  field reads_int "numer_of_items_in_the_warehouse" t (ks_warehouse k) /\
  field reads_int "tool_exchange_time" t (ks_exchange_time k) /\
  field reads_int "pallet_exchange_time" t (ks_pallet_time k) /\
  field reads_int "tool_measurement_time" t (ks_measure_time k) /\
  field reads_bool "diameter_programming_2x" t (ks_diameter_2x k) /\
  field reads_bool "auto_measure_after_tool_selection" t (ks_auto_measure k) /\
  field reads_text "pallet_exchange_code" t (ks_pallet_code k) /\
  field reads_text "pallet_exchange_code_value" t (ks_pallet_value k) /\
  field reads_text "tool_measurement_code" t (ks_measure_code k) /\
  field reads_text "tool_measurement_code_value" t (ks_measure_value k).

Definition cnc_described (t : ptree) (c : cnc_settings) : Prop :=
  field (reads_name motions) "default_motion" t (cs_motion c) /\
  field (reads_name work_planes) "default_work_plane" t (cs_plane c) /\
  field (reads_name units) "default_driver_units" t (cs_units c) /\
  field (reads_name programmings) "default_programming" t (cs_programming c) /\
  field (reads_name feed_modes) "default_feed_mode" t (cs_feed_mode c) /\
  field (reads_name rotation_dirs) "default_rotation_direction" t (cs_direction c) /\
  field (reads_name depth_programmings) "drill_cycle_z_value" t (cs_z c) /\
  field (reads_name drill_returns) "drill_cycle_return_value" t (cs_return c) /\
  field reads_int "default_rotation" t (cs_rotation c) /\
  field reads_bool "rapid_traverse_cancel_cycle" t (cs_rapid_cancels c) /\
  field reads_bool "linear_interpolation_cancel_cycle" t (cs_linear_cancels c) /\
  field reads_bool "circular_interpolation_cw_cancel_cycle" t (cs_cw_cancels c) /\
  field reads_bool "circular_interpolation_ccw_cancel_cycle" t (cs_ccw_cancels c) /\
  field reads_bool "cycle_cancel_starts_rapid_traverse" t (cs_cancel_starts_rapid c) /\
  field reads_bool "operator_turns_on_rotation" t (cs_operator_rotation c) /\
  field reads_bool "tool_number_executes_exchange" t (cs_tool_executes c) /\
  field reads_bool "auto_rapid_traverse_after_tool_exchange" t (cs_auto_rapid c).

Definition settings_described (root : ptree) (s : settings) : Prop :=
  field (reads_name machine_tools) "machine_tool" root (se_tool s) /\
  field (reads_name tool_types) "machine_tool_type" root (se_type s) /\
  field (reads_name drivers) "driver" root (se_driver s) /\
  (exists p ex base, child "machine_points_data" root p /\
     child "tool_exchange_point" p ex /\ table point_described ex (se_exchange s) /\
     child "machine_base_point" p base /\ table point_described base (se_base s)) /\
  (exists k, child "kinematics" root k /\ kinematics_described k (se_kin s)) /\
  (exists c, child "cnc_default_values" root c /\ cnc_described c (se_cnc s)) /\
  (exists z, child "zero_point" root z /\ field reads_double "X" z (zp_x (se_zero s)) /\
     field reads_double "Y" z (zp_y (se_zero s)) /\ field reads_double "Z" z (zp_z (se_zero s))).
