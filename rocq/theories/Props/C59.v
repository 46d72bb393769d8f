(** C59: the configuration files say what the server works with. *)
From Verif Require Import Model.Base Model.Attr Model.Double Model.Verifiers Model.PathCalc Model.Enums Model.Settings.
From Verif Require Import Spec.EnumSpec Spec.VerifierSpec Spec.SettingsSpec Proofs.SettingsProofs Proofs.SettingsTables.
Local Open Scope string_scope.
Local Open Scope Z_scope.
Local Open Scope list_scope.

(** The settings are accepted exactly when every value is in its place and can be
    read, and then the values are those of the file. *)
Theorem C59_settings : forall root s, settings_of root = Ok s <-> settings_described root s.
Proof. exact settings_of_ok. Qed.
Print Assumptions C59_settings.

(** A code is in a group exactly if the file gives it to the group; the table is
    a map of sets, as C12 asks for. *)
Theorem C59_groups : forall f m ok, read_groups f = (m, ok) ->
  groups_ok m /\
  (ok = true <-> exists root, f = Some root /\ groups_readable root) /\
  (ok = true -> forall c g, in_group m c g <-> exists root, f = Some root /\ gives_code root g c).
Proof. exact read_groups_exact. Qed.
Print Assumptions C59_groups.

(** The grammar of a word is the last one the file gives for it. *)
Theorem C59_grammar : forall f fg ops ok, read_grammar f = (fg, ops, ok) ->
  (ok = true <-> exists root, f = Some root /\ grammar_readable root) /\
  (ok = true -> exists root, f = Some root /\ grammar_described root (metric fg) (imperial fg) ops).
Proof. exact read_grammar_exact. Qed.
Print Assumptions C59_grammar.

(** The texts of numbers and truth values: exactly these are accepted. *)
Theorem C59_values : forall s,
  (forall n, value_int s = Ok n <-> reads_int s n) /\ (forall n, value_uint s = Ok n <-> reads_uint s n) /\
  (forall v, value_double s = Ok v <-> reads_double s v) /\ (forall b, value_bool s = Ok b <-> reads_bool s b).
Proof.
  intros s. exact (conj (value_int_ok s) (conj (value_uint_ok s) (conj (value_double_ok s) (value_bool_ok s)))).
Qed.
Print Assumptions C59_values.

(** What is written the usual way is read back. *)
Theorem C59_read_back :
  (forall n, int_min <= n <= int_max -> value_int (z_to_string n) = Ok n) /\
  (forall n, 0 <= n < 2 ^ 32 -> value_uint (nat_to_string n) = Ok n) /\
  (forall b, value_bool (bool_name b) = Ok b).
Proof. exact (conj int_read_back (conj uint_read_back bool_read_back)). Qed.
Print Assumptions C59_read_back.

(** The parser gets each value in its place, enumerations as the numbers of the
    G codes that stand for them. *)
Theorem C59_passed_on : forall s,
  let m := machine_of s in let k := kinematics_of s in let c := se_cnc s in let d := mc_cnc m in
  (mc_exchange_point m, mc_base_point m) = (se_exchange s, se_base s) /\
  mc_axes m = map fst (ks_axes (se_kin s)) /\ kin_axes k = ks_axes (se_kin s) /\
  (kin_max_feed k, mc_fast_feed m, kin_max_spindle k, kin_warehouse k) =
    (ks_work_feed (se_kin s), ks_fast_feed (se_kin s), ks_spindle (se_kin s), ks_warehouse (se_kin s)) /\
  (mc_exchange_time m, mc_pallet_time m, mc_measure_time m) =
    (ks_exchange_time (se_kin s), ks_pallet_time (se_kin s), ks_measure_time (se_kin s)) /\
  (mc_diameter_2x m, mc_auto_measure m) = (ks_diameter_2x (se_kin s), ks_auto_measure (se_kin s)) /\
  (mc_pallet_code m, mc_pallet_value m, mc_measure_code m, mc_measure_value m) =
    (ks_pallet_code (se_kin s), ks_pallet_value (se_kin s), ks_measure_code (se_kin s), ks_measure_value (se_kin s)) /\
  (mc_no_y m = true <-> se_tool s = MT_lathe_zx \/ se_tool s = MT_lathe_zxc) /\
  In (se_type s, mc_type m) [(TT_Mill, MTMill); (TT_Lathe, MTLathe); (TT_Millturn, MTMillturn)] /\
  In (cs_motion c, cd_motion d) [(RapidTraverse, 0); (LinearInterpolation, 1)] /\
  In (cs_plane c, cd_plane d) [(WP_XY, 17); (WP_XZ, 18); (WP_YZ, 19)] /\
  In (cs_units c, cd_inch d) [(Millimeter, false); (Inch, true)] /\
  In (cs_programming c, cd_programming d) [(ProgAbsolute, 90); (ProgIncremental, 91)] /\
  In (cs_feed_mode c, cd_feed_mode d) [(FeedPerMinute, 94); (FeedPerRevolution, 95)] /\
  In (cs_z c, cd_z_incremental d) [(DepthAbsolute, false); (DepthIncremental, true)] /\
  In (cs_return c, cd_return d) [(Return_G98, 98); (Return_G99, 99)] /\
  cd_rotation d = cs_rotation c /\
  (cd_rapid_cancels d, cd_linear_cancels d, cd_cw_cancels d, cd_ccw_cancels d) =
    (cs_rapid_cancels c, cs_linear_cancels c, cs_cw_cancels c, cs_ccw_cancels c) /\
  (cd_cancel_starts_rapid d, cd_operator_rotation d, cd_tool_executes d, cd_auto_rapid d) =
    (cs_cancel_starts_rapid c, cs_operator_rotation c, cs_tool_executes c, cs_auto_rapid c).
Proof. exact settings_passed_on. Qed.
Print Assumptions C59_passed_on.

(** A settings file with values of every kind; "Z" is listed twice. *)
Definition leaf (s : string) : ptree := PTree s [].
Definition node (l : list (string * ptree)) : ptree := PTree "" l.
Definition C59_kinematics : ptree := node
  [("cartesian_system_axis", node [("Z", node [("range_min", leaf "0"); ("range_max", leaf "1e3")]);
                                   ("X", node [("range_min", leaf "-500.5"); ("range_max", leaf "500.5")]);
                                   ("Z", node [("range_min", leaf "7"); ("range_max", leaf "8")])]);
   ("max_working_feed", leaf "20000"); ("max_fast_feed", leaf "30000"); ("maximum_spindle_speed", leaf "12000");
   ("numer_of_items_in_the_warehouse", leaf "24"); ("tool_exchange_time", leaf "6"); ("pallet_exchange_time", leaf "15");
   ("tool_measurement_time", leaf "3"); ("diameter_programming_2x", leaf "true"); ("auto_measure_after_tool_selection", leaf "false");
   ("pallet_exchange_code", leaf "M"); ("pallet_exchange_code_value", leaf "60"); ("tool_measurement_code", leaf "O");
   ("tool_measurement_code_value", leaf "9023")].
Definition C59_cnc : ptree := node
  [("default_motion", leaf "linear_interpolation"); ("default_work_plane", leaf "XZ"); ("default_driver_units", leaf "inch");
   ("default_programming", leaf "incremental"); ("default_feed_mode", leaf "feed_per_revolution");
   ("default_rotation_direction", leaf "left"); ("drill_cycle_z_value", leaf "incremental");
   ("drill_cycle_return_value", leaf "point_r"); ("default_rotation", leaf "-1200"); ("rapid_traverse_cancel_cycle", leaf "true");
   ("linear_interpolation_cancel_cycle", leaf "false"); ("circular_interpolation_cw_cancel_cycle", leaf "1");
   ("circular_interpolation_ccw_cancel_cycle", leaf "0"); ("cycle_cancel_starts_rapid_traverse", leaf "true");
   ("operator_turns_on_rotation", leaf "false"); ("tool_number_executes_exchange", leaf "true");
   ("auto_rapid_traverse_after_tool_exchange", leaf "false")].
Definition C59_tree : ptree := node
  [("machine_tool", leaf "lathe_zx"); ("machine_tool_type", leaf "lathe"); ("driver", leaf "haas_lathe");
   ("machine_points_data", node [("tool_exchange_point", node [("Z", leaf "250.0"); ("X", leaf "100")]);
                                 ("machine_base_point", node [("X", leaf "0.25")])]);
   ("kinematics", C59_kinematics); ("cnc_default_values", C59_cnc);
   ("zero_point", node [("X", leaf "1"); ("Y", leaf "2.5"); ("Z", leaf " -3 ")])].
Definition C59_expected : settings :=
  mkSettings MT_lathe_zx TT_Lathe PT_HaasLathe [("X", d_of_Z 100); ("Z", d_of_Z 250)] [("X", d_of_ratio false 1 4)]
    (mkKS [("X", (d_of_ratio true 1001 2, d_of_ratio false 1001 2)); ("Z", (dzero, d_of_Z 1000))] (d_of_Z 20000) (d_of_Z 30000)
          12000 24 6 15 3 true false "M" "60" "O" "9023")
    (mkCS LinearInterpolation WP_XZ Inch ProgIncremental FeedPerRevolution RotLeft DepthIncremental Return_G99 (-1200)
          true false true false true false true false)
    (mkZP (d_of_Z 1) (d_of_ratio false 5 2) (d_of_Z (-3))).

Definition C59_codes : ptree := node
  [("groups", node [("motion", node [("", node [("code", leaf "0"); ("rest", leaf "0")]); ("", node [("code", leaf "1"); ("rest", leaf "0")])]);
                    ("extra", node [("", node [("code", leaf "1"); ("rest", leaf "0")])])])].
Definition C59_words : ptree :=
  let word a b := node [("word", leaf "X"); ("range_from", leaf a); ("range_to", leaf b); ("decimal_from", leaf "0");
                        ("decimal_to", leaf "999"); ("unique", leaf "true"); ("type", leaf "length")] in
  node [("metric", node [("X", word "-1" "1"); ("X", word "-9999" "9999")]); ("imperial", node []); ("operations", node [("", leaf "GOTO"); ("", leaf "SIN")])].

Example C59_ex :
  settings_of C59_tree = Ok C59_expected /\ settings_described C59_tree C59_expected /\
  read_groups (Some C59_codes) = ([(mkCgv 0 0, ["motion"]); (mkCgv 1 0, ["extra"; "motion"])], true) /\
  read_grammar (Some C59_words) = (mkFG [("X", mkWG "X" (-9999) 9999 0 999 true WTlength)] [], ["GOTO"; "SIN"], true) /\
  read_groups (Some (node [("groups", node [("motion", node [("", node [("code", leaf "1.5"); ("rest", leaf "0")])])])])) = ([], false) /\
  value_bool "5true" = Ok true /\ value_uint "-1" = Ok 4294967295 /\ value_double "1e" = Exc EInvalidArgument.
Proof.
  assert (E : settings_of C59_tree = Ok C59_expected) by (vm_compute; reflexivity).
  split; [exact E|]. split; [now apply C59_settings|]. repeat split; vm_compute; reflexivity.
Qed.
