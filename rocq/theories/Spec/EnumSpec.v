(** The documented names of the configuration values, taken from
    conf/nc_settings.json (driver_list 4-17, machine_tool, the type of each
    machine tool and cnc_default_values_list 20-53) and, where that file says
    nothing, from parser_net/AllAttributesParser.cs. *)
From Verif Require Import Model.Base Model.Attr Model.Rotator Model.UnitConv Model.Enums.

(** Writing and reading agree with a table of names: what is written is read
    back, every documented name is read as its value, and every other string is
    rejected. *)
Definition agree {E} (write : E -> string) (read : string -> res E) (names : list (string * E)) : Prop :=
  (forall e, In (write e, e) names) /\
  (forall s e, In (s, e) names -> read s = Ok e) /\
  (forall s, ~ In s (map fst names) -> read s = Exc EInvalidArgument).

(** White space only. *)
Definition blank (s : string) : Prop := all_chars is_space s = true.

(** The end of the text or white space comes next. *)
Definition ends_token (s : string) : Prop :=
  match s with EmptyString => True | String c _ => is_space c = true end.

Definition cnc_types : list (string * cnc_type) :=
  [("fanuc", CncFanuc); ("generic", CncGeneric); ("haas", CncHaas); ("heidenhain", CncHeidenhain);
   ("makino", CncMakino)].

(** driver_list without "heidenhain". *)
Definition drivers : list (string * parser_type) :=
  [("fanuc_mill", PT_FanucMill); ("fanuc_lathe_system_a", PT_FanucLatheSystemA);
   ("fanuc_lathe_system_b", PT_FanucLatheSystemB); ("fanuc_lathe_system_c", PT_FanucLatheSystemC);
   ("generic_mill", PT_GenericMill); ("generic_lathe", PT_GenericLathe); ("haas_mill", PT_HaasMill);
   ("haas_lathe", PT_HaasLathe); ("makino_mill", PT_MakinoMill);
   ("fanuc_millturn_system_a", PT_FanucMillturnSystemA); ("fanuc_millturn_system_b", PT_FanucMillturnSystemB)].

Definition tool_types : list (string * tool_type) :=
  [("mill", TT_Mill); ("lathe", TT_Lathe); ("millturn", TT_Millturn)].

Definition machine_tools : list (string * machine_tool) :=
  [("mill_3axis", MT_mill_3axis); ("mill_4axis", MT_mill_4axis);
   ("mill_4axis_horizontal", MT_mill_4axis_horizontal);
   ("mill_4axis_horizontal_pinola", MT_mill_4axis_horizontal_pinola);
   ("mill_4axis_head_gantry", MT_mill_4axis_head_gantry);
   ("mill_5axis_head_head_gantry", MT_mill_5axis_head_head_gantry);
   ("mill_5axis_head_table_gantry", MT_mill_5axis_head_table_gantry);
   ("mill_5axis_table_table", MT_mill_5axis_table_table);
   ("mill_5axis_table_tilt", MT_mill_5axis_table_tilt);
   ("mill_5axis_head_table", MT_mill_5axis_head_table);
   ("mill_5axis_horizontal_table_table", MT_mill_5axis_horizontal_table_table);
   ("mill_5axis_horizontal_table_table_pinola", MT_mill_5axis_horizontal_table_table_pinola);
   ("lathe_zx", MT_lathe_zx); ("lathe_zxc", MT_lathe_zxc); ("lathe_zxcy", MT_lathe_zxcy);
   ("lathe_zxcy_steady", MT_lathe_zxcy_steady); ("mill-turn_XYZBC", MT_millturn_XYZBC);
   ("mill-turn_XYZBC_steady", MT_millturn_XYZBC_steady); ("mill-turn_XYZBC_C2", MT_millturn_XYZBC_C2);
   ("mill-turn_XYZBC_C2_steady", MT_millturn_XYZBC_C2_steady);
   ("mill-turn_XYZBC_C2_Lower_Left_Turret", MT_millturn_XYZBC_C2_Lower_Left_Turret);
   ("mill-turn_XYZBC_C2_Lower_Right_Turret", MT_millturn_XYZBC_C2_Lower_Right_Turret);
   ("mill-turn_XYZBC_C2_Lower_LeftRight_Turret", MT_millturn_XYZBC_C2_Lower_LeftRight_Turret)].

Definition languages : list (string * language) := [("English", English); ("Polish", Polish)].
Definition units : list (string * driver_units) := [("millimeter", Millimeter); ("inch", Inch)].
Definition conversions : list (string * unit_dir) := [("m2i", MetricToImperial); ("i2m", ImperialToMetric)].
Definition rotations : list (string * rot_option) :=
  [("X90", X90); ("X180", X180); ("X270", X270); ("Y90", Y90); ("Y180", Y180); ("Y270", Y270);
   ("Z90", Z90); ("Z180", Z180); ("Z270", Z270)].
Definition motions : list (string * motion) :=
  [("rapid_traverse", RapidTraverse); ("linear_interpolation", LinearInterpolation)].
Definition work_planes : list (string * work_plane) := [("XY", WP_XY); ("XZ", WP_XZ); ("YZ", WP_YZ)].
Definition programmings : list (string * programming) :=
  [("absolute", ProgAbsolute); ("incremental", ProgIncremental)].
Definition feed_modes : list (string * feed_mode) :=
  [("feed_per_minute", FeedPerMinute); ("feed_per_revolution", FeedPerRevolution)].
Definition depth_programmings : list (string * depth_programming) :=
  [("absolute", DepthAbsolute); ("incremental", DepthIncremental)].
Definition drill_returns : list (string * drill_return) :=
  [("beginning", Return_G98); ("point_r", Return_G99)].
Definition word_types : list (string * word_type) :=
  [("misc", WTmisc); ("angle", WTangle); ("calc", WTcalc); ("code", WTcode); ("feed", WTfeed);
   ("length", WTlength); ("macro", WTmacro); ("numbering", WTnumbering); ("assignable", WTassignable)].

(** AllAttributesParser.cs 386-391: right is M03 or CLW, left is M04 or CCLW,
    stop is M05. *)
Definition rotation_dirs : list (string * rotation_dir) :=
  [("right", RotRight); ("left", RotLeft); ("stop", RotStop); ("M03", RotRight); ("M04", RotLeft);
   ("M05", RotStop); ("CLW", RotRight); ("CCLW", RotLeft)].

(** conf/nc_settings.json 4-17. *)
Definition driver_list : list string :=
  ["fanuc_mill"; "fanuc_lathe_system_a"; "fanuc_lathe_system_b"; "fanuc_lathe_system_c"; "generic_mill";
   "generic_lathe"; "haas_mill"; "haas_lathe"; "heidenhain"; "makino_mill"; "fanuc_millturn_system_a";
   "fanuc_millturn_system_b"].
