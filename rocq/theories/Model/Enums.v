(** Names of the configuration enumerations: parser/GeneralParserDefines.cpp,
    parser/GeneralParserDefines.h, parser/fanuc/AllAttributesParserDefines.cpp
    and the stream operators of parser/Macro.h. The text of the exception is
    not modelled, only that std::invalid_argument is thrown. *)
From Verif Require Import Model.Base Model.Attr Model.Rotator Model.UnitConv.

(** GeneralParserDefines.h 17-24. *)
Inductive cnc_type : Type :=
| CncFanuc | CncGeneric | CncHaas | CncHeidenhain | CncMakino.

(** GeneralParserDefines.cpp 12-29. *)
Definition cnc_type_name (e : cnc_type) : string :=
  match e with
  | CncFanuc => "fanuc"
  | CncGeneric => "generic"
  | CncHaas => "haas"
  | CncHeidenhain => "heidenhain"
  | CncMakino => "makino"
  end.

(** GeneralParserDefines.cpp 31-45. *)
Definition to_cnc_type (s : string) : res cnc_type :=
  if String.eqb s "fanuc" then Ok CncFanuc
  else if String.eqb s "generic" then Ok CncGeneric
  else if String.eqb s "haas" then Ok CncHaas
  else if String.eqb s "heidenhain" then Ok CncHeidenhain
  else if String.eqb s "makino" then Ok CncMakino
  else Exc EInvalidArgument.

(** GeneralParserDefines.h 29-42. *)
Inductive parser_type : Type :=
| PT_FanucLatheSystemA | PT_FanucLatheSystemB | PT_FanucLatheSystemC | PT_FanucMill
| PT_FanucMillturnSystemA | PT_FanucMillturnSystemB | PT_GenericLathe | PT_GenericMill
| PT_HaasLathe | PT_HaasMill | PT_MakinoMill.

(** GeneralParserDefines.cpp 50-79. *)
Definition parser_type_name (e : parser_type) : string :=
  match e with
  | PT_FanucLatheSystemA => "fanuc_lathe_system_a"
  | PT_FanucLatheSystemB => "fanuc_lathe_system_b"
  | PT_FanucLatheSystemC => "fanuc_lathe_system_c"
  | PT_FanucMill => "fanuc_mill"
  | PT_FanucMillturnSystemA => "fanuc_millturn_system_a"
  | PT_FanucMillturnSystemB => "fanuc_millturn_system_b"
  | PT_GenericLathe => "generic_lathe"
  | PT_GenericMill => "generic_mill"
  | PT_HaasLathe => "haas_lathe"
  | PT_HaasMill => "haas_mill"
  | PT_MakinoMill => "makino_mill"
  end.

(** GeneralParserDefines.cpp 81-107. *)
Definition to_parser_type (s : string) : res parser_type :=
  if String.eqb s "fanuc_lathe_system_a" then Ok PT_FanucLatheSystemA
  else if String.eqb s "fanuc_lathe_system_b" then Ok PT_FanucLatheSystemB
  else if String.eqb s "fanuc_lathe_system_c" then Ok PT_FanucLatheSystemC
  else if String.eqb s "fanuc_mill" then Ok PT_FanucMill
  else if String.eqb s "fanuc_millturn_system_a" then Ok PT_FanucMillturnSystemA
  else if String.eqb s "fanuc_millturn_system_b" then Ok PT_FanucMillturnSystemB
  else if String.eqb s "generic_lathe" then Ok PT_GenericLathe
  else if String.eqb s "generic_mill" then Ok PT_GenericMill
  else if String.eqb s "haas_lathe" then Ok PT_HaasLathe
  else if String.eqb s "haas_mill" then Ok PT_HaasMill
  else if String.eqb s "makino_mill" then Ok PT_MakinoMill
  else Exc EInvalidArgument.

(** GeneralParserDefines.h 47-52. *)
Inductive tool_type : Type :=
| TT_Mill | TT_Lathe | TT_Millturn.

(** GeneralParserDefines.cpp 112-125. *)
Definition tool_type_name (e : tool_type) : string :=
  match e with
  | TT_Mill => "mill"
  | TT_Lathe => "lathe"
  | TT_Millturn => "millturn"
  end.

(** GeneralParserDefines.cpp 127-137. *)
Definition to_tool_type (s : string) : res tool_type :=
  if String.eqb s "mill" then Ok TT_Mill
  else if String.eqb s "lathe" then Ok TT_Lathe
  else if String.eqb s "millturn" then Ok TT_Millturn
  else Exc EInvalidArgument.

(** GeneralParserDefines.h 57-82. *)
Inductive machine_tool : Type :=
| MT_mill_3axis | MT_mill_4axis | MT_mill_4axis_horizontal
| MT_mill_4axis_horizontal_pinola | MT_mill_4axis_head_gantry
| MT_mill_5axis_head_head_gantry | MT_mill_5axis_head_table_gantry
| MT_mill_5axis_table_table | MT_mill_5axis_table_tilt | MT_mill_5axis_head_table
| MT_mill_5axis_horizontal_table_table | MT_mill_5axis_horizontal_table_table_pinola
| MT_lathe_zx | MT_lathe_zxc | MT_lathe_zxcy | MT_lathe_zxcy_steady | MT_millturn_XYZBC
| MT_millturn_XYZBC_steady | MT_millturn_XYZBC_C2 | MT_millturn_XYZBC_C2_steady
| MT_millturn_XYZBC_C2_Lower_Left_Turret | MT_millturn_XYZBC_C2_Lower_Right_Turret
| MT_millturn_XYZBC_C2_Lower_LeftRight_Turret.

(** GeneralParserDefines.cpp 142-195. *)
Definition machine_tool_name (e : machine_tool) : string :=
  match e with
  | MT_mill_3axis => "mill_3axis"
  | MT_mill_4axis => "mill_4axis"
  | MT_mill_4axis_horizontal => "mill_4axis_horizontal"
  | MT_mill_4axis_horizontal_pinola => "mill_4axis_horizontal_pinola"
  | MT_mill_4axis_head_gantry => "mill_4axis_head_gantry"
  | MT_mill_5axis_head_head_gantry => "mill_5axis_head_head_gantry"
  | MT_mill_5axis_head_table_gantry => "mill_5axis_head_table_gantry"
  | MT_mill_5axis_table_table => "mill_5axis_table_table"
  | MT_mill_5axis_table_tilt => "mill_5axis_table_tilt"
  | MT_mill_5axis_head_table => "mill_5axis_head_table"
  | MT_mill_5axis_horizontal_table_table => "mill_5axis_horizontal_table_table"
  | MT_mill_5axis_horizontal_table_table_pinola => "mill_5axis_horizontal_table_table_pinola"
  | MT_lathe_zx => "lathe_zx"
  | MT_lathe_zxc => "lathe_zxc"
  | MT_lathe_zxcy => "lathe_zxcy"
  | MT_lathe_zxcy_steady => "lathe_zxcy_steady"
  | MT_millturn_XYZBC => "mill-turn_XYZBC"
  | MT_millturn_XYZBC_steady => "mill-turn_XYZBC_steady"
  | MT_millturn_XYZBC_C2 => "mill-turn_XYZBC_C2"
  | MT_millturn_XYZBC_C2_steady => "mill-turn_XYZBC_C2_steady"
  | MT_millturn_XYZBC_C2_Lower_Left_Turret => "mill-turn_XYZBC_C2_Lower_Left_Turret"
  | MT_millturn_XYZBC_C2_Lower_Right_Turret => "mill-turn_XYZBC_C2_Lower_Right_Turret"
  | MT_millturn_XYZBC_C2_Lower_LeftRight_Turret => "mill-turn_XYZBC_C2_Lower_LeftRight_Turret"
  end.

(** GeneralParserDefines.cpp 197-247. *)
Definition to_machine_tool (s : string) : res machine_tool :=
  if String.eqb s "mill_3axis" then Ok MT_mill_3axis
  else if String.eqb s "mill_4axis" then Ok MT_mill_4axis
  else if String.eqb s "mill_4axis_horizontal" then Ok MT_mill_4axis_horizontal
  else if String.eqb s "mill_4axis_horizontal_pinola" then Ok MT_mill_4axis_horizontal_pinola
  else if String.eqb s "mill_4axis_head_gantry" then Ok MT_mill_4axis_head_gantry
  else if String.eqb s "mill_5axis_head_head_gantry" then Ok MT_mill_5axis_head_head_gantry
  else if String.eqb s "mill_5axis_head_table_gantry" then Ok MT_mill_5axis_head_table_gantry
  else if String.eqb s "mill_5axis_table_table" then Ok MT_mill_5axis_table_table
  else if String.eqb s "mill_5axis_table_tilt" then Ok MT_mill_5axis_table_tilt
  else if String.eqb s "mill_5axis_head_table" then Ok MT_mill_5axis_head_table
  else if String.eqb s "mill_5axis_horizontal_table_table" then Ok MT_mill_5axis_horizontal_table_table
  else if String.eqb s "mill_5axis_horizontal_table_table_pinola" then Ok MT_mill_5axis_horizontal_table_table_pinola
  else if String.eqb s "lathe_zx" then Ok MT_lathe_zx
  else if String.eqb s "lathe_zxc" then Ok MT_lathe_zxc
  else if String.eqb s "lathe_zxcy" then Ok MT_lathe_zxcy
  else if String.eqb s "lathe_zxcy_steady" then Ok MT_lathe_zxcy_steady
  else if String.eqb s "mill-turn_XYZBC" then Ok MT_millturn_XYZBC
  else if String.eqb s "mill-turn_XYZBC_steady" then Ok MT_millturn_XYZBC_steady
  else if String.eqb s "mill-turn_XYZBC_C2" then Ok MT_millturn_XYZBC_C2
  else if String.eqb s "mill-turn_XYZBC_C2_steady" then Ok MT_millturn_XYZBC_C2_steady
  else if String.eqb s "mill-turn_XYZBC_C2_Lower_Left_Turret" then Ok MT_millturn_XYZBC_C2_Lower_Left_Turret
  else if String.eqb s "mill-turn_XYZBC_C2_Lower_Right_Turret" then Ok MT_millturn_XYZBC_C2_Lower_Right_Turret
  else if String.eqb s "mill-turn_XYZBC_C2_Lower_LeftRight_Turret" then Ok MT_millturn_XYZBC_C2_Lower_LeftRight_Turret
  else Exc EInvalidArgument.

(** GeneralParserDefines.h 96-100. *)
Inductive language : Type :=
| English | Polish.

(** GeneralParserDefines.cpp 252-263. *)
Definition language_name (e : language) : string :=
  match e with
  | English => "English"
  | Polish => "Polish"
  end.

(** GeneralParserDefines.cpp 265-273. *)
Definition to_language (s : string) : res language :=
  if String.eqb s "English" then Ok English
  else if String.eqb s "Polish" then Ok Polish
  else Exc EInvalidArgument.

(** GeneralParserDefines.h 166-170. *)
Inductive driver_units : Type :=
| Millimeter | Inch.

(** GeneralParserDefines.cpp 278-289. *)
Definition driver_units_name (e : driver_units) : string :=
  match e with
  | Millimeter => "millimeter"
  | Inch => "inch"
  end.

(** GeneralParserDefines.cpp 291-299. *)
Definition to_driver_units (s : string) : res driver_units :=
  if String.eqb s "millimeter" then Ok Millimeter
  else if String.eqb s "inch" then Ok Inch
  else Exc EInvalidArgument.

(** GeneralParserDefines.cpp 304-315. *)
Definition unit_dir_name (e : unit_dir) : string :=
  match e with
  | MetricToImperial => "m2i"
  | ImperialToMetric => "i2m"
  end.

(** GeneralParserDefines.cpp 317-325. *)
Definition to_unit_dir (s : string) : res unit_dir :=
  if String.eqb s "m2i" then Ok MetricToImperial
  else if String.eqb s "i2m" then Ok ImperialToMetric
  else Exc EInvalidArgument.

(** GeneralParserDefines.cpp 330-356. *)
Definition rot_option_name (e : rot_option) : string :=
  match e with
  | X90 => "X90"
  | X180 => "X180"
  | X270 => "X270"
  | Y90 => "Y90"
  | Y180 => "Y180"
  | Y270 => "Y270"
  | Z90 => "Z90"
  | Z180 => "Z180"
  | Z270 => "Z270"
  end.

(** GeneralParserDefines.cpp 358-380. *)
Definition to_rot_option (s : string) : res rot_option :=
  if String.eqb s "X90" then Ok X90
  else if String.eqb s "X180" then Ok X180
  else if String.eqb s "X270" then Ok X270
  else if String.eqb s "Y90" then Ok Y90
  else if String.eqb s "Y180" then Ok Y180
  else if String.eqb s "Y270" then Ok Y270
  else if String.eqb s "Z90" then Ok Z90
  else if String.eqb s "Z180" then Ok Z180
  else if String.eqb s "Z270" then Ok Z270
  else Exc EInvalidArgument.

(** GeneralParserDefines.h 147-151. *)
Inductive motion : Type :=
| RapidTraverse | LinearInterpolation.

(** GeneralParserDefines.cpp 385-397. *)
Definition motion_name (e : motion) : string :=
  match e with
  | RapidTraverse => "rapid_traverse"
  | LinearInterpolation => "linear_interpolation"
  end.

(** GeneralParserDefines.cpp 399-407. *)
Definition to_motion (s : string) : res motion :=
  if String.eqb s "rapid_traverse" then Ok RapidTraverse
  else if String.eqb s "linear_interpolation" then Ok LinearInterpolation
  else Exc EInvalidArgument.

(** GeneralParserDefines.h 156-161. *)
Inductive work_plane : Type :=
| WP_XY | WP_XZ | WP_YZ.

(** GeneralParserDefines.cpp 412-426. *)
Definition work_plane_name (e : work_plane) : string :=
  match e with
  | WP_XY => "XY"
  | WP_XZ => "XZ"
  | WP_YZ => "YZ"
  end.

(** GeneralParserDefines.cpp 428-438. *)
Definition to_work_plane (s : string) : res work_plane :=
  if String.eqb s "XY" then Ok WP_XY
  else if String.eqb s "XZ" then Ok WP_XZ
  else if String.eqb s "YZ" then Ok WP_YZ
  else Exc EInvalidArgument.

(** GeneralParserDefines.h 194-198. *)
Inductive programming : Type :=
| ProgAbsolute | ProgIncremental.

(** GeneralParserDefines.cpp 443-455. *)
Definition programming_name (e : programming) : string :=
  match e with
  | ProgAbsolute => "absolute"
  | ProgIncremental => "incremental"
  end.

(** GeneralParserDefines.cpp 457-465. *)
Definition to_programming (s : string) : res programming :=
  if String.eqb s "absolute" then Ok ProgAbsolute
  else if String.eqb s "incremental" then Ok ProgIncremental
  else Exc EInvalidArgument.

(** GeneralParserDefines.h 175-179. *)
Inductive feed_mode : Type :=
| FeedPerMinute | FeedPerRevolution.

(** GeneralParserDefines.cpp 470-482. *)
Definition feed_mode_name (e : feed_mode) : string :=
  match e with
  | FeedPerMinute => "feed_per_minute"
  | FeedPerRevolution => "feed_per_revolution"
  end.

(** GeneralParserDefines.cpp 484-492. *)
Definition to_feed_mode (s : string) : res feed_mode :=
  if String.eqb s "feed_per_minute" then Ok FeedPerMinute
  else if String.eqb s "feed_per_revolution" then Ok FeedPerRevolution
  else Exc EInvalidArgument.

(** GeneralParserDefines.h 184-189. *)
Inductive rotation_dir : Type :=
| RotRight | RotLeft | RotStop.

(** GeneralParserDefines.cpp 497-511. *)
Definition rotation_dir_name (e : rotation_dir) : string :=
  match e with
  | RotRight => "right (M03) CLW (clockwise)"
  | RotLeft => "left (M04) CCLW (counterclockwise)"
  | RotStop => "stop (M05)"
  end.

(** GeneralParserDefines.cpp 513-523. *)
Definition to_rotation_dir (s : string) : res rotation_dir :=
  if String.eqb s "right" || String.eqb s "M03" || String.eqb s "CLW" then Ok RotRight
  else if String.eqb s "left" || String.eqb s "M04" || String.eqb s "CCLW" then Ok RotLeft
  else if String.eqb s "stop" || String.eqb s "M05" then Ok RotStop
  else Exc EInvalidArgument.

(** GeneralParserDefines.h 203-207. *)
Inductive depth_programming : Type :=
| DepthAbsolute | DepthIncremental.

(** GeneralParserDefines.cpp 528-540. *)
Definition depth_programming_name (e : depth_programming) : string :=
  match e with
  | DepthAbsolute => "absolute"
  | DepthIncremental => "incremental"
  end.

(** GeneralParserDefines.cpp 542-550. *)
Definition to_depth_programming (s : string) : res depth_programming :=
  if String.eqb s "absolute" then Ok DepthAbsolute
  else if String.eqb s "incremental" then Ok DepthIncremental
  else Exc EInvalidArgument.

(** GeneralParserDefines.h 231-235. *)
Inductive drill_return : Type :=
| Return_G98 | Return_G99.

(** GeneralParserDefines.cpp 555-567. *)
Definition drill_return_name (e : drill_return) : string :=
  match e with
  | Return_G98 => "beginning"
  | Return_G99 => "point_r"
  end.

(** GeneralParserDefines.cpp 569-577. *)
Definition to_drill_return (s : string) : res drill_return :=
  if String.eqb s "beginning" then Ok Return_G98
  else if String.eqb s "point_r" then Ok Return_G99
  else Exc EInvalidArgument.

(** AllAttributesParserDefines.cpp 34-60. *)
Definition word_type_name (e : word_type) : string :=
  match e with
  | WTmisc => "misc"
  | WTangle => "angle"
  | WTcalc => "calc"
  | WTcode => "code"
  | WTfeed => "feed"
  | WTlength => "length"
  | WTmacro => "macro"
  | WTnumbering => "numbering"
  | WTassignable => "assignable"
  end.

(** AllAttributesParserDefines.cpp 62-84. *)
Definition to_word_type (s : string) : res word_type :=
  if String.eqb s "misc" then Ok WTmisc
  else if String.eqb s "angle" then Ok WTangle
  else if String.eqb s "calc" then Ok WTcalc
  else if String.eqb s "code" then Ok WTcode
  else if String.eqb s "feed" then Ok WTfeed
  else if String.eqb s "length" then Ok WTlength
  else if String.eqb s "macro" then Ok WTmacro
  else if String.eqb s "numbering" then Ok WTnumbering
  else if String.eqb s "assignable" then Ok WTassignable
  else Exc EInvalidArgument.

(** Macro.h 7-12: operator<< appends the name to what is already in the stream. *)
Definition stream_write {E} (name : E -> string) (os : string) (e : E) : string := os ++ name e.

(** Macro.h 14-21: operator>> extracts one blank-delimited token with the
    standard string extraction (leading white space skipped, stop before the
    next white space) and converts it; what follows stays in the stream. When
    there is no token the string is empty and the conversion throws. *)
Definition stream_read {E} (to_e : string -> res E) (is : string) : res (E * string) :=
  let (_, r) := span is_space is in
  let (tok, rest) := span (fun c => negb (is_space c)) r in
  do e <- to_e tok;
  Ok (e, rest).

(** How NCSettingsReader.cpp 81-83, 130-138 read a setting: the stream
    translator of boost's property tree extracts with operator>>, skips white
    space and fails with ptree_bad_data unless the text is used up. The
    property tree exceptions are collapsed into invalid_argument: both are
    caught in NCSettingsReader.cpp 174-182. *)
Definition setting_read {E} (to_e : string -> res E) (v : string) : res E :=
  do p <- stream_read to_e v;
  let (e, rest) := p : E * string in
  if all_chars is_space rest then Ok e else Exc EInvalidArgument.
