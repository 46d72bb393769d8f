(** The editor of the machine settings.
    Source: cmtconfig (C#, .NET Framework 4.7.2; the forms are in
    cmtconfig/NCSettingsForm), the classes of parser_net/AllAttributesParser.cs 36-41, 243-320, 355-397.
    A C# string is its text; exceptions of the .NET library are
    invalid_argument, an overflow is out_of_range. The widgets are not modelled,
    [form] is what stands in them. The classes Kinematics, CncDefaultValues,
    MachinePointsData have the members of the structures of the same names in
    GeneralParserDefines.h: the records of Model.Settings are used for them. *)
From Verif Require Import Model.Base Model.Attr Model.Double Model.Verifiers Model.PathCalc Model.Enums Model.Wrapper Model.Settings.

(** ** Numbers
    [Double.Parse], [float.Parse] and [double.TryParse] with the styles Float and
    AllowThousands (the default). Only ASCII is represented: the separator of
    groups is a no-break space in Polish, for which .NET takes a space as well.
    The value is the nearest number (the Framework can be off by the last bit
    when there are more digits than it keeps); of the symbols only the one of
    NaN is modelled. *)

Inductive culture : Type := EnUs | PlPl | Invariant.

Definition decimal_sep (ct : culture) : ascii := match ct with PlPl => "," | _ => "." end%char.
Definition group_sep (ct : culture) : ascii := match ct with PlPl => " " | _ => "," end%char.

(** Digits in front of the point, digits behind it, and the rest. *)
Fixpoint scan_digits (dec grp : ascii) (digit point : bool) (s : string) : string * string * string :=
  match s with
  | EmptyString => (EmptyString, EmptyString, EmptyString)
  | String c r =>
      if is_digit c then
        let '(ip, fp, rest) := scan_digits dec grp true point r in
        if point then (ip, String c fp, rest) else (String c ip, fp, rest)
      else if Ascii.eqb c dec && negb point then scan_digits dec grp digit true r
      else if Ascii.eqb c grp && digit && negb point then scan_digits dec grp digit point r
      else (EmptyString, EmptyString, s)
  end.

(** Without digits the letter is not part of the number. *)
Definition scan_exponent (s : string) : Z * string :=
  match s with
  | String c r =>
      if Ascii.eqb c "e" || Ascii.eqb c "E" then
        let '(neg, r1) := match r with
                          | String d r' => if Ascii.eqb d "-" then (true, r')
                                           else if Ascii.eqb d "+" then (false, r') else (false, r)
                          | EmptyString => (false, r)
                          end in
        let '(es, r2) := span is_digit r1 in
        if String.eqb es "" then (0, s) else (if neg : bool then - digits_val es else digits_val es, r2)
      else (0, s)
  | EmptyString => (0, s)
  end.

Definition skip_sign (s : string) : bool * string :=
  match s with
  | String c r => if Ascii.eqb c "-" then (true, r) else if Ascii.eqb c "+" then (false, r) else (false, s)
  | EmptyString => (false, s)
  end.

(** [String.Trim] of ASCII text. *)
Fixpoint trim_end (s : string) : string :=
  match s with
  | EmptyString => EmptyString
  | String c r => if all_chars is_space s then EmptyString else String c (trim_end r)
  end.
Definition trim (s : string) : string := trim_end (snd (span is_space s)).

(** The Polish symbol is not ASCII. *)
Definition nan_symbol (ct : culture) (s : string) : bool := match ct with PlPl => false | _ => String.eqb (trim s) "NaN" end.

Definition number_parse (round : bool -> Z -> Z -> dbl) (ct : culture) (s : string) : res dbl :=
  let '(neg, s1) := skip_sign (snd (span is_space s)) in
  let '(ip, fp, s2) := scan_digits (decimal_sep ct) (group_sep ct) false false s1 in
  let '(e, rest) := scan_exponent s2 in
  if negb (String.eqb (ip ++ fp) "") && all_chars is_space rest then
    match round neg (digits_val (ip ++ fp)) (e - Z.of_nat (String.length fp)) with
    | S754_infinity _ => Exc EOutOfRange
    | v => Ok v
    end
  else if nan_symbol ct s then Ok S754_nan
  else Exc EInvalidArgument.

(** The decimal number num * 10^e as a double. *)
Definition to_double (neg : bool) (num e : Z) : dbl :=
  if 0 <=? e then d_of_ratio neg (num * 10 ^ e) 1 else d_of_ratio neg num (10 ^ (- e)).

(** As a single, which is then widened (exactly). *)
Definition f_of_ratio (s : bool) (num den : Z) : spec_float :=
  if num =? 0 then S754_zero s
  else let '(mz, ez, lz) := SFdiv_core_binary 24 128 num 0 den 0 in
       binary_round_aux 24 128 s mz ez lz.

Definition widen (f : spec_float) : dbl :=
  match f with
  | S754_finite s m e => if 0 <=? e then d_of_ratio s (Z.pos m * 2 ^ e) 1 else d_of_ratio s (Z.pos m) (2 ^ (- e))
  | _ => f
  end.

Definition to_single (neg : bool) (num e : Z) : dbl :=
  widen (if 0 <=? e then f_of_ratio neg (num * 10 ^ e) 1 else f_of_ratio neg num (10 ^ (- e))).

Definition double_parse : culture -> string -> res dbl := number_parse to_double.
Definition float_parse : culture -> string -> res dbl := number_parse to_single.

(** [int.Parse]: white space, a sign and digits; the texts that the server reads
    as an [int] are the same. *)
Definition int_parse : string -> res Z := value_int.

(** ** The classes *)

(** NCSettingsDefinition.cs 38-52. *)
Inductive driver : Type := Drv (p : parser_type) | Heidenhain.

Definition driver_text (d : driver) : string :=
  match d with
  | Drv PT_FanucMill => "fanuc_mill"
  | Drv PT_FanucLatheSystemA => "fanuc_lathe_system_a"
  | Drv PT_FanucLatheSystemB => "fanuc_lathe_system_b"
  | Drv PT_FanucLatheSystemC => "fanuc_lathe_system_c"
  | Drv PT_FanucMillturnSystemA => "fanuc_millturn_system_a"
  | Drv PT_FanucMillturnSystemB => "fanuc_millturn_system_b"
  | Drv PT_GenericMill => "generic_mill"
  | Drv PT_GenericLathe => "generic_lathe"
  | Drv PT_HaasMill => "haas_mill"
  | Drv PT_HaasLathe => "haas_lathe"
  | Heidenhain => "heidenhain"
  | Drv PT_MakinoMill => "makino_mill"
  end.

(** AllAttributesParser.cs 36-41, 243-247, 355-397. *)
Definition type_text (t : tool_type) : string :=
  match t with TT_Mill => "mill" | TT_Lathe => "lathe" | TT_Millturn => "millturn" end.
Definition depth_text (d : depth_programming) : string :=
  match d with DepthAbsolute => "absolute" | DepthIncremental => "incremental" end.
Definition motion_text (m : motion) : string :=
  match m with RapidTraverse => "rapid_traverse" | LinearInterpolation => "linear_interpolation" end.
Definition plane_text (p : work_plane) : string :=
  match p with WP_XY => "XY" | WP_XZ => "XZ" | WP_YZ => "YZ" end.
Definition units_text (u : driver_units) : string :=
  match u with Millimeter => "millimeter" | Inch => "inch" end.
Definition programming_text (p : programming) : string :=
  match p with ProgAbsolute => "absolute" | ProgIncremental => "incremental" end.
Definition feed_text (f : feed_mode) : string :=
  match f with FeedPerMinute => "feed_per_minute" | FeedPerRevolution => "feed_per_revolution" end.
Definition direction_text (r : rotation_dir) : string :=
  match r with RotRight => "right" | RotLeft => "left" | RotStop => "stop" end.
Definition return_text (d : drill_return) : string :=
  match d with Return_G98 => "beginning" | Return_G99 => "point_r" end.

(** [Enum.Parse] of the name of an enumerator (numbers, lists and white space,
    which it accepts as well, are in none of the lists of the form). *)
Definition enum_parse {E} (name : E -> string) (all : list E) (s : string) : res E :=
  match find (fun e => String.eqb (name e) s) all with
  | Some e => Ok e
  | None => Exc EInvalidArgument
  end.

(** NCSettingsDefinition.cs 225-239: NCSettingsFile. The author is kept as its
    JSON. *)
Record nc_file : Type := mkFile {
  nf_driver : driver;
  nf_machine : string;
  nf_id : string;
  nf_type : tool_type;
  nf_extras : list (string * bool);
  nf_kin : kin_settings;
  nf_cnc : cnc_settings;
  nf_exchange : dmap;
  nf_base : dmap;
  nf_author : ptree;
  nf_zero : dmap
}.

(** NCSettingsDefinition.cs 27-36: MachineToolData, one entry of conf/nc_settings.json. *)
Record machine_data : Type := mkMD {
  md_type : tool_type;
  md_extras : list (string * bool);
  md_kin : kin_settings;
  md_cnc : cnc_settings;
  md_exchange : dmap;
  md_base : dmap
}.

Definition machines := list (string * machine_data).

(** The widgets: text boxes, check boxes, selected entries of the lists (nothing
    may be selected in the lists of codes), the table of the axes. *)
Record form : Type := mkForm {
  fo_driver : driver;
  fo_machine : string;
  fo_id : string;
  fo_extras : list (string * bool);
  fo_work_feed : string;
  fo_fast_feed : string;
  fo_spindle : string;
  fo_warehouse : string;
  fo_exchange_time : string;
  fo_pallet_time : string;
  fo_measure_time : string;
  fo_diameter_2x : bool;
  fo_auto_measure : bool;
  fo_pallet_code : option string;
  fo_pallet_value : string;
  fo_measure_code : option string;
  fo_measure_value : string;
  fo_axes : list (string * (string * string));
  fo_motion : string;
  fo_plane : string;
  fo_units : string;
  fo_programming : string;
  fo_feed_mode : string;
  fo_direction : string;
  fo_z : string;
  fo_return : string;
  fo_rotation : string;
  fo_rapid_cancels : bool;
  fo_linear_cancels : bool;
  fo_cw_cancels : bool;
  fo_ccw_cancels : bool;
  fo_cancel_starts_rapid : bool;
  fo_operator_rotation : bool;
  fo_tool_executes : bool;
  fo_auto_rapid : bool;
  fo_exchange_x : string;
  fo_exchange_y : string;
  fo_exchange_z : string;
  fo_base_x : string;
  fo_base_y : string;
  fo_base_z : string;
  fo_zero_x : string;
  fo_zero_y : string;
  fo_zero_z : string
}.

Definition is_nil {A} (l : list A) : bool := match l with [] => true | _ => false end.

(** ** From the form to the file: NCSettingsForm.cs 222-240 *)

(** CNCMachineTool.cs 243-271. *)
Definition extra_checked (k : string) (l : list (string * bool)) : bool :=
  match find (fun x => String.eqb (fst x) k) l with Some x => snd x | None => false end.

(** [Dictionary.Add]. *)
Definition dict_add {A} (k : string) (v : A) (m : list (string * A)) : res (list (string * A)) :=
  if is_some (assoc k m) then Exc EInvalidArgument else Ok (m ++ [(k, v)])%list.

(** CNCKinematics.cs 291-299. *)
Fixpoint read_axes (ct : culture) (l : list (string * (string * string))) (m : list (string * (dbl * dbl)))
  : res (list (string * (dbl * dbl))) :=
  match l with
  | [] => Ok m
  | (k, (a, b)) :: l' =>
      do x <- float_parse ct a;
      do y <- float_parse ct b;
      do m' <- dict_add k (x, y) m;
      read_axes ct l' m'
  end.

(** CNCKinematics.cs 107-111. *)
Definition selected (o : option string) : res string :=
  match o with Some s => Ok s | None => Exc EInvalidArgument end.

(** CNCKinematics.cs 251-300; an [int] is assigned to a [double] member for the
    feeds. *)
Definition form_kinematics (ct : culture) (fo : form) : res kin_settings :=
  do wf <- int_parse (fo_work_feed fo);
  do ff <- int_parse (fo_fast_feed fo);
  do sp <- int_parse (fo_spindle fo);
  do wh <- int_parse (fo_warehouse fo);
  do te <- int_parse (fo_exchange_time fo);
  do pallet <- (if extra_checked "pallet_changer" (fo_extras fo) then
                  do pe <- int_parse (fo_pallet_time fo);
                  do pc <- selected (fo_pallet_code fo);
                  Ok (pe, pc, fo_pallet_value fo)
                else Ok (0, "", ""));
  do probe <- (if extra_checked "cnc_probe" (fo_extras fo) then
                 do tm <- int_parse (fo_measure_time fo);
                 do mc <- selected (fo_measure_code fo);
                 Ok (fo_auto_measure fo, tm, mc, fo_measure_value fo)
               else Ok (false, 0, "", ""));
  do axes <- read_axes ct (fo_axes fo) [];
  let '(pe, pc, pv) := pallet : Z * string * string in
  let '(am, tm, mc, mv) := probe : bool * Z * string * string in
  Ok (mkKS axes (d_of_Z wf) (d_of_Z ff) sp wh te pe tm (fo_diameter_2x fo) am pc pv mc mv).

(** CNCInitialParams.cs 166-192. *)
Definition form_cnc (fo : form) : res cnc_settings :=
  do mo <- enum_parse motion_text [RapidTraverse; LinearInterpolation] (fo_motion fo);
  do pl <- enum_parse plane_text [WP_XY; WP_XZ; WP_YZ] (fo_plane fo);
  do un <- enum_parse units_text [Millimeter; Inch] (fo_units fo);
  do pr <- enum_parse programming_text [ProgAbsolute; ProgIncremental] (fo_programming fo);
  do fm <- enum_parse feed_text [FeedPerMinute; FeedPerRevolution] (fo_feed_mode fo);
  do ro <- int_parse (fo_rotation fo);
  do rd <- enum_parse direction_text [RotRight; RotLeft; RotStop] (fo_direction fo);
  do dz <- enum_parse depth_text [DepthAbsolute; DepthIncremental] (fo_z fo);
  do dr <- enum_parse return_text [Return_G98; Return_G99] (fo_return fo);
  Ok (mkCS mo pl un pr fm rd dz dr ro (fo_rapid_cancels fo) (fo_linear_cancels fo) (fo_cw_cancels fo)
           (fo_ccw_cancels fo) (fo_cancel_starts_rapid fo) (fo_operator_rotation fo) (fo_tool_executes fo)
           (fo_auto_rapid fo)).

(** CNCMachinePoints.cs 119-138. *)
Definition point_parse (s : string) : dbl :=
  match double_parse Invariant s with Ok v => v | Exc _ => S754_zero false end.

Definition set_point (x y z : string) (m : dmap) : dmap :=
  assign "Z" (point_parse z) (assign "Y" (point_parse y) (assign "X" (point_parse x) m)).

(** CNCProgramZero.cs 138-154. *)
Definition form_zero (ct : culture) (t : tool_type) (fo : form) (m : dmap) : res dmap :=
  do m <- match t with
          | TT_Mill =>
              do x <- double_parse ct (fo_zero_x fo);
              do y <- double_parse ct (fo_zero_y fo);
              Ok (assign "Y" y (assign "X" x m))
          | _ => Ok (assign "Y" (S754_zero false) (assign "X" (S754_zero false) m))
          end;
  do z <- double_parse ct (fo_zero_z fo);
  Ok (assign "Z" z m).

(** CNCMachineTool.cs 213-231, NCSettingsForm.cs 222-240. [base] is the copy of
    the file the editor was started with: of its points the entries that the form
    does not show remain. *)
Definition export (ct : culture) (ms : machines) (base : nc_file) (fo : form) : res nc_file :=
  match assoc (fo_machine fo) ms with
  | None => Exc EInvalidArgument
  | Some md =>
      do kin <- form_kinematics ct fo;
      do cnc <- form_cnc fo;
      let ex := set_point (fo_exchange_x fo) (fo_exchange_y fo) (fo_exchange_z fo) (nf_exchange base) in
      let bp := set_point (fo_base_x fo) (fo_base_y fo) (fo_base_z fo) (nf_base base) in
      do zero <- form_zero ct (md_type md) fo (nf_zero base);
      Ok (mkFile (fo_driver fo) (fo_machine fo) (fo_id fo) (md_type md)
                 (fold_left (fun m x => assign (fst x) (snd x) m) (fo_extras fo) [])
                 kin cnc ex bp (nf_author base) zero)
  end.

(** ** The JSON: NCSettingsDefinition.cs 241-246, Json.NET
    [dtext] is the text of a finite number. *)

Definition leaf (s : string) : ptree := PTree s [].
Definition object (l : list (string * ptree)) : ptree := PTree "" l.
Definition json_bool (b : bool) : ptree := leaf (if b then "true" else "false").
Definition json_int (n : Z) : ptree := leaf (z_to_string n).
Definition json_double (dtext : dbl -> string) (d : dbl) : ptree :=
  leaf match d with
       | S754_nan => "NaN"
       | S754_infinity s => if s then "-Infinity" else "Infinity"
       | _ => dtext d
       end.
Definition json_dict {A} (f : A -> ptree) (l : list (string * A)) : ptree :=
  object (map (fun x => (fst x, f (snd x))) l).

Section Json.
Variable dtext : dbl -> string.
Let number := json_double dtext.

(** AllAttributesParser.cs 264-290. *)
Definition kinematics_tree (k : kin_settings) : ptree := object
  [("cartesian_system_axis",
      json_dict (fun r => object [("range_min", number (fst r)); ("range_max", number (snd r))]) (ks_axes k));
   ("max_working_feed", number (ks_work_feed k));
   ("max_fast_feed", number (ks_fast_feed k));
   ("maximum_spindle_speed", json_int (ks_spindle k));
   ("numer_of_items_in_the_warehouse", json_int (ks_warehouse k));
   ("tool_exchange_time", json_int (ks_exchange_time k));
   ("pallet_exchange_time", json_int (ks_pallet_time k));
   ("tool_measurement_time", json_int (ks_measure_time k));
   ("diameter_programming_2x", json_bool (ks_diameter_2x k));
   ("auto_measure_after_tool_selection", json_bool (ks_auto_measure k));
   ("pallet_exchange_code", leaf (ks_pallet_code k));
   ("pallet_exchange_code_value", leaf (ks_pallet_value k));
   ("tool_measurement_code", leaf (ks_measure_code k));
   ("tool_measurement_code_value", leaf (ks_measure_value k))].

(** AllAttributesParser.cs 292-320. *)
Definition cnc_tree (c : cnc_settings) : ptree := object
  [("default_motion", leaf (motion_text (cs_motion c)));
   ("default_work_plane", leaf (plane_text (cs_plane c)));
   ("default_driver_units", leaf (units_text (cs_units c)));
   ("default_programming", leaf (programming_text (cs_programming c)));
   ("default_feed_mode", leaf (feed_text (cs_feed_mode c)));
   ("default_rotation_direction", leaf (direction_text (cs_direction c)));
   ("drill_cycle_z_value", leaf (depth_text (cs_z c)));
   ("drill_cycle_return_value", leaf (return_text (cs_return c)));
   ("default_rotation", json_int (cs_rotation c));
   ("rapid_traverse_cancel_cycle", json_bool (cs_rapid_cancels c));
   ("linear_interpolation_cancel_cycle", json_bool (cs_linear_cancels c));
   ("circular_interpolation_cw_cancel_cycle", json_bool (cs_cw_cancels c));
   ("circular_interpolation_ccw_cancel_cycle", json_bool (cs_ccw_cancels c));
   ("cycle_cancel_starts_rapid_traverse", json_bool (cs_cancel_starts_rapid c));
   ("operator_turns_on_rotation", json_bool (cs_operator_rotation c));
   ("tool_number_executes_exchange", json_bool (cs_tool_executes c));
   ("auto_rapid_traverse_after_tool_exchange", json_bool (cs_auto_rapid c))].

(** NCSettingsDefinition.cs 225-246; the order of the members does not matter. *)
Definition file_tree (f : nc_file) : ptree := object
  [("version", leaf "1.0");
   ("driver", leaf (driver_text (nf_driver f)));
   ("machine_tool", leaf (nf_machine f));
   ("machine_tool_id", leaf (nf_id f));
   ("machine_tool_type", leaf (type_text (nf_type f)));
   ("extras", json_dict json_bool (nf_extras f));
   ("machine_points_data", object [("tool_exchange_point", json_dict number (nf_exchange f));
                                   ("machine_base_point", json_dict number (nf_base f))]);
   ("kinematics", kinematics_tree (nf_kin f));
   ("cnc_default_values", cnc_tree (nf_cnc f));
   ("author", nf_author f);
   ("zero_point", json_dict number (nf_zero f))].

End Json.

(** ** From the file to the form: NCSettingsForm.cs 206-220 *)

(** CNCMachineTool.cs 91-126: the machines in the list of a driver. *)
Definition shown_for (d : driver) (x : string * machine_data) : bool :=
  match d, md_type (snd x) with
  | Drv (PT_FanucMill | PT_GenericMill | PT_HaasMill | PT_MakinoMill), TT_Mill => true
  | Drv (PT_FanucLatheSystemA | PT_FanucLatheSystemB | PT_FanucLatheSystemC | PT_GenericLathe | PT_HaasLathe), TT_Lathe => true
  | Drv (PT_FanucMillturnSystemA | PT_FanucMillturnSystemB), TT_Millturn => String.eqb (fst x) "mill-turn_XYZBC"
  | Heidenhain, _ => true
  | _, _ => false
  end.

(** CNCMachineTool.cs 127-134: the machine of the file, or the first one. *)
Definition active_machine (ms : machines) (f : nc_file) : res (string * machine_data) :=
  let l := filter (shown_for (nf_driver f)) ms in
  match find (fun x => String.eqb (fst x) (nf_machine f)) l, l with
  | Some x, _ => Ok x
  | None, x :: _ => Ok x
  | None, [] => Exc EInvalidArgument
  end.

(** CNCInitialParams.cs 88-96: the names of conf/nc_settings_name_*.json are
    those of the list, another one is an exception. *)
Definition in_list (l : list string) (s : string) : res string :=
  if mem_str s l then Ok s else Exc EInvalidArgument.

(** CNCKinematics.cs 98-105, 125-126; [FindStringExact] does not mind the case. *)
Definition lower (c : ascii) : ascii :=
  if (65 <=? code c) && (code c <=? 90) then ascii_of_nat (nat_of_ascii c + 32) else c.
Fixpoint lower_string (s : string) : string :=
  match s with EmptyString => EmptyString | String c r => String (lower c) (lower_string r) end.
Definition code_list : list string := [""; "M"; "O"].
Definition find_exact (s : string) (l : list string) : option string :=
  find (fun x => String.eqb (lower_string x) (lower_string s)) l.

(** CNCMachinePoints.cs 140-156: what remains in the box when its text changes. *)
Fixpoint validate (acc s : string) : string :=
  match s with
  | EmptyString => acc
  | String c r =>
      if String.eqb acc "" && Ascii.eqb c "-" then validate "-" r
      else match double_parse Invariant (acc ++ String c "") with
           | Ok _ => validate (acc ++ String c "") r
           | Exc _ => validate acc r
           end
  end.

Section Fill.
(** [ToString] of a number in the culture of the form. *)
Variable shows : dbl -> string.

(** CNCMachinePoints.cs 72-88. *)
Definition point_text (m : dmap) (k : string) : res string :=
  match assoc k m with Some d => Ok (validate "" (shows d)) | None => Exc EInvalidArgument end.

Definition number_text_of (m : dmap) (k : string) : res string :=
  match assoc k m with Some d => Ok (shows d) | None => Exc EInvalidArgument end.

(** CNCProgramZero.cs 117-129: the range of the axis is shown. *)
Definition axis_shown (k : kin_settings) (a : string) : res unit :=
  if is_some (assoc a (ks_axes k)) then Ok tt else Exc EInvalidArgument.

(** CNCMachineTool.cs 149-174, CNCKinematics.cs 88-96, 113-140,
    CNCInitialParams.cs 82-116, CNCMachinePoints.cs 65-88, CNCProgramZero.cs
    66-130. A driver that is not in the list leaves the form as it was and is no
    import. X and Y of the zero point keep their text for a lathe, [old]. *)
Definition fill (ms : machines) (old : string * string) (f : nc_file) : res form :=
  match nf_driver f with
  | Heidenhain => Exc EInvalidArgument
  | Drv _ =>
      do am <- active_machine ms f;
      let '(name, md) := am : string * machine_data in
      let same := String.eqb (nf_machine f) name in
      let extras := if same && negb (is_nil (nf_extras f)) then nf_extras f else md_extras md in
      let k := if same && negb (is_nil (ks_axes (nf_kin f))) then nf_kin f else md_kin md in
      let c := if same then nf_cnc f else md_cnc md in
      let pts := if same && negb (is_nil (nf_exchange f)) then (nf_exchange f, nf_base f) else (md_exchange md, md_base md) in
      let zero := if same then nf_zero f
                  else [("X", S754_zero false); ("Y", S754_zero false); ("Z", S754_zero false)] in
      let ty := if same then nf_type f else md_type md in
      do mo <- in_list ["rapid_traverse"; "linear_interpolation"] (motion_text (cs_motion c));
      do pl <- in_list ["XY"; "XZ"; "YZ"] (plane_text (cs_plane c));
      do un <- in_list ["millimeter"; "inch"] (units_text (cs_units c));
      do pr <- in_list ["absolute"; "incremental"] (programming_text (cs_programming c));
      do fm <- in_list ["feed_per_minute"; "feed_per_revolution"] (feed_text (cs_feed_mode c));
      do rd <- in_list ["right"; "left"] (direction_text (cs_direction c));
      do dz <- in_list ["absolute"; "incremental"] (depth_text (cs_z c));
      do dr <- in_list ["beginning"; "point_r"] (return_text (cs_return c));
      do ex <- point_text (fst pts) "X"; do ey <- point_text (fst pts) "Y"; do ez <- point_text (fst pts) "Z";
      do bx <- point_text (snd pts) "X"; do by_ <- point_text (snd pts) "Y"; do bz <- point_text (snd pts) "Z";
      let zk := if same then nf_kin f else md_kin md in
      do xy <- match ty with
               | TT_Mill =>
                   do x <- number_text_of zero "X"; do y <- number_text_of zero "Y";
                   do _ <- axis_shown zk "X"; do _ <- axis_shown zk "Y";
                   Ok (x, y)
               | _ => Ok old
               end;
      do zz <- number_text_of zero "Z";
      do _ <- axis_shown zk "Z";
      Ok (mkForm (nf_driver f) name (nf_id f) extras
            (shows (ks_work_feed k)) (shows (ks_fast_feed k)) (z_to_string (ks_spindle k)) (z_to_string (ks_warehouse k))
            (z_to_string (ks_exchange_time k)) (z_to_string (ks_pallet_time k)) (z_to_string (ks_measure_time k))
            (ks_diameter_2x k) (ks_auto_measure k)
            (find_exact (ks_pallet_code k) code_list) (ks_pallet_value k)
            (find_exact (ks_measure_code k) code_list) (ks_measure_value k)
            (map (fun x => (fst x, (shows (fst (snd x)), shows (snd (snd x))))) (ks_axes k))
            mo pl un pr fm rd dz dr (z_to_string (cs_rotation c))
            (cs_rapid_cancels c) (cs_linear_cancels c) (cs_cw_cancels c) (cs_ccw_cancels c) (cs_cancel_starts_rapid c)
            (cs_operator_rotation c) (cs_tool_executes c) (cs_auto_rapid c)
            ex ey ez bx by_ bz (fst xy) (snd xy) zz)
  end.
End Fill.
