(** Reading the configuration files.
    Source: nclangsrv/NCSettingsReader.cpp, WordGrammarReader.cpp,
    CodeGroupsReader.cpp. boost's JSON reader is not modelled: a file is its
    property tree (a number, a truth value or a text is the data of a node, the
    members of an object and, with empty names, of an array are its children in
    order), or nothing when it cannot be opened or is no JSON. The exceptions of
    the property tree are collapsed into invalid_argument: the readers catch
    every [std::exception]. *)
From Verif Require Import Model.Base Model.Attr Model.Double Model.Verifiers Model.PathCalc Model.Enums Model.Wrapper.

Inductive ptree : Type := PTree (data : string) (kids : list (string * ptree)).

Definition pt_data (t : ptree) : string := match t with PTree d _ => d end.
Definition pt_kids (t : ptree) : list (string * ptree) := match t with PTree _ k => k end.

(** [get_child]: the first child of that name (the names used have no points). *)
Definition pt_child (k : string) (t : ptree) : res ptree :=
  match assoc k (pt_kids t) with
  | Some c => Ok c
  | None => Exc EInvalidArgument
  end.

(** ** Values
    boost/property_tree/stream_translator.hpp: the value is extracted with
    [operator>>], white space is skipped and the text has to be used up. The
    extraction is the one of libstdc++. *)

(** White space, an optional sign, digits, and the rest. *)
Definition number_text (s : string) : bool * string * string :=
  let s1 := snd (span is_space s) in
  let '(neg, s2) :=
    match s1 with
    | String c r => if Ascii.eqb c "-" then (true, r) else if Ascii.eqb c "+" then (false, r) else (false, s1)
    | EmptyString => (false, s1)
    end in
  let '(ds, r) := span is_digit s2 in
  (neg, ds, r).

Definition finished {A} (rest : string) (a : A) : res A :=
  if all_chars is_space rest then Ok a else Exc EInvalidArgument.

(** [int]. *)
Definition value_int (s : string) : res Z :=
  let '(neg, ds, r) := number_text s in
  let n := if neg : bool then - digits_val ds else digits_val ds in
  if negb (String.eqb ds "") && (int_min <=? n) && (n <=? int_max) then finished r n else Exc EInvalidArgument.

(** [unsigned int]: a sign is accepted and the value wraps. *)
Definition value_uint (s : string) : res Z :=
  let '(neg, ds, r) := number_text s in
  if negb (String.eqb ds "") && (digits_val ds <? 2 ^ 32)
  then finished r (to_u32 (if neg : bool then - digits_val ds else digits_val ds)) else Exc EInvalidArgument.

(** [double]: digits with a point, and an exponent when there were digits in
    front of it; an exponent without digits fails, and so does a value that
    overflows. A value that underflows is accepted. *)
Definition value_double (s : string) : res dbl :=
  let '(neg, ip, s1) := number_text s in
  let '(fp, s2) :=
    match s1 with
    | String c r => if Ascii.eqb c "." then span is_digit r else (EmptyString, s1)
    | EmptyString => (EmptyString, s1)
    end in
  if String.eqb (ip ++ fp) "" then Exc EInvalidArgument
  else
    do er <- match s2 with
             | String c r =>
                 if Ascii.eqb c "e" || Ascii.eqb c "E" then
                   let '(eneg, r1) := match r with
                                      | String d r' => if Ascii.eqb d "-" then (true, r')
                                                       else if Ascii.eqb d "+" then (false, r') else (false, r)
                                      | EmptyString => (false, r)
                                      end in
                   let '(es, r2) := span is_digit r1 in
                   if String.eqb es "" then Exc EInvalidArgument
                   else Ok (if eneg : bool then - digits_val es else digits_val es, r2)
                 else Ok (0, s2)
             | EmptyString => Ok (0, s2)
             end;
    let '(e, rest) := er : Z * string in
    let num := digits_val (ip ++ fp) in
    let e := e - Z.of_nat (String.length fp) in
    let v := if 0 <=? e then d_of_ratio neg (num * 10 ^ e) 1 else d_of_ratio neg num (10 ^ (- e)) in
    match v with
    | S754_infinity _ => Exc EInvalidArgument
    | _ => finished rest v
    end.

(** [bool]: first as the number 0 or 1; when that fails, "true" or "false" in
    what is left of the text (a sign and digits are gone then). *)
Definition value_bool (s : string) : res bool :=
  let '(neg, ds, r) := number_text s in
  if negb (String.eqb ds "") && (digits_val ds =? 0) then finished r false
  else if negb (String.eqb ds "") && (digits_val ds =? 1) && negb neg then finished r true
  else
    let r := snd (span is_space r) in
    if String.prefix "true" r then finished (String.substring 4 (String.length r - 4) r) true
    else if String.prefix "false" r then finished (String.substring 5 (String.length r - 5) r) false
    else Exc EInvalidArgument.

(** [get<T>(k)]. *)
Definition pt_get {A} (value : string -> res A) (k : string) (t : ptree) : res A :=
  do c <- pt_child k t; value (pt_data c).

Definition pt_string : string -> ptree -> res string := pt_get (fun s => Ok s).
Definition pt_int := pt_get value_int.
Definition pt_uint := pt_get value_uint.
Definition pt_double := pt_get value_double.
Definition pt_bool := pt_get value_bool.
Definition pt_enum {E} (to_e : string -> res E) := pt_get (setting_read to_e).

(** ** CodeGroupsReader.cpp 25-65 *)

(** 38-46, the table as far as it was filled and whether that was all. *)
Fixpoint read_codes (g : string) (l : list (string * ptree)) (m : code_groups) : code_groups * bool :=
  match l with
  | [] => (m, true)
  | (_, t) :: l' =>
      match (do c <- pt_uint "code" t; do r <- pt_uint "rest" t; Ok (mkCgv c r)) with
      | Exc _ => (m, false)
      | Ok c => read_codes g l' (add_group c g m)
      end
  end.

Fixpoint read_group_list (l : list (string * ptree)) (m : code_groups) : code_groups * bool :=
  match l with
  | [] => (m, true)
  | (g, t) :: l' =>
      match read_codes g (pt_kids t) m with
      | (m', true) => read_group_list l' m'
      | r => r
      end
  end.

(** What a new reader holds after [read], and what [read] returns. *)
Definition read_groups (f : option ptree) : code_groups * bool :=
  match f with
  | None => ([], false)
  | Some root =>
      match pt_child "groups" root with
      | Exc _ => ([], false)
      | Ok gs => read_group_list (pt_kids gs) []
      end
  end.

(** ** WordGrammarReader.cpp 20-87 *)

(** 27-33: the value of the assignment comes before its place. *)
Definition read_word (t : ptree) : res word_grammar :=
  do w <- pt_string "word" t;
  do a <- pt_int "range_from" t;
  do b <- pt_int "range_to" t;
  do c <- pt_uint "decimal_from" t;
  do d <- pt_uint "decimal_to" t;
  do u <- pt_bool "unique" t;
  do ty <- pt_enum to_word_type "type" t;
  Ok (mkWG w a b c d u ty).

Fixpoint read_words (l : list (string * ptree)) (m : word_map) : word_map * bool :=
  match l with
  | [] => (m, true)
  | (w, t) :: l' =>
      match read_word t with
      | Exc _ => (m, false)
      | Ok g => read_words l' (assign w g m)
      end
  end.

Definition read_unit (unit : string) (root : ptree) : word_map * bool :=
  match pt_child unit root with
  | Exc _ => ([], false)
  | Ok t => read_words (pt_kids t) []
  end.

(** 51-66: what a new reader holds after [read], and what [read] returns. *)
Definition read_grammar (f : option ptree) : fanuc_grammar * list string * bool :=
  match f with
  | None => (mkFG [] [], [], false)
  | Some root =>
      match read_unit "metric" root with
      | (m, false) => (mkFG m [], [], false)
      | (m, true) =>
          match read_unit "imperial" root with
          | (i, false) => (mkFG m i, [], false)
          | (i, true) =>
              match pt_child "operations" root with
              | Exc _ => (mkFG m i, [], false)
              | Ok ops => (mkFG m i, map (fun kt => pt_data (snd kt)) (pt_kids ops), true)
              end
          end
      end
  end.

(** ** NCSettingsReader.cpp *)

(** GeneralParserDefines.h 117-138: Kinematics. *)
Record kin_settings : Type := mkKS {
  ks_axes : list (string * (dbl * dbl));
  ks_work_feed : dbl;
  ks_fast_feed : dbl;
  ks_spindle : Z;
  ks_warehouse : Z;
  ks_exchange_time : Z;
  ks_pallet_time : Z;
  ks_measure_time : Z;
  ks_diameter_2x : bool;
  ks_auto_measure : bool;
  ks_pallet_code : string;
  ks_pallet_value : string;
  ks_measure_code : string;
  ks_measure_value : string
}.

(** GeneralParserDefines.h 246-265: CncDefaultValues. *)
Record cnc_settings : Type := mkCS {
  cs_motion : motion;
  cs_plane : work_plane;
  cs_units : driver_units;
  cs_programming : programming;
  cs_feed_mode : feed_mode;
  cs_direction : rotation_dir;
  cs_z : depth_programming;
  cs_return : drill_return;
  cs_rotation : Z;
  cs_rapid_cancels : bool;
  cs_linear_cancels : bool;
  cs_cw_cancels : bool;
  cs_ccw_cancels : bool;
  cs_cancel_starts_rapid : bool;
  cs_operator_rotation : bool;
  cs_tool_executes : bool;
  cs_auto_rapid : bool
}.

(** NCSettingsReader.h 54-62. *)
Record settings : Type := mkSettings {
  se_tool : machine_tool;
  se_type : tool_type;
  se_driver : parser_type;
  se_exchange : dmap;
  se_base : dmap;
  se_kin : kin_settings;
  se_cnc : cnc_settings;
  se_zero : zero_point
}.

(** NCSettingsReader.cpp 25-66. *)
Definition default_settings : settings :=
  mkSettings MT_mill_3axis TT_Mill PT_FanucMill
    [("X", dzero); ("Y", dzero); ("Z", d_of_Z 500)]
    [("I", dzero); ("J", dzero); ("K", dzero); ("X", dzero); ("Y", dzero); ("Z", d_of_Z 500)]
    (mkKS [("X", (d_of_Z (-500), d_of_Z 500)); ("Y", (d_of_Z (-500), d_of_Z 500)); ("Z", (dzero, d_of_Z 1000))]
          (d_of_Z 20000) (d_of_Z 20000) 10000 30 6 1 3 false false "" "" "" "")
    (mkCS RapidTraverse WP_XY Millimeter ProgAbsolute FeedPerMinute RotRight DepthAbsolute Return_G98 0
          false false false false false false false false)
    (mkZP dzero dzero dzero).

(** [emplace] into an ordered map: the first value of a key stays. *)
Definition memplace {A} (k : string) (v : A) (m : list (string * A)) : list (string * A) :=
  if is_some (assoc k m) then m else mset k v m.

(** 88-93, 99-104. *)
Fixpoint read_table {A} (value : ptree -> res A) (l : list (string * ptree)) (m : list (string * A))
  : res (list (string * A)) :=
  match l with
  | [] => Ok m
  | (k, t) :: l' => do v <- value t; read_table value l' (memplace k v m)
  end.

(** 81-83, 86-93, 96-124, 127-153, 156-160. *)
Definition read_points (root : ptree) : res (dmap * dmap) :=
  do mpd <- pt_child "machine_points_data" root;
  do t <- pt_child "tool_exchange_point" mpd;
  do ex <- read_table (fun t => value_double (pt_data t)) (pt_kids t) [];
  do t <- pt_child "machine_base_point" mpd;
  do base <- read_table (fun t => value_double (pt_data t)) (pt_kids t) [];
  Ok (ex, base).

Definition read_axis (t : ptree) : res (dbl * dbl) :=
  do a <- pt_double "range_min" t; do b <- pt_double "range_max" t; Ok (a, b).

Definition read_kinematics (root : ptree) : res kin_settings :=
  do k <- pt_child "kinematics" root;
  do t <- pt_child "cartesian_system_axis" k;
  do axes <- read_table read_axis (pt_kids t) [];
  do wf <- pt_double "max_working_feed" k;
  do ff <- pt_double "max_fast_feed" k;
  do sp <- pt_int "maximum_spindle_speed" k;
  do wh <- pt_int "numer_of_items_in_the_warehouse" k;
  do te <- pt_int "tool_exchange_time" k;
  do pe <- pt_int "pallet_exchange_time" k;
  do tm <- pt_int "tool_measurement_time" k;
  do d2 <- pt_bool "diameter_programming_2x" k;
  do am <- pt_bool "auto_measure_after_tool_selection" k;
  do pc <- pt_string "pallet_exchange_code" k;
  do pv <- pt_string "pallet_exchange_code_value" k;
  do mc <- pt_string "tool_measurement_code" k;
  do mv <- pt_string "tool_measurement_code_value" k;
  Ok (mkKS axes wf ff sp wh te pe tm d2 am pc pv mc mv).

Definition read_cnc (root : ptree) : res cnc_settings :=
  do c <- pt_child "cnc_default_values" root;
  do mo <- pt_enum to_motion "default_motion" c;
  do pl <- pt_enum to_work_plane "default_work_plane" c;
  do un <- pt_enum to_driver_units "default_driver_units" c;
  do pr <- pt_enum to_programming "default_programming" c;
  do fm <- pt_enum to_feed_mode "default_feed_mode" c;
  do rd <- pt_enum to_rotation_dir "default_rotation_direction" c;
  do dz <- pt_enum to_depth_programming "drill_cycle_z_value" c;
  do dr <- pt_enum to_drill_return "drill_cycle_return_value" c;
  do ro <- pt_int "default_rotation" c;
  do rc <- pt_bool "rapid_traverse_cancel_cycle" c;
  do lc <- pt_bool "linear_interpolation_cancel_cycle" c;
  do cw <- pt_bool "circular_interpolation_cw_cancel_cycle" c;
  do ccw <- pt_bool "circular_interpolation_ccw_cancel_cycle" c;
  do cs <- pt_bool "cycle_cancel_starts_rapid_traverse" c;
  do op <- pt_bool "operator_turns_on_rotation" c;
  do tn <- pt_bool "tool_number_executes_exchange" c;
  do ar <- pt_bool "auto_rapid_traverse_after_tool_exchange" c;
  Ok (mkCS mo pl un pr fm rd dz dr ro rc lc cw ccw cs op tn ar).

Definition read_zero (root : ptree) : res zero_point :=
  do zp <- pt_child "zero_point" root;
  do x <- pt_double "X" zp;
  do y <- pt_double "Y" zp;
  do z <- pt_double "Z" zp;
  Ok (mkZP x y z).

Definition settings_of (root : ptree) : res settings :=
  do mt <- pt_enum to_machine_tool "machine_tool" root;
  do ty <- pt_enum to_tool_type "machine_tool_type" root;
  do dr <- pt_enum to_parser_type "driver" root;
  do pts <- read_points root;
  do kin <- read_kinematics root;
  do cnc <- read_cnc root;
  do zp <- read_zero root;
  Ok (mkSettings mt ty dr (fst pts) (snd pts) kin cnc zp).

(** NCSettingsReader.cpp 68-186. What a failing call leaves in the members is
    [left], which is arbitrary. *)
Record settings_reader : Type := mkSR { sr_settings : settings; sr_read : bool }.

Definition settings_new : settings_reader := mkSR default_settings false.

Definition settings_read (left : settings) (f : option ptree) (r : settings_reader) : settings_reader * bool :=
  if sr_read r then (r, true)
  else match f with
       | None => (mkSR left false, false)
       | Some root =>
           match settings_of root with
           | Ok s => (mkSR s true, true)
           | Exc _ => (mkSR left false, false)
           end
       end.

(** ** What the parser gets of it (NCParser.cpp 263-265, 320-323, 387-388) *)

Definition tool_kind (t : tool_type) : machine_tool_type :=
  match t with TT_Mill => MTMill | TT_Lathe => MTLathe | TT_Millturn => MTMillturn end.

(** The numbers of the enumerations: GeneralParserDefines.h 147-235. *)
Definition cnc_of (c : cnc_settings) : cnc_defaults :=
  mkCnc (match cs_motion c with RapidTraverse => 0 | LinearInterpolation => 1 end)
        (match cs_plane c with WP_XY => 17 | WP_XZ => 18 | WP_YZ => 19 end)
        (match cs_units c with Millimeter => false | Inch => true end)
        (match cs_programming c with ProgAbsolute => 90 | ProgIncremental => 91 end)
        (match cs_feed_mode c with FeedPerMinute => 94 | FeedPerRevolution => 95 end)
        (match cs_z c with DepthAbsolute => false | DepthIncremental => true end)
        (match cs_return c with Return_G98 => 98 | Return_G99 => 99 end)
        (cs_rotation c) (cs_rapid_cancels c) (cs_linear_cancels c) (cs_cw_cancels c) (cs_ccw_cancels c)
        (cs_cancel_starts_rapid c) (cs_operator_rotation c) (cs_tool_executes c) (cs_auto_rapid c).

Definition machine_of (s : settings) : machine :=
  let k := se_kin s in
  mkMachine (match se_tool s with MT_lathe_zx | MT_lathe_zxc => true | _ => false end) (tool_kind (se_type s))
    (se_exchange s) (se_base s) (map fst (ks_axes k)) (ks_fast_feed k) (ks_exchange_time k) (ks_pallet_time k)
    (ks_measure_time k) (ks_diameter_2x k) (ks_auto_measure k) (ks_pallet_code k) (ks_pallet_value k)
    (ks_measure_code k) (ks_measure_value k) (cnc_of (se_cnc s)).

Definition kinematics_of (s : settings) : kinematics :=
  mkKin (ks_axes (se_kin s)) (ks_work_feed (se_kin s)) (ks_spindle (se_kin s)) (ks_warehouse (se_kin s)).
