(** Structures shared by the .NET class and the library: how each side lays its
    declaration out in memory, and what one side reads from what the other wrote.
    Source: parser_net/AllAttributesParser.cs, parser/AllAttributesParserWrapperBase.h
    and .cpp, parser/GeneralParserDefines.h, parser/fanuc/AllAttributesParserWrapper.h.
    A system with addresses of eight bytes and the low byte first. *)
From Verif Require Import Model.Base Model.Wrapper Model.Net.
Local Open Scope string_scope.
Local Open Scope list_scope.
Local Open Scope Z_scope.

(** ** Declarations *)

(** A field of a .NET structure: [string] marked [LPStr], [double], [int],
    [uint], an enumeration, [bool] marked [I1], and [bool] with no mark. *)
Inductive net_kind : Type := NText | NDouble | NInt | NUint | NEnum | NBool1 | NBool.

(** A field of a C++ structure: [char*], [double], [int], [unsigned int],
    [enum class], [bool]. *)
Inductive cpp_kind : Type := CText | CDouble | CInt | CUint | CEnum | CBool.

Definition net_size (k : net_kind) : Z :=
  match k with NText | NDouble => 8 | NInt | NUint | NEnum | NBool => 4 | NBool1 => 1 end.
Definition cpp_size (k : cpp_kind) : Z :=
  match k with CText | CDouble => 8 | CInt | CUint | CEnum => 4 | CBool => 1 end.

Definition align_up (o a : Z) : Z := (o + a - 1) / a * a.

(** [StructLayout(LayoutKind.Sequential)] without [Pack]: fields in order, each
    at a multiple of its size or of eight. *)
Definition net_align (k : net_kind) : Z := Z.min (net_size k) 8.

Fixpoint net_layout (o : Z) (fs : list (string * net_kind)) : list (string * net_kind * Z) :=
  match fs with
  | [] => []
  | (n, k) :: fs' => let o := align_up o (net_align k) in (n, k, o) :: net_layout (o + net_size k) fs'
  end.

Fixpoint net_end (o : Z) (fs : list (string * net_kind)) : Z :=
  match fs with [] => o | (_, k) :: fs' => net_end (align_up o (net_align k) + net_size k) fs' end.

(** [Marshal.SizeOf]. *)
Definition net_sizeof (fs : list (string * net_kind)) : Z :=
  align_up (net_end 0 fs) (fold_right (fun f a => Z.max (net_align (snd f)) a) 1 fs).

(** Fields in order, each at a multiple of its size. *)
Fixpoint cpp_layout (o : Z) (fs : list (string * cpp_kind)) : list (string * cpp_kind * Z) :=
  match fs with
  | [] => []
  | (n, k) :: fs' => let o := align_up o (cpp_size k) in (n, k, o) :: cpp_layout (o + cpp_size k) fs'
  end.

Fixpoint cpp_end (o : Z) (fs : list (string * cpp_kind)) : Z :=
  match fs with [] => o | (_, k) :: fs' => cpp_end (align_up o (cpp_size k) + cpp_size k) fs' end.

(** [sizeof]. *)
Definition cpp_sizeof (fs : list (string * cpp_kind)) : Z :=
  align_up (cpp_end 0 fs) (fold_right (fun f a => Z.max (cpp_size (snd f)) a) 1 fs).

(** ** Memory *)

(** The byte at each address. *)
Definition bytes : Type := Z -> Z.

Definition store (n a v : Z) (m : bytes) : bytes :=
  fun x => if (a <=? x) && (x <? a + n) then v / 256 ^ (x - a) mod 256 else m x.

Fixpoint load_bytes (n : nat) (a : Z) (m : bytes) : Z :=
  match n with O => 0 | S n' => m a + 256 * load_bytes n' (a + 1) m end.

(** ** Values *)

(** A number (a double by its bits, an enumeration by its number), a truth value,
    a text or null. *)
Inductive value : Type := VNum (z : Z) | VBool (b : bool) | VText (t : option string).

(** The texts of a call: their addresses. *)
Definition texts : Type := list (Z * string).

Fixpoint text_of (a : Z) (ts : texts) : option string :=
  match ts with [] => None | (b, t) :: ts' => if Z.eqb a b then Some t else text_of a ts' end.

Section Marshal.
(** The address of the n-th text of the call. *)
Variable alloc : nat -> Z.

(** The number a field of [n] bytes holds, and the text made for it. *)
Definition number_of (n : Z) (v : value) (ts : texts) : Z * texts :=
  match v with
  | VNum z => (z mod 256 ^ n, ts)
  | VBool b => (if b then 1 else 0, ts)
  | VText None => (0, ts)
  | VText (Some t) => let a := alloc (List.length ts) in (a, (a, t) :: ts)
  end.

(** The fields, by size and offset, are written one after another.  [m] is what
    was there, and what the padding keeps. *)
Fixpoint store_fields (base : Z) (l : list (Z * Z)) (vs : list value) (m : bytes) (ts : texts) : bytes * texts :=
  match l, vs with
  | (n, o) :: l', v :: vs' =>
      let '(z, ts) := number_of n v ts in
      store_fields base l' vs' (store n (base + o) z m) ts
  | _, _ => (m, ts)
  end.

Fixpoint store_all (l : list (Z * Z)) (size base : Z) (vss : list (list value)) (m : bytes) (ts : texts) : bytes * texts :=
  match vss with
  | [] => (m, ts)
  | vs :: vss' => let '(m, ts) := store_fields base l vs m ts in store_all l size (base + size) vss' m ts
  end.

Definition net_places (fs : list (string * net_kind)) : list (Z * Z) :=
  map (fun e => (net_size (snd (fst e)), snd e)) (net_layout 0 fs).
Definition cpp_places (fs : list (string * cpp_kind)) : list (Z * Z) :=
  map (fun e => (cpp_size (snd (fst e)), snd e)) (cpp_layout 0 fs).

(** The marshaller writes a structure, or an array ([LPArray]) of them. *)
Definition net_struct (fs : list (string * net_kind)) (base : Z) (vs : list value) (m : bytes) (ts : texts) : bytes * texts :=
  store_fields base (net_places fs) vs m ts.
Definition net_array (fs : list (string * net_kind)) (base : Z) (vss : list (list value)) (m : bytes) (ts : texts) : bytes * texts :=
  store_all (net_places fs) (net_sizeof fs) base vss m ts.

(** The library writes an array of structures ([new T[n]]) or one. *)
Definition cpp_array (fs : list (string * cpp_kind)) (base : Z) (vss : list (list value)) (m : bytes) (ts : texts) : bytes * texts :=
  store_all (cpp_places fs) (cpp_sizeof fs) base vss m ts.

End Marshal.

(** ** The library reads *)

(** A text is copied to a [std::string]; null is no text.  A [bool] that is
    neither zero nor one is no [bool]. *)
Definition cpp_field (m : bytes) (ts : texts) (a : Z) (k : cpp_kind) : res value :=
  let z := load_bytes (Z.to_nat (cpp_size k)) a m in
  match k with
  | CText => if Z.eqb z 0 then Exc (EUB "text from null")
             else match text_of z ts with
                  | Some t => do s <- c_text (terminated t); Ok (VText (Some s))
                  | None => Exc (EUB "use of no live allocation")
                  end
  | CDouble | CUint => Ok (VNum z)
  | CInt | CEnum => Ok (VNum (to_i32 z))
  | CBool => if Z.eqb z 0 then Ok (VBool false) else if Z.eqb z 1 then Ok (VBool true) else Exc (EUB "no truth value")
  end.

Fixpoint cpp_fields (m : bytes) (ts : texts) (base : Z) (l : list (string * cpp_kind * Z)) : res (list (string * value)) :=
  match l with
  | [] => Ok []
  | (n, k, o) :: l' =>
      do v <- cpp_field m ts (base + o) k;
      do r <- cpp_fields m ts base l';
      Ok ((n, v) :: r)
  end.

Definition cpp_struct (fs : list (string * cpp_kind)) (m : bytes) (ts : texts) (base : Z) : res (list (string * value)) :=
  cpp_fields m ts base (cpp_layout 0 fs).

(** Element [x] of an array. *)
Definition cpp_element (fs : list (string * cpp_kind)) (m : bytes) (ts : texts) (base : Z) (x : nat) : res (list (string * value)) :=
  cpp_struct fs m ts (base + Z.of_nat x * cpp_sizeof fs).

(** ** The .NET class reads *)

(** [Marshal.PtrToStructure]: null is a null text, any number but zero is true. *)
Definition net_field (m : bytes) (ts : texts) (a : Z) (k : net_kind) : res value :=
  let z := load_bytes (Z.to_nat (net_size k)) a m in
  match k with
  | NText => if Z.eqb z 0 then Ok (VText None)
             else match text_of z ts with
                  | Some t => do s <- c_text (terminated t); Ok (VText (Some s))
                  | None => Exc (EUB "use of no live allocation")
                  end
  | NDouble | NUint => Ok (VNum z)
  | NInt | NEnum => Ok (VNum (to_i32 z))
  | NBool1 | NBool => Ok (VBool (negb (Z.eqb z 0)))
  end.

Fixpoint net_fields (m : bytes) (ts : texts) (base : Z) (l : list (string * net_kind * Z)) : res (list (string * value)) :=
  match l with
  | [] => Ok []
  | (n, k, o) :: l' =>
      do v <- net_field m ts (base + o) k;
      do r <- net_fields m ts base l';
      Ok ((n, v) :: r)
  end.

(** AllAttributesParser.cs 1215-1219 and 1301-1306: element [x]. *)
Definition net_element (fs : list (string * net_kind)) (m : bytes) (ts : texts) (base : Z) (x : nat) : res (list (string * value)) :=
  net_fields m ts (base + Z.of_nat x * net_sizeof fs) (net_layout 0 fs).

(** ** The structures *)

(** AllAttributesParser.cs 213-220; AllAttributesParserWrapperBase.h 89-93. *)
Definition net_word_value : list (string * net_kind) := [("word", NText); ("value", NText)].
Definition cpp_word_value : list (string * cpp_kind) := [("word", CText); ("value", CText)].

(** AllAttributesParser.cs 70-78; AllAttributesParserWrapperBase.h 95-101. *)
Definition net_range : list (string * net_kind) := [("word", NText); ("value_min", NDouble); ("value", NDouble); ("value_max", NDouble)].
Definition cpp_range : list (string * cpp_kind) := [("word", CText); ("value_min", CDouble); ("value", CDouble); ("value_max", CDouble)].

(** AllAttributesParser.cs 80-89 and 91-100; AllAttributesParserWrapperBase.h
    103-110 and 112-119. *)
Definition net_path_result : list (string * net_kind) :=
  [("total", NDouble); ("work_motion", NDouble); ("fast_motion", NDouble); ("tool_total", NDouble); ("tool_id", NText)].
Definition cpp_path_result : list (string * cpp_kind) :=
  [("total", CDouble); ("work_motion", CDouble); ("fast_motion", CDouble); ("tool_total", CDouble); ("tool_id", CText)].

(** AllAttributesParser.cs 164-177; fanuc/CodeGroupsDefines.h 12-15. *)
Definition net_code : list (string * net_kind) := [("code", NUint); ("rest", NUint)].
Definition cpp_code : list (string * cpp_kind) := [("code", CUint); ("rest", CUint)].

(** AllAttributesParser.cs 199-211; fanuc/AllAttributesParserWrapper.h 68-77. *)
Definition net_word_grammar : list (string * net_kind) :=
  [("word", NText); ("range_from", NInt); ("range_to", NInt); ("decimal_from", NUint); ("decimal_to", NUint); ("unique", NBool1); ("type", NEnum)].
Definition cpp_word_grammar : list (string * cpp_kind) :=
  [("word", CText); ("range_from", CInt); ("range_to", CInt); ("decimal_from", CUint); ("decimal_to", CUint); ("unique", CBool); ("word_type", CEnum)].

(** AllAttributesParser.cs 222-235; AllAttributesParserWrapperBase.h 121-129. *)
Definition net_renumber : list (string * net_kind) :=
  [("word", NText); ("step", NUint); ("frequency", NUint); ("max_number", NUint); ("existing_only", NBool1); ("leading_zeroes", NBool1)].
Definition cpp_renumber : list (string * cpp_kind) :=
  [("word", CText); ("step", CUint); ("frequency", CUint); ("max_number", CUint); ("existing_only", CBool); ("leading_zeroes", CBool)].

(** AllAttributesParser.cs 322-329; AllAttributesParserWrapperBase.h 131-136. *)
Definition net_axis : list (string * net_kind) := [("axis", NText); ("range_min", NDouble); ("range_max", NDouble)].
Definition cpp_axis : list (string * cpp_kind) := [("axis", CText); ("range_min", CDouble); ("range_max", CDouble)].

(** AllAttributesParser.cs 331-353; AllAttributesParserWrapperBase.h 138-153. *)
Definition net_kinematics : list (string * net_kind) :=
  [("max_working_feed", NDouble); ("max_fast_feed", NDouble); ("maximum_spindle_speed", NInt); ("numer_of_items_in_the_warehouse", NInt);
   ("tool_exchange_time", NInt); ("pallet_exchange_time", NInt); ("tool_measurement_time", NInt); ("diameter_programming_2x", NBool1);
   ("auto_measure_after_tool_selection", NBool1); ("pallet_exchange_code", NText); ("pallet_exchange_code_value", NText);
   ("tool_measurement_code", NText); ("tool_measurement_code_value", NText)].
Definition cpp_kinematics : list (string * cpp_kind) :=
  [("max_working_feed", CDouble); ("max_fast_feed", CDouble); ("maximum_spindle_speed", CInt); ("numer_of_items_in_the_warehouse", CInt);
   ("tool_exchange_time", CInt); ("pallet_exchange_time", CInt); ("tool_measurement_time", CInt); ("diameter_programming_2x", CBool);
   ("auto_measure_after_tool_selection", CBool); ("pallet_exchange_code", CText); ("pallet_exchange_code_value", CText);
   ("tool_measurement_code", CText); ("tool_measurement_code_value", CText)].

(** AllAttributesParser.cs 399-427; GeneralParserDefines.h 249-268. *)
Definition net_defaults : list (string * net_kind) :=
  [("default_motion", NEnum); ("default_work_plane", NEnum); ("default_driver_units", NEnum); ("default_programming", NEnum);
   ("default_feed_mode", NEnum); ("default_rotation_direction", NEnum); ("drill_cycle_z_value", NEnum); ("drill_cycle_return_value", NEnum);
   ("default_rotation", NInt); ("rapid_traverse_cancel_cycle", NBool1); ("linear_interpolation_cancel_cycle", NBool1);
   ("circular_interpolation_cw_cancel_cycle", NBool1); ("circular_interpolation_ccw_cancel_cycle", NBool1);
   ("cycle_cancel_starts_rapid_traverse", NBool1); ("operator_turns_on_rotation", NBool1); ("tool_number_executes_exchange", NBool1);
   ("auto_rapid_traverse_after_tool_exchange", NBool1)].
Definition cpp_defaults : list (string * cpp_kind) :=
  [("default_motion", CEnum); ("default_work_plane", CEnum); ("default_driver_units", CEnum); ("default_programming", CEnum);
   ("default_feed_mode", CEnum); ("default_rotation_direction", CEnum); ("drill_cycle_z_value", CEnum); ("drill_cycle_return_value", CEnum);
   ("default_rotation", CInt); ("rapid_traverse_cancel_cycle", CBool); ("linear_interpolation_cancel_cycle", CBool);
   ("circular_interpolation_cw_cancel_cycle", CBool); ("circular_interpolation_ccw_cancel_cycle", CBool);
   ("cycle_cancel_starts_rapid_traverse", CBool); ("operator_turns_on_rotation", CBool); ("tool_number_executes_exchange", CBool);
   ("auto_rapid_traverse_after_tool_exchange", CBool)].

(** AllAttributesParser.cs 438-451; AllAttributesParserWrapperBase.h 155-164. *)
Definition net_splitting : list (string * net_kind) :=
  [("type", NEnum); ("step", NInt); ("time", NInt); ("path", NInt); ("text", NText); ("rapid_traverse_only", NBool1); ("retraction_plane", NText)].
Definition cpp_splitting : list (string * cpp_kind) :=
  [("type", CEnum); ("step", CInt); ("time", CInt); ("path", CInt); ("text", CText); ("rapid_traverse_only", CBool); ("retraction_plane", CText)].

(** AllAttributesParser.cs 453-459; GeneralParserDefines.h 140-145. *)
Definition net_zero_point : list (string * net_kind) := [("x", NDouble); ("y", NDouble); ("z", NDouble)].
Definition cpp_zero_point : list (string * cpp_kind) := [("x", CDouble); ("y", CDouble); ("z", CDouble)].

(** AllAttributesParser.cs 515-539; GeneralParserDefines.h 87-94. *)
Definition net_settings : list (string * net_kind) :=
  [("evaluate_macro", NBool1); ("verify_code_groups", NBool1); ("calculate_path", NBool1); ("ncsettings_code_analysis", NBool1); ("zero_point_analysis", NBool1)].
Definition cpp_settings : list (string * cpp_kind) :=
  [("evaluate_macro", CBool); ("verify_code_groups", CBool); ("calculate_path", CBool); ("ncsettings_code_analysis", CBool); ("zero_point_analysis", CBool)].

(** AllAttributesParser.cs 502-513; GeneralParserDefines.h 105-108. *)
Definition net_other : list (string * net_kind) := [("language", NEnum)].
Definition cpp_other : list (string * cpp_kind) := [("language", CEnum)].

Definition shared : list (list (string * net_kind) * list (string * cpp_kind)) :=
  [(net_word_value, cpp_word_value); (net_range, cpp_range); (net_path_result, cpp_path_result); (net_code, cpp_code);
   (net_word_grammar, cpp_word_grammar); (net_renumber, cpp_renumber); (net_axis, cpp_axis); (net_kinematics, cpp_kinematics);
   (net_defaults, cpp_defaults); (net_splitting, cpp_splitting); (net_zero_point, cpp_zero_point); (net_settings, cpp_settings);
   (net_other, cpp_other)].

(** ** Enumerations *)

(** Names and numbers; AllAttributesParser.cs 21-68, 186-197, 237-261, 355-397,
    429-436 and 470-474. *)
Fixpoint numbered (n : Z) (l : list string) : list (string * Z) :=
  match l with [] => [] | x :: l' => (x, n) :: numbered (n + 1) l' end.

Definition machine_names : list string :=
  ["mill_3axis"; "mill_4axis"; "mill_4axis_horizontal"; "mill_4axis_horizontal_pinola"; "mill_4axis_head_gantry"; "mill_5axis_head_head_gantry";
   "mill_5axis_head_table_gantry"; "mill_5axis_table_table"; "mill_5axis_table_tilt"; "mill_5axis_head_table"; "mill_5axis_horizontal_table_table";
   "mill_5axis_horizontal_table_table_pinola"; "lathe_zx"; "lathe_zxc"; "lathe_zxcy"; "lathe_zxcy_steady"; "millturn_XYZBC"; "millturn_XYZBC_steady";
   "millturn_XYZBC_C2"; "millturn_XYZBC_C2_steady"; "millturn_XYZBC_C2_Lower_Left_Turret"; "millturn_XYZBC_C2_Lower_Right_Turret";
   "millturn_XYZBC_C2_Lower_LeftRight_Turret"].
Definition type_names : list string :=
  ["FanucLatheSystemA"; "FanucLatheSystemB"; "FanucLatheSystemC"; "FanucMill"; "FanucMillturnSystemA"; "FanucMillturnSystemB"; "GenericLathe";
   "GenericMill"; "HaasLathe"; "HaasMill"; "MakinoMill"].
Definition word_type_names : list string := ["misc"; "angle"; "calc"; "code"; "feed"; "length"; "macro"; "numbering"; "assignable"].
Definition rotating_names : list string :=
  ["Xrotate90degrees"; "Xrotate180degrees"; "Xrotate270degrees"; "Yrotate90degrees"; "Yrotate180degrees"; "Yrotate270degrees";
   "Zrotate90degrees"; "Zrotate180degrees"; "Zrotate270degrees"].
Definition splitting_names : list string := ["block_numbers"; "tool_change"; "work_motion_time"; "work_motion_path"; "text"].

Definition net_enums : list (string * list (string * Z)) :=
  [("FanucParserType", numbered 0 type_names);
   ("MachineToolType", numbered 0 ["mill"; "lathe"; "millturn"]);
   ("MachineTool", numbered 0 machine_names);
   ("WordType", numbered 0 word_type_names);
   ("UnitConversionType", numbered 0 ["metric_to_imperial"; "imperial_to_metric"]);
   ("DepthProgrammingType", numbered 0 ["absolute"; "incremental"]);
   ("AxesRotatingOption", ("unset", -1) :: numbered 0 rotating_names);
   ("Motion", numbered 0 ["rapid_traverse"; "linear_interpolation"]);
   ("WorkPlane", numbered 17 ["XY"; "XZ"; "YZ"]);
   ("DriverUnits", numbered 0 ["millimeter"; "inch"]);
   ("ProgrammingType", numbered 90 ["absolute"; "incremental"]);
   ("FeedMode", numbered 94 ["feed_per_minute"; "feed_per_revolution"]);
   ("RotationDirection", numbered 3 ["right"; "left"; "stop"]);
   ("DrillCycleReturnValue", numbered 98 ["beginning"; "point_r"]);
   ("FileSplittingType", numbered 0 splitting_names);
   ("Language", numbered 0 ["English"; "Polish"])].

(** GeneralParserDefines.h 29-82, 96-100, 147-235, 290-332 and
    fanuc/AllAttributesParserDefines.h 60-71. *)
Definition cpp_machine_names : list string :=
  ["mill_3axis"; "mill_4axis"; "mill_4axis_horizontal"; "mill_4axis_horizontal_pinola"; "mill_4axis_head_gantry"; "mill_5axis_head_head_gantry";
   "mill_5axis_head_table_gantry"; "mill_5axis_table_table"; "mill_5axis_table_tilt"; "mill_5axis_head_table"; "mill_5axis_horizontal_table_table";
   "mill_5axis_horizontal_table_table_pinola"; "lathe_zx"; "lathe_zxc"; "lathe_zxcy"; "lathe_zxcy_steady"; "millturn_XYZBC"; "millturn_XYZBC_steady";
   "millturn_XYZBC_C2"; "millturn_XYZBC_C2_steady"; "millturn_XYZBC_C2_Lower_Left_Turret"; "millturn_XYZBC_C2_Lower_Right_Turret";
   "millturn_XYZBC_C2_Lower_LeftRight_Turret"].
Definition cpp_type_names : list string :=
  ["FanucLatheSystemA"; "FanucLatheSystemB"; "FanucLatheSystemC"; "FanucMill"; "FanucMillturnSystemA"; "FanucMillturnSystemB"; "GenericLathe";
   "GenericMill"; "HaasLathe"; "HaasMill"; "MakinoMill"].
Definition cpp_word_type_names : list string := ["misc"; "angle"; "calc"; "code"; "feed"; "length"; "macro"; "numbering"; "assignable"].
Definition cpp_rotating_names : list string :=
  ["Xrotate90degrees"; "Xrotate180degrees"; "Xrotate270degrees"; "Yrotate90degrees"; "Yrotate180degrees"; "Yrotate270degrees";
   "Zrotate90degrees"; "Zrotate180degrees"; "Zrotate270degrees"].
Definition cpp_splitting_names : list string := ["block_numbers"; "tool_change"; "work_motion_time"; "work_motion_path"; "text"].

Definition cpp_enums : list (string * list (string * Z)) :=
  [("EFanucParserType", numbered 0 cpp_type_names);
   ("EMachineToolType", numbered 0 ["Mill"; "Lathe"; "Millturn"]);
   ("EMachineTool", numbered 0 cpp_machine_names);
   ("WordType", numbered 0 cpp_word_type_names);
   ("UnitConversionType", numbered 0 ["metric_to_imperial"; "imperial_to_metric"]);
   ("EDepthProgrammingType", [("Absolute", 0); ("Incremental", 1)]);
   ("AxesRotatingOption", numbered 0 cpp_rotating_names);
   ("EMotion", numbered 0 ["RapidTraverse"; "LinearInterpolation"]);
   ("EWorkPlane", numbered 17 ["XY"; "XZ"; "YZ"]);
   ("EDriverUnits", numbered 0 ["Millimeter"; "Inch"]);
   ("EProgrammingType", [("Absolute", 90); ("Incremental", 91)]);
   ("EFeedMode", numbered 94 ["PerMinute"; "PerRevolution"]);
   ("ERotationDirection", numbered 3 ["Right"; "Left"; "Stop"]);
   ("EDrillGreturnMode", [("G98", 98); ("G99", 99)]);
   ("FileSplittingType", numbered 0 cpp_splitting_names);
   ("ELanguage", numbered 0 ["English"; "Polish"])].

(** ** Machine settings *)

(** AllAttributesParser.cs 1482-1506 and 1537-1551: the members of a Kinematics object,
    its axes as an array. *)
Definition net_fill_kinematics (alloc : nat -> Z) (base axes : Z) (k : list value) (axis : list (string * (Z * Z))) (m : bytes) (ts : texts) : bytes * texts :=
  let '(m, ts) := net_struct alloc net_kinematics base k m ts in
  net_array alloc net_axis axes (map (fun e => [VText (Some (fst e)); VNum (fst (snd e)); VNum (snd (snd e))]) axis) m ts.

(** [m[k] = v] for each element, AllAttributesParserWrapperBase.cpp 206-210. *)
Fixpoint cpp_axes (m : bytes) (ts : texts) (base : Z) (n x : nat) (acc : list (string * (Z * Z))) : res (list (string * (Z * Z))) :=
  match n with
  | O => Ok acc
  | S n' =>
      do e <- cpp_element cpp_axis m ts base x;
      match e with
      | [(_, VText (Some a)); (_, VNum lo); (_, VNum hi)] => cpp_axes m ts base n' (S x) (assign a (lo, hi) acc)
      | _ => Exc (EUB "no axis")
      end
  end.

(** AllAttributesParserWrapperBase.cpp 186-213. *)
Definition cpp_fill_kinematics (m : bytes) (ts : texts) (base axes : Z) (n : nat) : res (list (string * value) * list (string * (Z * Z))) :=
  do k <- cpp_struct cpp_kinematics m ts base;
  do a <- cpp_axes m ts axes n 0 [];
  Ok (k, a).

(** AllAttributesParser.cs 1529-1534.  [EOutOfRange] stands for
    KeyNotFoundException. *)
Definition net_zero_point_of (d : list (string * Z)) : res (list value) :=
  match assoc "X" d, assoc "Y" d, assoc "Z" d with
  | Some x, Some y, Some z => Ok [VNum x; VNum y; VNum z]
  | _, _, _ => Exc EOutOfRange
  end.

(** AllAttributesParser.cs 1539-1541 or 1542-1544 into
    AllAttributesParserWrapperBase.cpp 22-25. *)
Definition points_of (d : list (string * Z)) : res (list (string * Z)) :=
  fold_left (fun r e => do m <- r; do k <- c_text (terminated (fst e)); Ok (assign k (snd e) m)) d (Ok []).
