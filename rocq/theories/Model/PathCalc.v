(** Path and time of a program.
    Source: parser/fanuc/AttributesPathCalculator.h, AttributesPathCalculator.cpp.
    The names of the messages are kept, their texts are not. *)
From Verif Require Import Model.Base Model.Attr Model.Double Model.Macro Model.Verifiers Model.Splitter Model.PathGeom.

(** ** [std::map<std::string, double>] in iteration order *)

Definition dmap := list (string * dbl).

Fixpoint mset {A} (k : string) (v : A) (m : list (string * A)) : list (string * A) :=
  match m with
  | [] => [(k, v)]
  | (k', v') :: m' =>
      if String.eqb k k' then (k, v) :: m'
      else if String.ltb k k' then (k, v) :: m
      else (k', v') :: mset k v m'
  end.

(** ** Settings *)

(** GeneralParserDefines.h 282-301: CncDefaultValues.  The members of the
    enumerations are their numbers; [default_rotation_direction] is not read. *)
Record cnc_defaults : Type := mkCnc {
  cd_motion : Z;
  cd_plane : Z;
  cd_inch : bool;
  cd_programming : Z;
  cd_feed_mode : Z;
  cd_z_incremental : bool;
  cd_return : Z;
  cd_rotation : Z;
  cd_rapid_cancels : bool;
  cd_linear_cancels : bool;
  cd_cw_cancels : bool;
  cd_ccw_cancels : bool;
  cd_cancel_starts_rapid : bool;
  cd_operator_rotation : bool;
  cd_tool_executes : bool;
  cd_auto_rapid : bool
}.

(** The machine: GeneralParserDefines.h 110-138 and the machine tool.
    [mc_no_y] stands for the machine tools lathe_zx and lathe_zxc. *)
Record machine : Type := mkMachine {
  mc_no_y : bool;
  mc_type : machine_tool_type;
  mc_exchange_point : dmap;
  mc_base_point : dmap;
  mc_axes : list string;
  mc_fast_feed : dbl;
  mc_exchange_time : Z;
  mc_pallet_time : Z;
  mc_measure_time : Z;
  mc_diameter_2x : bool;
  mc_auto_measure : bool;
  mc_pallet_code : string;
  mc_pallet_value : string;
  mc_measure_code : string;
  mc_measure_value : string;
  mc_cnc : cnc_defaults
}.

(** AttributesPathCalculator.h 96 and AttributesPathCalculator.cpp 413, 435. *)
Definition is_param (mc : machine) (w : string) : bool :=
  mem_str w ["X"; "Y"; "Z"; "I"; "J"; "K"; "R"; "Q"; "L"; "P"; "U"] || mem_str w (mc_axes mc).

(** ** The visitor: AttributesPathCalculator.cpp 38-294 *)

Record found : Type := mkFound {
  v_values : dmap;
  v_f : option dbl;
  v_s : option dbl;
  v_g : option Z;
  v_plane : option Z;
  v_return : option Z;
  v_prog : option Z;
  v_css : option Z;
  v_feed : option Z;
  v_other : list string;
  v_tools : list string;
  v_m6 : bool;
  v_comment : bool;
  v_pallet : bool;
  v_measure : bool
}.

Definition found_init : found :=
  mkFound [] None None None None None None None None [] [] false false false false.

Definition with_values x (v : found) := mkFound x (v_f v) (v_s v) (v_g v) (v_plane v) (v_return v) (v_prog v) (v_css v) (v_feed v) (v_other v) (v_tools v) (v_m6 v) (v_comment v) (v_pallet v) (v_measure v).
Definition with_f x (v : found) := mkFound (v_values v) x (v_s v) (v_g v) (v_plane v) (v_return v) (v_prog v) (v_css v) (v_feed v) (v_other v) (v_tools v) (v_m6 v) (v_comment v) (v_pallet v) (v_measure v).
Definition with_s x (v : found) := mkFound (v_values v) (v_f v) x (v_g v) (v_plane v) (v_return v) (v_prog v) (v_css v) (v_feed v) (v_other v) (v_tools v) (v_m6 v) (v_comment v) (v_pallet v) (v_measure v).
Definition with_g x (v : found) := mkFound (v_values v) (v_f v) (v_s v) x (v_plane v) (v_return v) (v_prog v) (v_css v) (v_feed v) (v_other v) (v_tools v) (v_m6 v) (v_comment v) (v_pallet v) (v_measure v).
Definition with_plane x (v : found) := mkFound (v_values v) (v_f v) (v_s v) (v_g v) x (v_return v) (v_prog v) (v_css v) (v_feed v) (v_other v) (v_tools v) (v_m6 v) (v_comment v) (v_pallet v) (v_measure v).
Definition with_return x (v : found) := mkFound (v_values v) (v_f v) (v_s v) (v_g v) (v_plane v) x (v_prog v) (v_css v) (v_feed v) (v_other v) (v_tools v) (v_m6 v) (v_comment v) (v_pallet v) (v_measure v).
Definition with_prog x (v : found) := mkFound (v_values v) (v_f v) (v_s v) (v_g v) (v_plane v) (v_return v) x (v_css v) (v_feed v) (v_other v) (v_tools v) (v_m6 v) (v_comment v) (v_pallet v) (v_measure v).
Definition with_css x (v : found) := mkFound (v_values v) (v_f v) (v_s v) (v_g v) (v_plane v) (v_return v) (v_prog v) x (v_feed v) (v_other v) (v_tools v) (v_m6 v) (v_comment v) (v_pallet v) (v_measure v).
Definition with_feed x (v : found) := mkFound (v_values v) (v_f v) (v_s v) (v_g v) (v_plane v) (v_return v) (v_prog v) (v_css v) x (v_other v) (v_tools v) (v_m6 v) (v_comment v) (v_pallet v) (v_measure v).
Definition with_other x (v : found) := mkFound (v_values v) (v_f v) (v_s v) (v_g v) (v_plane v) (v_return v) (v_prog v) (v_css v) (v_feed v) x (v_tools v) (v_m6 v) (v_comment v) (v_pallet v) (v_measure v).
Definition with_tools x (v : found) := mkFound (v_values v) (v_f v) (v_s v) (v_g v) (v_plane v) (v_return v) (v_prog v) (v_css v) (v_feed v) (v_other v) x (v_m6 v) (v_comment v) (v_pallet v) (v_measure v).
Definition with_m6 x (v : found) := mkFound (v_values v) (v_f v) (v_s v) (v_g v) (v_plane v) (v_return v) (v_prog v) (v_css v) (v_feed v) (v_other v) (v_tools v) x (v_comment v) (v_pallet v) (v_measure v).
Definition with_comment x (v : found) := mkFound (v_values v) (v_f v) (v_s v) (v_g v) (v_plane v) (v_return v) (v_prog v) (v_css v) (v_feed v) (v_other v) (v_tools v) (v_m6 v) x (v_pallet v) (v_measure v).
Definition with_pallet x (v : found) := mkFound (v_values v) (v_f v) (v_s v) (v_g v) (v_plane v) (v_return v) (v_prog v) (v_css v) (v_feed v) (v_other v) (v_tools v) (v_m6 v) (v_comment v) x (v_measure v).
Definition with_measure x (v : found) := mkFound (v_values v) (v_f v) (v_s v) (v_g v) (v_plane v) (v_return v) (v_prog v) (v_css v) (v_feed v) (v_other v) (v_tools v) (v_m6 v) (v_comment v) (v_pallet v) x.

(** AttributesPathCalculator.cpp 76-91: the number of an axis or parameter. *)
Definition param_value (d : decimal) : res dbl :=
  do x <- stod (opt_chr (d_sign d) ++ opt_str (d_value d) ++ opt_chr (d_dot d) ++ opt_str (d_value2 d))%string;
  Ok (if String.eqb (d_word d) "P" && negb (is_some (d_dot d)) then ddiv x (dz 1000) else x).

(** AttributesPathCalculator.cpp 105-117, 120-133: feed and speed. *)
Definition plain_value (d : decimal) : res dbl :=
  stod (opt_str (d_value d) ++ match d_dot d with Some c => String c (opt_str (d_value2 d)) | None => "" end)%string.

(** AttributesPathCalculator.cpp 142-149 and 189-195. *)
Definition service_codes (mc : machine) (w value : string) (v : found) : found :=
  let v := if String.eqb w (mc_pallet_code mc) && String.eqb value (mc_pallet_value mc) then with_pallet true v else v in
  if negb (mc_auto_measure mc) && (String.eqb w (mc_measure_code mc) && String.eqb value (mc_measure_value mc))
  then with_measure true v else v.

(** AttributesPathCalculator.cpp 151-184. *)
Definition visit_g (d : decimal) (v : found) : res found :=
  match d_value d with
  | None => Ok v
  | Some t =>
      do n <- stoi t;
      Ok (if existsb (Z.eqb n) [17; 18; 19] then with_plane (Some n) v
          else if ((0 <=? n) && (n <=? 3)) || (n =? 80) || is_drill_cycle n || is_drill_cycle_qparam n then with_g (Some n) v
          else if existsb (Z.eqb n) [94; 95] then with_feed (Some n) v
          else if existsb (Z.eqb n) [96; 97] then with_css (Some n) v
          else if existsb (Z.eqb n) [98; 99] then with_return (Some n) v
          else if existsb (Z.eqb n) [90; 91] then with_prog (Some n) v
          else let more := match d_dot d, d_value2 d with Some c, Some t2 => String c t2 | _, _ => ""%string end in
               with_other (v_other v ++ [(t ++ more)%string]) v)
  end.

(** AttributesPathCalculator.cpp 49-185. *)
Definition visit_decimal (mc : machine) (d : decimal) (v : found) : res found :=
  let w := d_word d in
  if String.eqb w "/" then Ok (with_comment true v)
  else if v_comment v then Ok v
  else if is_param mc w then
    if negb (is_some (d_value d)) && negb (is_some (d_dot d)) then Ok v
    else do x <- param_value d; Ok (with_values (mset w x (v_values v)) v)
  else if String.eqb w "T" then
    match d_value d with
    | Some t => if is_some (d_dot d) || is_some (d_value2 d) then Ok v
                else Ok (with_tools (v_tools v ++ [tool_number_text (mc_type mc) t]) v)
    | None => Ok v
    end
  else if String.eqb w "F" then
    if negb (is_some (d_value d)) && negb (is_some (d_dot d)) then Ok v
    else do x <- plain_value d; Ok (with_f (Some x) v)
  else if String.eqb w "S" then
    if negb (is_some (d_value d)) && negb (is_some (d_dot d)) then Ok v
    else do x <- plain_value d; Ok (with_s (Some x) v)
  else if String.eqb w "M" then
    match d_value d with
    | Some t => if is_some (d_dot d) || is_some (d_value2 d) then Ok v
                else do n <- stoi t; Ok (service_codes mc w t (if n =? 6 then with_m6 true v else v))
    | None => Ok v
    end
  else if String.eqb w "G" then visit_g d v
  else Ok v.

(** AttributesPathCalculator.cpp 187-201. *)
Definition visit_attr (mc : machine) (v : found) (a : attr) : res found :=
  match a with
  | ADec d => visit_decimal mc d v
  | AStr w t => Ok (service_codes mc w t v)
  | AChr _ _ => Ok v
  end.

(** AttributesPathCalculator.cpp 253-264: get_t. *)
Definition found_tool (v : found) : option string :=
  if v_m6 v then hd_error (v_tools v) else hd_error (rev (v_tools v)).

(** ** What is kept between blocks *)

(** GeneralParserDefines.h 303-321. *)
Record path_result : Type := mkPath {
  p_total : dbl;
  p_work : dbl;
  p_fast : dbl;
  p_tool_total : dbl;
  p_tool_id : string;
  p_cycle : dbl * dbl;
  p_holes : Z
}.

Record time_result : Type := mkTime {
  t_total : dbl;
  t_work : dbl;
  t_fast : dbl;
  t_tool_total : dbl;
  t_tool_id : string
}.

Definition path_zero : path_result := mkPath dzero dzero dzero dzero "" none2 0.
Definition time_zero : time_result := mkTime dzero dzero dzero dzero "".

(** AttributesPathCalculator.h 28-33. *)
Inductive helix : Type := HNone | HFull | HQuarter.

(** AttributesPathCalculator.h 88-109. *)
Record calc : Type := mkCalc {
  c_path : path_result;
  c_time : time_result;
  c_prev : dmap;
  c_tpath : dmap;
  c_ttime : dmap;
  c_range : word_range_map;
  c_f : dbl;
  c_s : dbl;
  c_g : Z;
  c_plane : Z;
  c_return : Z;
  c_prog : Z;
  c_css : Z;
  c_feed : Z;
  c_helix : helix;
  c_tool : string;
  c_auto : bool
}.

Definition set_path x (c : calc) := mkCalc x (c_time c) (c_prev c) (c_tpath c) (c_ttime c) (c_range c) (c_f c) (c_s c) (c_g c) (c_plane c) (c_return c) (c_prog c) (c_css c) (c_feed c) (c_helix c) (c_tool c) (c_auto c).
Definition set_time x (c : calc) := mkCalc (c_path c) x (c_prev c) (c_tpath c) (c_ttime c) (c_range c) (c_f c) (c_s c) (c_g c) (c_plane c) (c_return c) (c_prog c) (c_css c) (c_feed c) (c_helix c) (c_tool c) (c_auto c).
Definition set_positions p r (c : calc) := mkCalc (c_path c) (c_time c) p (c_tpath c) (c_ttime c) r (c_f c) (c_s c) (c_g c) (c_plane c) (c_return c) (c_prog c) (c_css c) (c_feed c) (c_helix c) (c_tool c) (c_auto c).
Definition set_tool_maps p t (c : calc) := mkCalc (c_path c) (c_time c) (c_prev c) p t (c_range c) (c_f c) (c_s c) (c_g c) (c_plane c) (c_return c) (c_prog c) (c_css c) (c_feed c) (c_helix c) (c_tool c) (c_auto c).
Definition set_g x (c : calc) := mkCalc (c_path c) (c_time c) (c_prev c) (c_tpath c) (c_ttime c) (c_range c) (c_f c) (c_s c) x (c_plane c) (c_return c) (c_prog c) (c_css c) (c_feed c) (c_helix c) (c_tool c) (c_auto c).
Definition set_helix x (c : calc) := mkCalc (c_path c) (c_time c) (c_prev c) (c_tpath c) (c_ttime c) (c_range c) (c_f c) (c_s c) (c_g c) (c_plane c) (c_return c) (c_prog c) (c_css c) (c_feed c) x (c_tool c) (c_auto c).
Definition set_tool x (c : calc) := mkCalc (c_path c) (c_time c) (c_prev c) (c_tpath c) (c_ttime c) (c_range c) (c_f c) (c_s c) (c_g c) (c_plane c) (c_return c) (c_prog c) (c_css c) (c_feed c) (c_helix c) x (c_auto c).
Definition set_auto x (c : calc) := mkCalc (c_path c) (c_time c) (c_prev c) (c_tpath c) (c_ttime c) (c_range c) (c_f c) (c_s c) (c_g c) (c_plane c) (c_return c) (c_prog c) (c_css c) (c_feed c) (c_helix c) (c_tool c) x.
Definition set_modes f s g plane ret prog css feed (c : calc) := mkCalc (c_path c) (c_time c) (c_prev c) (c_tpath c) (c_ttime c) (c_range c) f s g plane ret prog css feed (c_helix c) (c_tool c) (c_auto c).

Definition set_work x (p : path_result) := mkPath (p_total p) x (p_fast p) (p_tool_total p) (p_tool_id p) (p_cycle p) (p_holes p).
Definition set_fast x (p : path_result) := mkPath (p_total p) (p_work p) x (p_tool_total p) (p_tool_id p) (p_cycle p) (p_holes p).
Definition set_cycle x n (p : path_result) := mkPath (p_total p) (p_work p) (p_fast p) (p_tool_total p) (p_tool_id p) x n.
Definition set_ptool x id (p : path_result) := mkPath (p_total p) (p_work p) (p_fast p) x id (p_cycle p) (p_holes p).
Definition set_ptotal x (p : path_result) := mkPath x (p_work p) (p_fast p) (p_tool_total p) (p_tool_id p) (p_cycle p) (p_holes p).

Definition add_ttotal x (t : time_result) := mkTime (dadd (t_total t) x) (t_work t) (t_fast t) (t_tool_total t) (t_tool_id t).
Definition set_ttool x id (t : time_result) := mkTime (t_total t) (t_work t) (t_fast t) x id.
Definition set_tmotion w f (t : time_result) := mkTime (t_total t) w f (t_tool_total t) (t_tool_id t).

(** ** Positions: AttributesPathCalculator.cpp 296-394 *)

Definition plane_codes : list string := ["10"; "50.1"; "51.1"; "52"; "53"; "68"; "68.2"; "68.3"; "68.4"; "92"].

Definition ignore_g_codes : list (string * list string) :=
  [("X", "4"%string :: plane_codes); ("Y", plane_codes); ("Z", plane_codes);
   ("I", ["68.2"; "68.4"]); ("J", ["68.2"; "68.4"]); ("K", ["68.2"; "68.4"]);
   ("R", ["5"; "5.1"; "6.2"; "10"; "68"; "68.3"]); ("U", ["71"; "72"]); ("W", ["71"; "72"])].

Definition is_ignored (other : list string) (w : string) : bool :=
  match assoc w ignore_g_codes with
  | Some l => existsb (fun g => mem_str g other) l
  | None => false
  end.

(** AttributesPathCalculator.cpp 349-358, 370-378: [min], [current], [max]. *)
Definition widen (r : dbl * dbl * dbl) (x : dbl) : dbl * dbl * dbl :=
  let '(mn, _, mx) := r in
  if dltb x mn then (x, x, mx) else if dgtb x mx then (mn, x, x) else (mn, x, mx).

Definition copy_value (g prog : Z) (other : list string) (pr : dmap * word_range_map) (e : string * dbl)
  : dmap * word_range_map :=
  let '(prev, range) := pr in
  let '(w, x) := e in
  if String.eqb w "Z" && (is_drill_cycle g || is_drill_cycle_qparam g) then pr
  else if String.eqb w "Q" || String.eqb w "L" then pr
  else if is_ignored other w then pr
  else match assoc w range with
       | Some r =>
           let '(_, cur, _) := r in
           let x := if (prog =? 91) && mem_str w ["X"; "Y"; "Z"] then dadd cur x else x in
           (mset w x prev, mset w (widen r x) range)
       | None => (mset w x prev, mset w (x, x, x) range)
       end.

Definition copy_on_return (g prog : Z) (other : list string) (values : dmap) (c : calc) : calc :=
  let '(prev, range) := fold_left (copy_value g prog other) values (c_prev c, c_range c) in
  set_positions prev range c.

(** AttributesPathCalculator.cpp 417-437 (and 396-415, which no caller of the
    parser reaches). *)
Definition calc_new (mc : machine) : calc :=
  let cd := mc_cnc mc in
  copy_on_return (cd_motion cd) (cd_programming cd) [] (mc_base_point mc)
    (mkCalc path_zero time_zero [] [] [] [] (dz (-1))
            (if cd_operator_rotation cd then dz (cd_rotation cd) else dz (-1))
            (cd_motion cd) (cd_plane cd) (cd_return cd) (cd_programming cd) 0 (cd_feed_mode cd) HNone "" false).

(** AttributesPathCalculator.cpp 439-458. *)
Definition calc_reset (mc : machine) (c : calc) : calc :=
  let cd := mc_cnc mc in
  copy_on_return (cd_motion cd) (cd_programming cd) [] (mc_base_point mc)
    (mkCalc path_zero time_zero [] [] [] [] (dz (-1))
            (if cd_operator_rotation cd then dz (cd_rotation cd) else dz (-1))
            (cd_motion cd) (cd_plane cd) (cd_return cd) (cd_programming cd) 0 (cd_feed_mode cd) HNone "" (c_auto c)).

(** ** evaluate: AttributesPathCalculator.cpp 468-1355 *)

(** Steps change the calculator and then go on, return, or throw. *)
Inductive ctl (A : Type) : Type := Go (a : A) | Return | Throw (e : exn).
Arguments Go {A} _.
Arguments Return {A}.
Arguments Throw {A} _.

Definition M (A : Type) : Type := calc -> calc * ctl A.

Definition ret {A} (a : A) : M A := fun c => (c, Go a).
Definition stop {A} : M A := fun c => (c, Return).
Definition throw {A} (m : list string) : M A := fun c => (c, Throw (EPathCalc m)).
Definition undefined {A} (what : string) : M A := fun c => (c, Throw (EUB what)).
Definition get {A} (f : calc -> A) : M A := fun c => (c, Go (f c)).
Definition upd (f : calc -> calc) : M unit := fun c => (f c, Go tt).
Definition lift {A} (r : res A) : M A := fun c => (c, match r with Ok a => Go a | Exc e => Throw e end).
Definition mbind {A B} (m : M A) (k : A -> M B) : M B :=
  fun c => match m c with
           | (c', Go a) => k a c'
           | (c', Return) => (c', Return)
           | (c', Throw e) => (c', Throw e)
           end.

Notation "x <~ m ;; k" := (mbind m (fun x => k)) (at level 61, m at next level, right associativity).
Notation "m ;;; k" := (mbind m (fun _ => k)) (at level 61, right associativity).

Definition when (b : bool) (m : M unit) : M unit := if b then m else ret tt.

(** Throws the message unless there is a value. *)
Definition need {A} (o : option A) (m : list string) : M A :=
  match o with Some a => ret a | None => throw m end.

(** Dereferences; undefined without a value. *)
Definition deref {A} (o : option A) : M A :=
  match o with Some a => ret a | None => undefined "dereferences an empty optional or an end iterator" end.

Definition upd_path (f : path_result -> path_result) : M unit := upd (fun c => set_path (f (c_path c)) c).
Definition upd_time (f : time_result -> time_result) : M unit := upd (fun c => set_time (f (c_time c)) c).

Definition no_cycle : M unit := upd_path (set_cycle none2 0).

Definition tool_macro_ids : list Z := [4120; 4320; 4520].

Definition or_else {A} (o : option A) (d : A) : A := match o with Some a => a | None => d end.
Definition or_opt {A} (o p : option A) : option A := match o with Some a => Some a | None => p end.

Section Evaluate.
Variables atan log cabs : dbl -> dbl.
(** AttributesPathCalculator.cpp 1346-1353 pass the temporary
    [EProgrammingType::Absolute] to a constructor that keeps a reference to it;
    the destructor reads it after its lifetime.  [stale] is what it finds. *)
Variable stale : Z.
Variable mc : machine.

Let cd := mc_cnc mc.

Definition add_time (z : Z) : M unit := upd_time (add_ttotal (dz z)).

(** 535-542, 501-507: a tool exchange. *)
Definition exchange_times : M unit :=
  add_time (mc_exchange_time mc) ;;; when (mc_auto_measure mc) (add_time (mc_measure_time mc)).

(** 501-511. *)
Definition service_times (v : found) : M unit :=
  when (negb (cd_tool_executes cd) && v_m6 v) exchange_times ;;;
  when (negb (mc_auto_measure mc) && v_measure v) (add_time (mc_measure_time mc)) ;;;
  when (v_pallet v) (add_time (mc_pallet_time mc)).

(** 525-531: the tool is taken; its number is published by [tool_macros]. *)
Definition tool_taken (v : found) : bool := cd_tool_executes cd || v_m6 v.

(** 555-567: the first of these codes that the block has. *)
Definition named_code (v : found) : option Z :=
  or_opt (v_g v) (or_opt (v_plane v) (or_opt (v_return v) (v_prog v))).

(** 515-573: a block with a tool number. *)
Definition tool_change (v : found) (t : string) : M unit :=
  when (cd_auto_rapid cd) (upd (set_auto true)) ;;;
  upd (fun c => if String.eqb (c_tool c) "" then c
                else set_tool_maps (mset (c_tool c) (p_tool_total (c_path c)) (c_tpath c))
                                   (mset (c_tool c) (t_tool_total (c_time c)) (c_ttime c)) c) ;;;
  when (tool_taken v) (upd (set_tool t) ;;; (_ <~ lift (stod t) ;; ret tt)) ;;;
  upd (fun c => set_path (set_ptool (p_tool_total (c_path c)) (c_tool c) (c_path c)) c) ;;;
  upd (fun c => set_time (set_ttool (t_tool_total (c_time c)) (c_tool c) (c_time c)) c) ;;;
  when (cd_tool_executes cd) exchange_times ;;;
  upd (fun c => set_path (set_ptool (or_else (assoc (c_tool c) (c_tpath c)) dzero) (p_tool_id (c_path c)) (c_path c)) c) ;;;
  upd (fun c => set_time (set_ttool (or_else (assoc (c_tool c) (c_ttime c)) dzero) (t_tool_id (c_time c)) (c_time c)) c) ;;;
  if tool_taken v then ret tt
  else match named_code v with
       | Some n => throw ["TNotWithG"; z_to_string n]
       | None => upd (fun c => copy_on_return (c_g c) (c_prog c) (v_other v) (v_values v) c) ;;; stop
       end.

(** 576-585: G4. *)
Definition dwell (v : found) : M unit :=
  let add w := match assoc w (v_values v) with Some x => upd_time (add_ttotal x) | None => ret tt end in
  when (existsb (fun o => String.eqb o "04" || String.eqb o "4") (v_other v))
       (add "X"%string ;;; add "U"%string ;;; add "P"%string).

(** 517-518, 535-537: the block moves to the tool exchange point. *)
Definition to_exchange (v : found) : bool :=
  (negb (cd_tool_executes cd) && v_m6 v) || (is_some (found_tool v) && cd_tool_executes cd).

(** 587-589: G28 moves to the machine base point. *)
Definition to_base (v : found) : bool := mem_str "28" (v_other v).

(** 591-633. *)
Definition start_modes (v : found) : M unit :=
  when (to_exchange v || to_base v) (upd (set_g 0)) ;;;
  (c <~ get (fun c => c) ;;
   if c_auto c && negb (Nat.eqb (List.length (v_values v)) 0) then upd (set_auto false) ;;; upd (set_g 0)
   else if negb (to_exchange v) && negb (to_base v) && ((c_g c =? -1) && negb (is_some (v_g v))) then
     upd (fun c => set_modes (c_f c) (c_s c) (c_g c) (or_else (v_plane v) (c_plane c)) (or_else (v_return v) (c_return c))
                             (or_else (v_prog v) (c_prog c)) (or_else (v_css v) (c_css c)) (c_feed c) c) ;;;
     upd (fun c => copy_on_return (c_g c) (c_prog c) (v_other v) (v_values v) c) ;;; stop
   else ret tt).

(** 635-648: the values in force for this block. *)
Record modes : Type := mkModes {
  m_g : Z; m_f : dbl; m_s : dbl; m_plane : Z; m_prog : Z; m_css : Z; m_return : Z; m_feed : Z;
  m_lathe : bool; m_halve : bool
}.

Definition current_modes (v : found) (c : calc) : modes :=
  let plane := or_else (v_plane v) (c_plane c) in
  let lathe := match mc_type mc with MTLathe => true | MTMillturn => plane =? 18 | MTMill => false end in
  mkModes (or_else (v_g v) (c_g c)) (or_else (v_f v) (c_f c)) (or_else (v_s v) (c_s c)) plane
          (or_else (v_prog v) (c_prog c)) (or_else (v_css v) (c_css c)) (or_else (v_return v) (c_return c))
          (or_else (v_feed v) (c_feed c)) lathe (lathe && negb (mc_diameter_2x mc)).

Definition halved (m : modes) (x : dbl) : dbl := if m_halve m then ddiv x (dz 2) else x.

(** 676-700: where an axis goes.  With both a tool exchange and G28 an axis
    missing in the exchange point is looked up past the end of another map. *)
Definition target (v : found) (w : string) (prev : dbl) : M dbl :=
  if to_exchange v then
    match assoc w (mc_exchange_point mc) with
    | Some x => ret x
    | None => if to_base v then undefined "compares iterators of different maps" else ret prev
    end
  else if to_base v then ret (or_else (assoc w (mc_base_point mc)) prev)
  else ret (or_else (assoc w (v_values v)) prev).

Definition set_motion (rapid : bool) (x : dbl) : M unit := upd_path (if rapid then set_fast x else set_work x).

(** 650-737: G0 and G1. *)
Definition straight (v : found) (m : modes) : M unit :=
  when ((m_g m =? 0) && cd_rapid_cancels cd || (m_g m =? 1) && cd_linear_cancels cd) no_cycle ;;;
  (prev <~ get c_prev ;;
   if (m_prog m =? 90) || to_exchange v || to_base v then
     xp <~ need (assoc "X" prev) ["MissingPreviousValue"; "X"] ;;
     yp <~ need (assoc "Y" prev) ["MissingPreviousValue"; "Y"] ;;
     zp <~ need (assoc "Z" prev) ["MissingPreviousValue"; "Z"] ;;
     x <~ target v "X" xp ;;
     y <~ target v "Y" yp ;;
     z <~ target v "Z" zp ;;
     set_motion (m_g m =? 0) (line3_to (halved m xp) yp zp (halved m x) y z)
   else
     let value w := match assoc w (v_values v), assoc w prev with
                    | Some x, _ => ret x
                    | None, Some _ => ret dzero
                    | None, None => throw ["MissingValue"; w]
                    end in
     x <~ value "X"%string ;;
     y <~ value "Y"%string ;;
     z <~ value "Z"%string ;;
     set_motion (m_g m =? 0) (line3 (halved m x) y z)).

(** 786-886: axes and parameters of a plane. *)
Definition plane_axes (p : Z) : string * string * string :=
  if p =? 17 then ("X", "Y", "Z")%string else if p =? 18 then ("X", "Z", "Y")%string else ("Y", "Z", "X")%string.
Definition plane_params (p : Z) : string * string * string :=
  if p =? 17 then ("I", "J", "K")%string else if p =? 18 then ("I", "K", "J")%string else ("J", "K", "I")%string.

Definition both {A} (a b : option A) : bool := is_some a && is_some b.

(** The positions and parameters of an arc block; 888-905. *)
Record arc_block : Type := mkArc {
  a_xp : dbl; a_yp : dbl; a_zp : option dbl;
  a_x : option dbl; a_y : option dbl; a_z : option dbl;
  a_i : option dbl; a_j : option dbl; a_k : option dbl; a_r : option dbl
}.

(** [i && j] picks the centre, otherwise the radius (e.g. 986-989). *)
Definition by_centre_or_radius (a : arc_block) (ij : dbl -> dbl -> dbl) (r : dbl -> dbl) : M dbl :=
  match a_i a, a_j a with
  | Some i, Some j => ret (ij i j)
  | _, _ => x <~ deref (a_r a) ;; ret (r x)
  end.

(** 979-1018: a helix with incremental coordinates.  The answer says whether an
    arc has to be calculated after all. *)
Definition helix_incremental (first : bool) (a : arc_block) : M bool :=
  h <~ get c_helix ;;
  let stays o := match o with None => true | Some x => deqb x dzero end in
  match h with
  | HNone => ret false
  | HFull =>
      z <~ deref (a_z a) ;;
      l <~ by_centre_or_radius a (helix_ij z) (helix_r z) ;;
      (if stays (a_x a) && stays (a_y a) then upd_path (set_work l)
       else upd_path (set_work (helix_last l)) ;;; upd (set_helix HNone)) ;;;
      ret false
  | HQuarter =>
      if first || (is_some (a_x a) && both (a_i a) (a_j a)) then
        z <~ deref (a_z a) ;;
        l <~ by_centre_or_radius a (helix_quarter_ij z) (helix_quarter_r z) ;;
        upd_path (set_work l) ;;; ret false
      else upd (set_helix HNone) ;;; ret true
  end.

(** 1019-1047: a helix with absolute coordinates. *)
Definition helix_absolute (a : arc_block) : M bool :=
  h <~ get c_helix ;;
  let x := or_else (a_x a) (a_xp a) in
  let y := or_else (a_y a) (a_yp a) in
  zc <~ match a_z a with Some z => ret z | None => deref (a_zp a) end ;;
  match h with
  | HNone => ret false
  | HFull =>
      zp <~ deref (a_zp a) ;;
      z <~ deref (a_z a) ;;
      l <~ by_centre_or_radius a (helix_ij (dsub zp z)) (helix_r (dsub zp z)) ;;
      (if deqb (a_xp a) x && deqb (a_yp a) y then upd_path (set_work l)
       else upd_path (set_work (helix_last l)) ;;; upd (set_helix HNone)) ;;;
      ret false
  | HQuarter =>
      if negb (deqb (a_xp a) x) && negb (deqb (a_yp a) y) then
        zp <~ deref (a_zp a) ;;
        if negb (deqb zp zc) then
          z <~ deref (a_z a) ;;
          l <~ by_centre_or_radius a (helix_quarter_ij (dsub zp z)) (helix_quarter_r (dsub zp z)) ;;
          upd_path (set_work l) ;;; ret false
        else upd (set_helix HNone) ;;; ret true
      else upd (set_helix HNone) ;;; ret true
  end.

(** 944-1048: blocks of a helix; parameters not given are those of before. *)
Definition helix_block (m : modes) (first : bool) (a : arc_block) : M (bool * arc_block) :=
  let '(p1, p2, p3) := plane_params (m_plane m) in
  prev <~ get c_prev ;;
  let unset := ["ValueNotSetForEitherEither"; p1; p2; p3]%string in
  let i := or_opt (a_i a) (assoc p1 prev) in
  let j := or_opt (a_j a) (assoc p2 prev) in
  let k := or_opt (a_k a) (assoc p3 prev) in
  let r := or_opt (a_r a) (assoc "R" prev) in
  if negb (is_some r) && negb (both i j) then throw unset
  else if negb (is_some r) && negb (both i j && is_some k) then throw unset
  else
    let a := mkArc (a_xp a) (a_yp a) (a_zp a) (a_x a) (a_y a) (a_z a) i j k r in
    arc <~ (if m_prog m =? 91 then helix_incremental first a else helix_absolute a) ;;
    ret (arc, a).

(** 1050-1098: an arc. *)
Definition arc (m : modes) (a : arc_block) : M unit :=
  let '(p1, p2, _) := plane_params (m_plane m) in
  prev <~ get c_prev ;;
  let none := negb (is_some (a_r a)) && negb (both (a_i a) (a_j a)) in
  let i := if none then or_opt (a_i a) (assoc p1 prev) else a_i a in
  let j := if none then or_opt (a_j a) (assoc p2 prev) else a_j a in
  if negb (is_some (a_r a)) && negb (both i j) then throw ["ValueNotSetForEither"; p1; p2]%string
  else
    let x := match a_x a with Some x => if m_prog m =? 91 then dadd (a_xp a) x else x | None => a_xp a end in
    let y := match a_y a with Some y => if m_prog m =? 91 then dadd (a_yp a) y else y | None => a_yp a end in
    let xp := halved m (a_xp a) in
    match i, j with
    | Some i, Some j => upd_path (set_work (arc_ij atan cabs (m_g m) xp (a_yp a) (halved m x) y (halved m i) j))
    | _, _ => r <~ deref (a_r a) ;; upd_path (set_work (arc_r atan cabs xp (a_yp a) (halved m x) y r))
    end.

(** 738-1100: G2 and G3. *)
Definition circular (v : found) (m : modes) : M unit :=
  if negb (is_some (v_g v)) && Nat.eqb (List.length (v_values v)) 0 then stop
  else
  when ((m_g m =? 2) && cd_cw_cancels cd || (m_g m =? 3) && cd_ccw_cancels cd) no_cycle ;;;
  let '(a1, a2, a3) := plane_axes (m_plane m) in
  let '(p1, p2, p3) := plane_params (m_plane m) in
  let value w := assoc w (v_values v) in
  prev <~ get c_prev ;;
  xp <~ need (assoc a1 prev) ["MissingPreviousValue"; a1]%string ;;
  yp <~ need (assoc a2 prev) ["MissingPreviousValue"; a2]%string ;;
  let zp := assoc a3 prev in
  let a := mkArc xp yp zp (value a1) (value a2) (value a3) (value p1) (value p2) (value p3) (value "R"%string) in
  h <~ get c_helix ;;
  s <~ (if is_some (value "Q"%string) || is_some (value "L"%string) then
          i <~ need (or_opt (a_i a) (assoc p1 prev)) ["MissingValue"; p1]%string ;;
          j <~ need (or_opt (a_j a) (assoc p2 prev)) ["MissingValue"; p2]%string ;;
          (match value "Q"%string with
           | Some q => upd_path (set_work (archimedes_q log i j q))
           | None => l <~ deref (value "L"%string) ;; upd_path (set_work (archimedes_l log i j l))
           end) ;;;
          ret (false, false, mkArc xp yp zp (a_x a) (a_y a) (a_z a) (Some i) (Some j) (a_k a) (a_r a))
        else match h, a_x a, a_y a, a_z a with
             | HNone, Some x, Some y, Some z =>
                 if both (a_i a) (a_j a) && is_some (a_k a) || is_some (a_r a) then
                   _ <~ need zp ["MissingPreviousValue"; a3]%string ;;
                   if (deqb x xp && deqb y yp) || (deqb x dzero && deqb y dzero)
                   then upd (set_helix HFull) ;;; ret (true, false, a)
                   else upd (set_helix HQuarter) ;;; ret (true, true, a)
                 else ret (true, false, a)
             | _, _, _, _ => ret (true, false, a)
             end) ;;
  let '(do_arc, first, a) := s in
  h <~ get c_helix ;;
  s <~ match h with HNone => ret (do_arc, a) | _ => helix_block m first a end ;;
  h <~ get c_helix ;;
  match h with HNone => if fst s then arc m (snd s) else ret tt | _ => ret tt end.

(** 1262-1269: several holes in a row. *)
Fixpoint holes (n : nat) (x y : dbl) : M unit :=
  match n with
  | O => ret tt
  | S n => upd_path (fun p => let '(w, f) := hole_by x y (p_cycle p) in
                              set_fast (dadd (p_fast p) f) (set_work (dadd (p_work p) w) p)) ;;;
           holes n x y
  end.

Definition set_both (wf : dbl * dbl) : M unit := upd_path (fun p => set_fast (snd wf) (set_work (fst wf) p)).

(** 1181-1227: the way of one hole.  Line 1198 looks at R where Q is meant, so a
    missing Q is dereferenced. *)
Definition cycle_distance (v : found) (m : modes) (axis : string) : M (dbl * dbl) :=
  let value w := assoc w (v_values v) in
  prev <~ get c_prev ;;
  zp <~ need (assoc axis prev) ["MissingPreviousValue"; axis] ;;
  depth <~ (match value axis with
            | Some z => ret (if mc_no_y mc then dzero else z)
            | None => if mc_no_y mc then ret dzero else throw ["MissingValue"; axis ++ "gleb"]%string
            end) ;;
  r <~ need (value "R"%string) ["MissingValue"; "R"] ;;
  if is_drill_cycle_qparam (m_g m) then
    q <~ deref (value "Q"%string) ;;
    lift (if m_prog m =? 91 then drill_q_incr depth r q (m_g m) (m_return m)
          else drill_q zp depth r q (cd_z_incremental cd) (m_g m) (m_return m))
  else
    ret (if m_prog m =? 91 then drill_incr depth r (m_g m) (m_return m)
         else drill zp depth r (cd_z_incremental cd) (m_g m) (m_return m)).

(** 1108-1281: drilling cycles. *)
Definition drilling (v : found) (m : modes) : M unit :=
  if negb (is_some (v_g v)) && Nat.eqb (List.length (v_values v)) 0 then stop
  else
  let '(a1, a2, a3) := plane_axes (m_plane m) in
  let value w := assoc w (v_values v) in
  let k := value "K"%string in
  n <~ get (fun c => p_holes (c_path c)) ;;
  when ((n =? 0) || is_some k)
       (w <~ cycle_distance v m a3 ;; upd_path (fun p => set_cycle w (p_holes p) p)) ;;;
  prev <~ get c_prev ;;
  xp <~ need (assoc a1 prev) ["MissingPreviousValue"; a1]%string ;;
  yp <~ need (assoc a2 prev) ["MissingPreviousValue"; a2]%string ;;
  let x := or_else (value a1) xp in
  let y := or_else (value a2) yp in
  let dx := or_else (value a1) dzero in
  let dy := or_else (value a2) dzero in
  (if match k with Some k => deqb k dzero | None => false end then
     set_both (if m_prog m =? 91 then hole_by dx dy none2 else hole_to xp yp x y none2)
   else if m_prog m =? 91 then
     n <~ match k with Some k => if dgtb k dzero then lift (d_to_int k) else ret 1 | None => ret 1 end ;;
     holes (Z.to_nat n) dx dy
   else cd <~ get (fun c => p_cycle (c_path c)) ;; set_both (hole_to xp yp x y cd)) ;;;
  upd_path (fun p => set_cycle (p_cycle p) (to_u32 (p_holes p + 1)) p).

(** 1101-1107: G80; the answer is the motion code from here on. *)
Definition cancel : M Z :=
  no_cycle ;;; ret (if cd_cancel_starts_rapid cd then 0 else 80).

(** 650-1285: the motion of the block and the motion code it leaves. *)
Definition motion (v : found) (m : modes) : M Z :=
  let g := m_g m in
  if (g =? 0) || (g =? 1) then straight v m ;;; ret g
  else if (g =? 2) || (g =? 3) then circular v m ;;; ret g
  else if g =? 80 then cancel
  else if is_drill_cycle g || is_drill_cycle_qparam g then drilling v m ;;; ret g
  else stop.

(** 1304-1328: the time of a working motion. *)
Definition work_time (m : modes) (inch : bool) (w f s : dbl) : dbl :=
  let minutes :=
    if m_lathe m && (m_feed m =? 95) then
      if m_css m =? 96 then feed_minutes f (if inch then css_inch s w else css_mm s w) else feed_minutes f s
    else f in
  dmul (dz 60) (calc_time w minutes).

(** 1296-1333: totals. *)
Definition add_up (m : modes) (inch : bool) (c : calc) : calc :=
  let p := c_path c in
  let t := c_time c in
  let way := dadd (p_work p) (p_fast p) in
  let tw := if negb (deqb (p_work p) dzero) && dgtb (c_f c) dzero then work_time m inch (p_work p) (c_f c) (c_s c) else t_work t in
  let tf := if negb (deqb (p_fast p) dzero) && dgtb (mc_fast_feed mc) dzero
            then dmul (dz 60) (calc_time (p_fast p) (mc_fast_feed mc)) else t_fast t in
  let dt := dadd tw tf in
  set_time (mkTime (dadd (t_total t) dt) tw tf (dadd (t_tool_total t) dt) (c_tool c))
    (set_path (mkPath (dadd (p_total p) way) (p_work p) (p_fast p) (dadd (p_tool_total p) way) (c_tool c) (p_cycle p) (p_holes p)) c).

(** 1335-1343: missing feeds and speeds. *)
Definition check_feeds (m : modes) : M unit :=
  c <~ get (fun c => c) ;;
  let works := negb (deqb (p_work (c_path c)) dzero) in
  if works && dltb (c_f c) dzero then throw ["ValueNotSet"; "F"]
  else if negb (deqb (p_fast (c_path c)) dzero) && dltb (mc_fast_feed mc) dzero then throw ["ValueNotSet"; "Fast Feed"]
  else if works && dgtb (c_f c) dzero && (m_lathe m && (m_feed m =? 95)) && dltb (c_s c) dzero then throw ["ValueNotSet"; "S"]
  else ret tt.

(** 501-1354. *)
Definition evaluate_found (inch : bool) (v : found) : M unit :=
  service_times v ;;;
  match found_tool v with Some t => tool_change v t | None => ret tt end ;;;
  dwell v ;;;
  start_modes v ;;;
  m <~ get (current_modes v) ;;
  g <~ motion v m ;;
  upd (set_modes (m_f m) (m_s m) g (m_plane m) (m_return m) (m_prog m) (m_css m) (m_feed m)) ;;;
  upd (add_up m inch) ;;;
  check_feeds m ;;;
  upd (fun c =>
    if to_exchange v then copy_on_return (c_g c) stale (v_other v) (mc_exchange_point mc) c
    else if to_base v then copy_on_return (c_g c) stale (v_other v) (mc_base_point mc) c
    else copy_on_return (c_g c) (c_prog c) (v_other v) (v_values v) c).

(** 471-475. *)
Definition no_motion (c : calc) : calc :=
  set_time (set_tmotion dzero dzero (c_time c)) (set_path (set_fast dzero (set_work dzero (c_path c))) c).

Definition outcome {A} (r : ctl A) : option exn := match r with Throw e => Some e | _ => None end.

(** 528-530: the number of the tool taken, as macros. *)
Definition tool_macros (line : Z) (v : found) (mv : macro_map dbl) : macro_map dbl :=
  match found_tool v with
  | Some t => if tool_taken v then
                match stod t with
                | Ok x => fold_left (fun mv id => insert_or_assign mv (mkKey id line) x) tool_macro_ids mv
                | Exc _ => mv
                end
              else mv
  | None => mv
  end.

(** 468-1355: the calculator and the macros afterwards, and the exception. *)
Definition evaluate (inch : bool) (line : Z) (b : block) (c : calc) (mv : macro_map dbl)
  : calc * macro_map dbl * option exn :=
  let c := no_motion c in
  match b with
  | [] => (c, mv, None)
  | _ =>
      match foldM (visit_attr mc) found_init b with
      | Exc e => (c, mv, Some e)
      | Ok v => let '(c', r) := evaluate_found inch v c in (c', tool_macros line v mv, outcome r)
      end
  end.

End Evaluate.
