(** What the settings editor shows, and what the settings it writes mean. *)
From Verif Require Import Model.Base Model.Attr Model.Double Model.Verifiers Model.PathCalc Model.Enums Model.Settings Model.Editor.
From Verif Require Import Spec.Text Spec.EnumSpec Spec.SettingsSpec Spec.DoubleSpec.
From Coq Require Import Sorting.Sorted.

(** ** Numbers in a culture *)

(** The point and the separator of groups. *)
Definition separators (ct : culture) : ascii * ascii :=
  match ct with PlPl => (",", " ")%char | EnUs | Invariant => (".", ",")%char end.

(** Digits with separators anywhere behind the first one; only the digits count. *)
Inductive separated (grp : ascii) : string -> string -> Prop :=
| sep_none : separated grp "" ""
| sep_digit c r ds : is_digit c = true -> separated grp r ds -> separated grp (String c r) (String c ds)
| sep_group r ds : separated grp r ds -> separated grp (String grp r) ds.

Inductive grouped (grp : ascii) : string -> string -> Prop :=
| gr_none : grouped grp "" ""
| gr_some c r ds : is_digit c = true -> separated grp r ds -> grouped grp (String c r) (String c ds).

(** The text is a decimal number, [value] is its rounding. *)
Definition number_in (ct : culture) (rounding : bool -> Z -> Z -> dbl) (s : string) (v : dbl) : Prop :=
  exists w sg neg it ip pt fp ex e m w', s = (w ++ sg ++ it ++ pt ++ fp ++ ex ++ w')%string /\ blank w /\ blank w' /\
    sign_text sg neg /\ grouped (snd (separators ct)) it ip /\ all_chars is_digit fp = true /\
    (pt = String (fst (separators ct)) "" \/ pt = ""%string /\ fp = ""%string) /\ denotes (ip ++ fp) m /\ exponent ex e /\
    v = rounding neg m (e - Z.of_nat (String.length fp)) /\ (forall b, v <> S754_infinity b).

(** As a double, as a single. *)
Definition shown (ct : culture) : string -> dbl -> Prop := number_in ct decimal.
Definition shown_single (ct : culture) : string -> dbl -> Prop := number_in ct to_single.

(** A box that shows no number stands for zero. *)
Definition shown_or_zero (s : string) (v : dbl) : Prop :=
  shown Invariant s v \/ (forall u, ~ shown Invariant s u) /\ v = S754_zero false.

(** A whole number as a double. *)
Definition shown_int (s : string) (v : dbl) : Prop := exists n, reads_int s n /\ v = d_of_Z n.

(** ** The form *)

(** An option of the machine is there if the first entry of that name is checked. *)
Definition has_extra (k : string) (fo : form) : Prop :=
  exists a b, fo_extras fo = (a ++ (k, true) :: b)%list /\ ~ In k (map fst a).

(** Three coordinates are shown, the others are those of the file the editor
    was started with. *)
Definition point_says (x y z : string) (rest : dmap) (m : dmap) : Prop :=
  StronglySorted (fun a b => String.ltb (fst a) (fst b) = true) m /\
  (exists v, assoc "X" m = Some v /\ shown_or_zero x v) /\ (exists v, assoc "Y" m = Some v /\ shown_or_zero y v) /\
  (exists v, assoc "Z" m = Some v /\ shown_or_zero z v) /\
  forall k, ~ In k ["X"; "Y"; "Z"]%string -> assoc k m = assoc k rest.

Record kinematics_says (ct : culture) (fo : form) (k : kin_settings) : Prop := {
  ky_axes : StronglySorted (fun a b => String.ltb (fst a) (fst b) = true) (ks_axes k) /\
    (forall w r, In (w, r) (ks_axes k) ->
      exists a b, In (w, (a, b)) (fo_axes fo) /\ shown_single ct a (fst r) /\ shown_single ct b (snd r)) /\
    (forall w a b, In (w, (a, b)) (fo_axes fo) ->
      exists r, In (w, r) (ks_axes k) /\ shown_single ct a (fst r) /\ shown_single ct b (snd r));
  ky_work : shown_int (fo_work_feed fo) (ks_work_feed k);
  ky_fast : shown_int (fo_fast_feed fo) (ks_fast_feed k);
  ky_spindle : reads_int (fo_spindle fo) (ks_spindle k);
  ky_warehouse : reads_int (fo_warehouse fo) (ks_warehouse k);
  ky_exchange : reads_int (fo_exchange_time fo) (ks_exchange_time k);
  ky_diameter : ks_diameter_2x k = fo_diameter_2x fo;
  ky_pallet : has_extra "pallet_changer" fo ->
    reads_int (fo_pallet_time fo) (ks_pallet_time k) /\ fo_pallet_code fo = Some (ks_pallet_code k) /\
    ks_pallet_value k = fo_pallet_value fo;
  ky_no_pallet : ~ has_extra "pallet_changer" fo ->
    ks_pallet_time k = 0 /\ ks_pallet_code k = ""%string /\ ks_pallet_value k = ""%string;
  ky_probe : has_extra "cnc_probe" fo ->
    ks_auto_measure k = fo_auto_measure fo /\ reads_int (fo_measure_time fo) (ks_measure_time k) /\
    fo_measure_code fo = Some (ks_measure_code k) /\ ks_measure_value k = fo_measure_value fo;
  ky_no_probe : ~ has_extra "cnc_probe" fo ->
    ks_auto_measure k = false /\ ks_measure_time k = 0 /\ ks_measure_code k = ""%string /\ ks_measure_value k = ""%string
}.

Record cnc_says (fo : form) (c : cnc_settings) : Prop := {
  cy_motion : In (fo_motion fo, cs_motion c) motions;
  cy_plane : In (fo_plane fo, cs_plane c) work_planes;
  cy_units : In (fo_units fo, cs_units c) units;
  cy_programming : In (fo_programming fo, cs_programming c) programmings;
  cy_feed : In (fo_feed_mode fo, cs_feed_mode c) feed_modes;
  cy_direction : In (fo_direction fo, cs_direction c) rotation_dirs;
  cy_z : In (fo_z fo, cs_z c) depth_programmings;
  cy_return : In (fo_return fo, cs_return c) drill_returns;
  cy_rotation : reads_int (fo_rotation fo) (cs_rotation c);
  cy_flags : (cs_rapid_cancels c, cs_linear_cancels c, cs_cw_cancels c, cs_ccw_cancels c) =
    (fo_rapid_cancels fo, fo_linear_cancels fo, fo_cw_cancels fo, fo_ccw_cancels fo);
  cy_more_flags : (cs_cancel_starts_rapid c, cs_operator_rotation c, cs_tool_executes c, cs_auto_rapid c) =
    (fo_cancel_starts_rapid fo, fo_operator_rotation fo, fo_tool_executes fo, fo_auto_rapid fo)
}.

(** The settings [s] are the ones in the form; [type] is the type of the machine. *)
Record form_says (ct : culture) (type : tool_type) (base : nc_file) (fo : form) (s : settings) : Prop := {
  fy_driver : fo_driver fo = Drv (se_driver s);
  fy_machine : In (fo_machine fo, se_tool s) machine_tools;
  fy_type : se_type s = type;
  fy_exchange : point_says (fo_exchange_x fo) (fo_exchange_y fo) (fo_exchange_z fo) (nf_exchange base) (se_exchange s);
  fy_base : point_says (fo_base_x fo) (fo_base_y fo) (fo_base_z fo) (nf_base base) (se_base s);
  fy_kinematics : kinematics_says ct fo (se_kin s);
  fy_cnc : cnc_says fo (se_cnc s);
  fy_zero_xy : match type with TT_Mill =>
     shown ct (fo_zero_x fo) (zp_x (se_zero s)) /\ shown ct (fo_zero_y fo) (zp_y (se_zero s))
    | _ => zp_x (se_zero s) = S754_zero false /\ zp_y (se_zero s) = S754_zero false end;
  fy_zero_z : shown ct (fo_zero_z fo) (zp_z (se_zero s))
}.

(** What has to be true of the form: a driver and a machine that the server
    knows, and no number is written as "NaN". *)
Definition not_nan (s : string) : Prop := forall w w', blank w -> blank w' -> s <> (w ++ "NaN" ++ w')%string.

Record form_sane (fo : form) : Prop := {
  fs_driver : fo_driver fo <> Heidenhain;
  fs_machine : In (fo_machine fo) (map fst machine_tools);
  fs_axes : forall w a b, In (w, (a, b)) (fo_axes fo) -> not_nan a /\ not_nan b;
  fs_points : forall t, In t [fo_exchange_x fo; fo_exchange_y fo; fo_exchange_z fo; fo_base_x fo; fo_base_y fo; fo_base_z fo] -> not_nan t;
  fs_zero : forall t, In t [fo_zero_x fo; fo_zero_y fo; fo_zero_z fo] -> not_nan t
}.

(** The points of the file the editor was started with. *)
Definition points_sane (base : nc_file) : Prop :=
  forall k v, In (k, v) (nf_exchange base) \/ In (k, v) (nf_base base) -> finite v.

(** ** Saving what was loaded *)

(** Digits with a point, and not too many of them. *)
Definition plain (s : string) : Prop :=
  exists sg ds pt fp, s = (sg ++ ds ++ pt ++ fp)%string /\ (sg = "" \/ sg = "-")%string /\ ds <> ""%string /\
    all_chars is_digit ds = true /\ all_chars is_digit fp = true /\ (pt = "." \/ pt = "" /\ fp = "")%string /\
    (String.length ds + String.length fp <= 300)%nat.

(** [shows] is the text of a number in the form. *)
Definition point_shows (shows : dbl -> string) (m : dmap) : Prop :=
  forall k, In k ["X"; "Y"; "Z"]%string -> exists d, assoc k m = Some d /\ plain (shows d) /\ shown Invariant (shows d) d.

(** The file is one of a known machine, all its numbers can be shown and the
    lists have its words. *)
Record settled (ct : culture) (shows : dbl -> string) (ms : machines) (f : nc_file) (md : machine_data) : Prop := {
  st_machine : assoc (nf_machine f) ms = Some md;
  st_listed : nf_driver f <> Heidenhain /\ shown_for (nf_driver f) (nf_machine f, md) = true;
  st_type : md_type md = nf_type f;
  st_extras : nf_extras f <> [] /\ NoDup (map fst (nf_extras f));
  st_axes : NoDup (map fst (ks_axes (nf_kin f)));
  st_ranges : forall w r, In (w, r) (ks_axes (nf_kin f)) -> shown_single ct (shows (fst r)) (fst r) /\ shown_single ct (shows (snd r)) (snd r);
  st_feeds : shown_int (shows (ks_work_feed (nf_kin f))) (ks_work_feed (nf_kin f)) /\
             shown_int (shows (ks_fast_feed (nf_kin f))) (ks_fast_feed (nf_kin f));
  st_ints : forall n, In n [ks_spindle (nf_kin f); ks_warehouse (nf_kin f); ks_exchange_time (nf_kin f);
                            ks_pallet_time (nf_kin f); ks_measure_time (nf_kin f); cs_rotation (nf_cnc f)] -> int_min <= n <= int_max;
  st_pallet : In ("pallet_changer"%string, true) (nf_extras f) /\ In (ks_pallet_code (nf_kin f)) [""; "M"; "O"]%string \/
    ~ In ("pallet_changer"%string, true) (nf_extras f) /\
    ks_pallet_time (nf_kin f) = 0 /\ ks_pallet_code (nf_kin f) = ""%string /\ ks_pallet_value (nf_kin f) = ""%string;
  st_probe : In ("cnc_probe"%string, true) (nf_extras f) /\ In (ks_measure_code (nf_kin f)) [""; "M"; "O"]%string \/
    ~ In ("cnc_probe"%string, true) (nf_extras f) /\ ks_auto_measure (nf_kin f) = false /\
    ks_measure_time (nf_kin f) = 0 /\ ks_measure_code (nf_kin f) = ""%string /\ ks_measure_value (nf_kin f) = ""%string;
  st_direction : cs_direction (nf_cnc f) <> RotStop;
  st_points : point_shows shows (nf_exchange f) /\ point_shows shows (nf_base f);
  st_zero_z : exists d, assoc "Z"%string (nf_zero f) = Some d /\ shown ct (shows d) d;
  st_z : In "Z"%string (map fst (ks_axes (nf_kin f)));
  st_zero_xy : match nf_type f with
    | TT_Mill => forall k, In k ["X"; "Y"]%string -> In k (map fst (ks_axes (nf_kin f))) /\
                   exists d, assoc k (nf_zero f) = Some d /\ shown ct (shows d) d
    | _ => forall k, In k ["X"; "Y"]%string -> assoc k (nf_zero f) = Some (S754_zero false)
    end
}.
