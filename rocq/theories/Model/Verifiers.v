(** The block verifiers run by AllAttributesParser::parse. *)
From Verif Require Import Model.Base Model.Attr Model.Double Model.Macro.

(** ** UniqueCode.cpp 24-37, 50-55 *)

Definition unique_step (wm : word_map) (seen : list string) (a : attr) : res (list string) :=
  match a with
  | ADec d =>
      match assoc (d_word d) wm with
      | None => Ok seen
      | Some g =>
          if negb (g_unique g) then Ok seen
          else if negb (mem_str (d_word d) seen) then Ok (d_word d :: seen)
          else Exc (EUniqueCode (d_word d))
      end
  | _ => Ok seen
  end.

Definition unique_code (wm : word_map) (b : block) : res unit :=
  match foldM (unique_step wm) [] b with Ok _ => Ok tt | Exc e => Exc e end.

(** ** SameWordInBlockVerifier.cpp 22-30, 43-48 *)

Definition same_word_step (w : string) (was : bool) (a : attr) : res bool :=
  match a with
  | ADec d =>
      if String.eqb (d_word d) w then
        if was then Exc (ESameWord w) else Ok true
      else Ok was
  | _ => Ok was
  end.

Definition same_word (w : string) (b : block) : res unit :=
  match foldM (same_word_step w) false b with Ok _ => Ok tt | Exc e => Exc e end.

(** ** RangeVerifier.cpp 23-54, 67-73 (spindle speed, tool number, feed) *)

(** GeneralParserDefines.h: EMachineToolType. *)
Inductive machine_tool_type : Type := MTMill | MTLathe | MTMillturn.

(** GeneralParserDefines.h: the Kinematics fields RangeVerifier reads.
    [cartesian_system_axis] maps an axis to (range_min, range_max). *)
Record kinematics : Type := mkKin {
  kin_axes : list (string * (dbl * dbl));
  kin_max_feed : dbl;
  kin_max_spindle : Z;
  kin_warehouse : Z
}.

Definition substring_half (s : string) : string :=
  String.substring 0 (Nat.div2 (String.length s)) s.

(** RangeVerifier.cpp 37-40. *)
Definition tool_number_text (mt : machine_tool_type) (v : string) : string :=
  match mt with
  | MTLathe => if (2 <? String.length v)%nat then substring_half v else v
  | _ => v
  end.

Definition range_step (mt : machine_tool_type) (k : kinematics) (a : attr) : res unit :=
  match a with
  | ADec d =>
      match d_value d with
      | None => Ok tt
      | Some v =>
          if String.eqb (d_word d) "S" then
            do n <- stoi v;
            if kin_max_spindle k <? n
            then Exc (ERangeVerifier ["S"; v; z_to_string (kin_max_spindle k)]) else Ok tt
          else if String.eqb (d_word d) "T" then
            let t := tool_number_text mt v in
            do n <- stoi t;
            if kin_warehouse k <? n
            then Exc (ERangeVerifier ["T"; t; z_to_string (kin_warehouse k)]) else Ok tt
          else if String.eqb (d_word d) "F" then
            do n <- stoi v;
            if dgtb (d_of_Z n) (kin_max_feed k)
            then Exc (ERangeVerifier ["F"; v; d_to_string (kin_max_feed k)]) else Ok tt
          else Ok tt
      end
  | _ => Ok tt
  end.

Definition range_verifier (mt : machine_tool_type) (k : kinematics) (b : block) : res unit :=
  foldM (fun _ a => range_step mt k a) tt b.

(** ** RangeVerifier.cpp 75-109 (axis travel) *)

Record zero_point : Type := mkZP { zp_x : dbl; zp_y : dbl; zp_z : dbl }.

(** AllAttributesParserDefines.h: word -> (min, current, max).  A std::map; the
    list gives its entries in iteration order. *)
Definition word_range_map := list (string * (dbl * dbl * dbl)).

(** RangeVerifier.cpp 88-102: subtraction of the zero point. *)
Definition zp_offset (zp : zero_point) (w : string) : option dbl :=
  if String.eqb w "X" then Some (zp_x zp)
  else if String.eqb w "Y" then Some (zp_y zp)
  else if String.eqb w "Z" then Some (zp_z zp)
  else None.

Definition shift_by (o : option dbl) (x : dbl) : dbl :=
  match o with Some z => dsub x z | None => x end.

Definition axis_step (k : kinematics) (zp : zero_point) (e : string * (dbl * dbl * dbl)) : res unit :=
  let '(w, (_, cur, _)) := e in
  match assoc w (kin_axes k) with
  | None => Ok tt
  | Some (lo, hi) =>
      let lo' := shift_by (zp_offset zp w) lo in
      let hi' := shift_by (zp_offset zp w) hi in
      if dgtb cur hi' || dltb cur lo'
      then Exc (ERangeVerifier [w; d_to_string cur; d_to_string lo'; d_to_string hi'])
      else Ok tt
  end.

Definition axis_verifier (k : kinematics) (zp : zero_point) (wrm : word_range_map) : res unit :=
  foldM (fun _ e => axis_step k zp e) tt wrm.

(** ** RotationVerifier.cpp 24-85 *)

Record rot_state : Type := mkRot { r_G : bool; r_M : bool; r_S : bool; r_reported : bool }.

Definition rot_init : rot_state := mkRot false false false false.

(** RotationVerifier.cpp 24-56.  The state is kept when the visitor throws,
    hence the pair. *)
Definition rot_visit (op : bool) (st : rot_state) (d : decimal) : rot_state * option exn :=
  if String.eqb (d_word d) "S" then
    let st' := mkRot (r_G st) (r_M st) true (r_reported st) in
    (st', if op then Some (ERotation ["SNotAllowedWhenOperatorTurnsRotation"]) else None)
  else
    match d_value d with
    | None => (st, None)
    | Some v =>
        if String.eqb (d_word d) "M" then
          match stoi v with
          | Exc e => (st, Some e)
          | Ok n =>
              if (n =? 3) || (n =? 4) then
                let st' := mkRot (r_G st) true (r_S st) (r_reported st) in
                (st', if op then Some (ERotation ["M3M4NotAllowedWhenOperatorTurnsRotation"]) else None)
              else (st, None)
          end
        else if negb op && String.eqb (d_word d) "G" then
          match stoi v with
          | Exc e => (st, Some e)
          | Ok n =>
              if (n =? 1) || ((81 <=? n) && (n <=? 89))
              then (mkRot true (r_M st) (r_S st) (r_reported st), None)
              else (st, None)
          end
        else (st, None)
    end.

Fixpoint rot_visit_all (op : bool) (st : rot_state) (b : block) : rot_state * option exn :=
  match b with
  | [] => (st, None)
  | ADec d :: b' =>
      match rot_visit op st d with
      | (st', None) => rot_visit_all op st' b'
      | r => r
      end
  | _ :: b' => rot_visit_all op st b'
  end.

(** RotationVerifier.cpp 58-85.  [op] is
    [cnc_default_values.operator_turns_on_rotation]. *)
Definition rotation_verifier (op : bool) (st : rot_state) (b : block) : rot_state * option exn :=
  match rot_visit_all op st b with
  | (st', Some e) => (st', Some e)
  | (st', None) =>
      if negb (r_reported st') && negb op then
        if r_G st' && negb (r_M st') && negb (r_S st') then
          (mkRot (r_G st') (r_M st') (r_S st') true, Some (ERotation ["ValueNotSet"; "S"]))
        else if r_G st' && r_M st' && negb (r_S st') then
          (mkRot (r_G st') (r_M st') (r_S st') true, Some (ERotation ["ValueNotSet"; "S"]))
        else if r_G st' && r_S st' && negb (r_M st') then
          (mkRot (r_G st') (r_M st') (r_S st') true, Some (ERotation ["ValueNotSet"; "M3/M4"]))
        else (st', None)
      else (st', None)
  end.

(** A whole program: the outcome per block. *)
Fixpoint rotation_run (op : bool) (st : rot_state) (p : list block) : list (option exn) :=
  match p with
  | [] => []
  | b :: p' => let '(st', r) := rotation_verifier op st b in r :: rotation_run op st' p'
  end.

(** ** GrammarSelector.cpp 22-35, 47-53.  [true] stands for the metric grammar. *)

Definition selector_step (metric_active : bool) (a : attr) : res bool :=
  match a with
  | ADec d =>
      if negb (String.eqb (d_word d) "G") then Ok metric_active
      else match d_value d with
           | None => Ok metric_active
           | Some v =>
               do n <- stoi v;
               let n := to_u32 n in
               Ok (if n =? 20 then false else if n =? 21 then true else metric_active)
           end
  | _ => Ok metric_active
  end.

Definition grammar_selector (metric_active : bool) (b : block) : res bool :=
  foldM selector_step metric_active b.

(** ** CodeGroupsVerifier.cpp *)

(** CodeGroupsDefines.h 12-36: (code, rest) -> set of group names.  The
    std::set is the ordered list of its elements, so it has no duplicates
    (theorems about [visit_groups] state that as a hypothesis). *)
Record cgv : Type := mkCgv { cg_code : Z; cg_rest : Z }.

Definition cgv_eqb (a b : cgv) : bool :=
  (cg_code a =? cg_code b) && (cg_rest a =? cg_rest b).

Definition code_groups := list (cgv * list string).

Fixpoint find_groups (m : code_groups) (k : cgv) : option (list string) :=
  match m with
  | [] => None
  | (k', gs) :: m' => if cgv_eqb k k' then Some gs else find_groups m' k
  end.

(** CodeGroupsVerifier.cpp 69-71: text of a code for messages. *)
Definition cgv_text (w : string) (c : cgv) : string :=
  (w ++ z_to_string (cg_code c) ++
   (if (cg_rest c =? 0)%Z then "" else "." ++ z_to_string (cg_rest c)))%string.

(** Position of the first point, as [find('.')] + [substr]. *)
Fixpoint split_point (s : string) : option (string * string) :=
  match s with
  | EmptyString => None
  | String c s' =>
      if Ascii.eqb c "." then Some (EmptyString, s')
      else match split_point s' with
           | Some (a, b) => Some (String c a, b)
           | None => None
           end
  end.

(** CodeGroupsVerifier.cpp 35-62: the code a word denotes.  [None]: the word
    is not looked at. *)
Definition word_code (mv : macro_map dbl) (line : Z) (w : string) (d : decimal)
  : res (option cgv) :=
  if negb (String.eqb (d_word d) w) then Ok None
  else match d_value d with
  | None => Ok None
  | Some v =>
      do n <- stoi v;
      let val := to_u32 n in
      match d_macro d with
      | Some _ =>
          match macro_lookup mv val line with
          | None => Exc (ECodeGroups ["MissingValue"; ("#" ++ v)%string])
          | Some x =>
              let t := to_string_trunc x in
              match split_point t with
              | Some (ip, fp) =>
                  do c <- stoi ip; do r <- stoi fp; Ok (Some (mkCgv (to_u32 c) (to_u32 r)))
              | None => do c <- stoi t; Ok (Some (mkCgv (to_u32 c) 0))
              end
          end
      | None =>
          match d_value2 d with
          | None => Ok (Some (mkCgv val 0))
          | Some v2 => do r <- stoi v2; Ok (Some (mkCgv val (to_u32 r)))
          end
      end
  end.

(** CodeGroupsVerifier.cpp 80-97: occurrences of groups so far. *)
Definition occ_map := list (string * cgv).

Fixpoint visit_groups (w : string) (c : cgv) (occ : occ_map) (gs : list string) : res occ_map :=
  match gs with
  | [] => Ok occ
  | g :: gs' =>
      match assoc g occ with
      | Some c2 => Exc (ECodeGroups ["InSameCodeGroup"; cgv_text w c; cgv_text w c2; g])
      | None => visit_groups w c ((g, c) :: occ) gs'
      end
  end.

(** CodeGroupsVerifier.cpp 31-98. *)
Definition groups_step (mv : macro_map dbl) (line : Z) (w : string) (m : code_groups)
  (report_missing : bool) (occ : occ_map) (a : attr) : res occ_map :=
  match a with
  | ADec d =>
      do oc <- word_code mv line w d;
      match oc with
      | None => Ok occ
      | Some c =>
          match find_groups m c with
          | None => if report_missing
                    then Exc (ECodeGroups ["MissingInCodeGroups"; cgv_text w c]) else Ok occ
          | Some gs => visit_groups w c occ gs
          end
      end
  | _ => Ok occ
  end.

(** CodeGroupsVerifier.cpp 115-126.  AllAttributesParser.cpp 257-259 calls it
    with report_missing = false. *)
Definition code_groups_verifier (mv : macro_map dbl) (gg mg : code_groups) (line : Z)
  (report_missing : bool) (b : block) : res unit :=
  do _ <- foldM (groups_step mv line "G" gg report_missing) [] b;
  do _ <- foldM (groups_step mv line "M" mg report_missing) [] b;
  Ok tt.
