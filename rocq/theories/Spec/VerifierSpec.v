(** What the block verifiers should accept and reject. *)
From Verif Require Import Model.Base Model.Attr Model.Double Model.Macro Model.Verifiers.
From Verif Require Export Spec.Text Spec.DoubleSpec.

(** ** Uniqueness *)

(** Addresses of the number words of a block, in order. *)
Definition addresses (b : block) : list string :=
  flat_map (fun a => match a with ADec d => [d_word d] | _ => [] end) b.

Definition unique_address (wm : word_map) (w : string) : Prop :=
  exists g, assoc w wm = Some g /\ g_unique g = true.

Definition repeated (w : string) (l : list string) : Prop :=
  (2 <= count_occ string_dec l w)%nat.

(** ** Code groups *)

(** [c] is the code denoted by a word without macro: G5.1 is (5, 1). *)
Inductive plain_code (d : decimal) : cgv -> Prop :=
| pc_int v n : d_value d = Some v -> denotes v n -> d_value2 d = None -> plain_code d (mkCgv n 0)
| pc_frac v n v2 r : d_value d = Some v -> denotes v n -> d_value2 d = Some v2 -> denotes v2 r ->
    plain_code d (mkCgv n r).

(** [c] is the code denoted by the text of a macro value. *)
Inductive text_code (t : string) : cgv -> Prop :=
| tc_int n : denotes t n -> n <= int_max -> text_code t (mkCgv n 0)
| tc_frac a b n r : t = (a ++ "." ++ b)%string -> denotes a n -> n <= int_max ->
    denotes b r -> r <= int_max -> text_code t (mkCgv n r).

(** [mv]: macro table, looked up at [line]. *)
Inductive code_of (mv : macro_map dbl) (line : Z) (w : string) (d : decimal) : cgv -> Prop :=
| co_plain c : d_word d = w -> d_macro d = None -> plain_code d c -> code_of mv line w d c
| co_macro v id x c : d_word d = w -> is_some (d_macro d) = true ->
    d_value d = Some v -> denotes v id -> macro_lookup mv id line = Some x ->
    text_code (to_string_trunc x) c -> code_of mv line w d c.

Definition undefined_macro (mv : macro_map dbl) (line : Z) (w : string) (d : decimal) : Prop :=
  exists v id, d_word d = w /\ is_some (d_macro d) = true /\ d_value d = Some v /\ denotes v id /\
               macro_lookup mv id line = None.

(** Words the parser delivers: values are digits and fit an int; a defined macro
    has the value of a code. *)
Definition readable_code (mv : macro_map dbl) (line : Z) (w : string) (a : attr) : Prop :=
  match a with
  | ADec d =>
      d_word d <> w \/ d_value d = None \/
      ((forall v, d_value d = Some v -> exists n, denotes v n /\ n <= int_max) /\
       (forall v, d_value2 d = Some v -> exists n, denotes v n /\ n <= int_max) /\
       (undefined_macro mv line w d \/ exists c, code_of mv line w d c))
  | _ => True
  end.

Definition in_group (m : code_groups) (c : cgv) (g : string) : Prop :=
  exists gs, In (c, gs) m /\ In g gs.

(** The table is a map of sets. *)
Definition groups_ok (m : code_groups) : Prop :=
  NoDup (map fst m) /\ Forall (fun e => NoDup (snd e)) m.

(** Two different words of the block, first [d1] then [d2], have codes with a
    common group. *)
Definition conflict (mv : macro_map dbl) (line : Z) (w : string) (m : code_groups) (b : block)
  (c1 c2 : cgv) (g : string) : Prop :=
  exists b1 d1 b2 d2 b3, b = (b1 ++ ADec d1 :: b2 ++ ADec d2 :: b3)%list /\
    code_of mv line w d1 c1 /\ code_of mv line w d2 c2 /\ in_group m c1 g /\ in_group m c2 g.

Definition some_undefined (mv : macro_map dbl) (line : Z) (w : string) (b : block) : Prop :=
  exists d, In (ADec d) b /\ undefined_macro mv line w d.

(** ** Limits *)

(** A word that is an address followed by digits only. *)
Definition integer_word (d : decimal) : Prop :=
  d_sign d = None /\ d_macro d = None /\ d_value2 d = None /\
  match d_value d with Some v => exists n, denotes v n /\ n <= int_max | None => True end.

(** The tool number in the text of a T word. *)
Inductive tool_of (mt : machine_tool_type) : string -> Z -> Prop :=
| tool_whole v n : mt <> MTLathe \/ (String.length v <= 2)%nat -> denotes v n -> tool_of mt v n
| tool_half v a b n : mt = MTLathe -> (2 < String.length v)%nat -> v = (a ++ b)%string ->
    (String.length b = String.length a \/ String.length b = S (String.length a)) ->
    denotes a n -> tool_of mt v n.

(** The word exceeds a limit of the machine. *)
Inductive exceeds (mt : machine_tool_type) (k : kinematics) (d : decimal) : Prop :=
| ex_spindle v n : d_word d = "S" -> d_value d = Some v -> denotes v n -> kin_max_spindle k < n ->
    exceeds mt k d
| ex_tool v n : d_word d = "T" -> d_value d = Some v -> tool_of mt v n -> kin_warehouse k < n ->
    exceeds mt k d
| ex_feed v n : d_word d = "F" -> d_value d = Some v -> denotes v n ->
    sval (kin_max_feed k) < scaled n -> exceeds mt k d.

(** The decimal number written by a word exceeds the integer [limit]. *)
Definition number_exceeds (d : decimal) (limit : Z) : Prop :=
  exists v n f m, d_value d = Some v /\ denotes v n /\ d_value2 d = Some f /\ denotes f m /\
    d_sign d = None /\ d_macro d = None /\
    let unit := 10 ^ Z.of_nat (String.length f) in limit * unit < n * unit + m.

(** ** Axis travel *)

(** Offset of the zero point along an axis; other axes have none. *)
Definition offset_of (zp : zero_point) (w : string) : dbl :=
  if String.eqb w "X" then zp_x zp
  else if String.eqb w "Y" then zp_y zp
  else if String.eqb w "Z" then zp_z zp
  else dzero.

(** The position [cur] of axis [w], moved by the zero point, is outside the
    travel range of the axis. *)
Definition out_of_travel (k : kinematics) (zp : zero_point) (w : string) (cur : dbl) : Prop :=
  exists lo hi, assoc w (kin_axes k) = Some (lo, hi) /\
    (sval hi < sval cur + sval (offset_of zp w) \/ sval cur + sval (offset_of zp w) < sval lo).

(** All numbers are finite and moving the range by the zero point needs no
    rounding. *)
Definition exact_limits (k : kinematics) (zp : zero_point) : Prop :=
  finite (zp_x zp) /\ finite (zp_y zp) /\ finite (zp_z zp) /\
  forall w lo hi, assoc w (kin_axes k) = Some (lo, hi) ->
    finite lo /\ finite hi /\
    representable (sval lo - sval (offset_of zp w)) /\ representable (sval hi - sval (offset_of zp w)).
