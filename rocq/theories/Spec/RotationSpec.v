(** Rotations of space by multiples of 90 degrees about a coordinate axis. *)
From Verif Require Import Model.Base Model.Attr Model.Rotator.

(** ** Vectors and matrices over the integers *)

Definition vec : Type := (Z * Z * Z)%type.
Definition mat : Type := (vec * vec * vec)%type.   (* rows *)

Definition dot (a b : vec) : Z :=
  let '(a1, a2, a3) := a in let '(b1, b2, b3) := b in a1 * b1 + a2 * b2 + a3 * b3.
Definition apply (m : mat) (v : vec) : vec :=
  let '(r1, r2, r3) := m in (dot r1 v, dot r2 v, dot r3 v).
Definition det (m : mat) : Z :=
  let '((a, b, c), (d, e, f), (g, h, i)) := m in
  a * (e * i - f * h) - b * (d * i - f * g) + c * (d * h - e * g).
Definition transpose (m : mat) : mat :=
  let '((a, b, c), (d, e, f), (g, h, i)) := m in ((a, d, g), (b, e, h), (c, f, i)).
Definition mul (m n : mat) : mat :=
  let '(r1, r2, r3) := m in
  let n' := transpose n in
  (apply n' r1, apply n' r2, apply n' r3).
Definition ident : mat := ((1, 0, 0), (0, 1, 0), (0, 0, 1)).

(** Quarter turns.  They turn the coordinate frame, i.e. the point goes from
    +y to -z, and so on cyclically. *)
Definition quarter_x : mat := ((1, 0, 0), (0, 0, 1), (0, -1, 0)).
Definition quarter_y : mat := ((0, 0, -1), (0, 1, 0), (1, 0, 0)).
Definition quarter_z : mat := ((0, 1, 0), (-1, 0, 0), (0, 0, 1)).

Definition turn (o : rot_option) : mat :=
  match o with
  | X90 => quarter_x | X180 => mul quarter_x quarter_x
  | X270 => mul quarter_x (mul quarter_x quarter_x)
  | Y90 => quarter_y | Y180 => mul quarter_y quarter_y
  | Y270 => mul quarter_y (mul quarter_y quarter_y)
  | Z90 => quarter_z | Z180 => mul quarter_z quarter_z
  | Z270 => mul quarter_z (mul quarter_z quarter_z)
  end.

Definition back (o : rot_option) : rot_option :=
  match o with
  | X90 => X270 | X180 => X180 | X270 => X90
  | Y90 => Y270 | Y180 => Y180 | Y270 => Y90
  | Z90 => Z270 | Z180 => Z180 | Z270 => Z90
  end.

(** ** Reading coordinates from a block *)

(** Integer value of a word: sign and digits (no decimals needed here). *)
Definition word_value (d : decimal) : Z :=
  let m := digits_val (opt_str (d_value d)) in
  match d_sign d with
  | Some c => if Ascii.eqb c "-" then - m else m
  | None => m
  end.

(** Sum of the values of the words with address [w] (0 when there is none). *)
Fixpoint coord (w : string) (b : block) : Z :=
  match b with
  | [] => 0
  | ADec d :: b' => (if String.eqb (d_word d) w then word_value d else 0) + coord w b'
  | _ :: b' => coord w b'
  end.

Definition coords (wx wy wz : string) (b : block) : vec := (coord wx b, coord wy b, coord wz b).

(** ** Same word up to a redundant plus sign *)

Definition same_sign (s t : option ascii) : Prop :=
  (s = Some "-"%char <-> t = Some "-"%char).

Definition same_word_value (d d' : decimal) : Prop :=
  d_word d = d_word d' /\ same_sign (d_sign d) (d_sign d') /\
  d_assign d = d_assign d' /\ d_open d = d_open d' /\ d_macro d = d_macro d' /\
  d_value d = d_value d' /\ d_dot d = d_dot d' /\ d_value2 d = d_value2 d' /\ d_close d = d_close d'.

Definition is_axis (w : string) : bool := mem_str w ["X"; "Y"; "Z"; "I"; "J"; "K"].

(** [a'] is [a] restored: the same address; the same value on axis words;
    other words than G unchanged altogether. *)
Definition restored (a a' : attr) : Prop :=
  match a, a' with
  | ADec d, ADec d' =>
      d_word d' = d_word d /\
      (is_axis (d_word d) = true -> same_word_value d' d) /\
      (is_axis (d_word d) = false -> d_word d <> "G" -> d' = d)
  | _, _ => a' = a
  end.

(** ** Planes and arcs *)

Inductive plane : Type := G17 | G18 | G19.
Definition plane_code (p : plane) : string :=
  match p with G17 => "17" | G18 => "18" | G19 => "19" end.
(** Unit normal of a plane: clockwise arcs (G2) are clockwise seen from its tip. *)
Definition normal (p : plane) : vec :=
  match p with G17 => (0, 0, 1) | G18 => (0, 1, 0) | G19 => (1, 0, 0) end.
Definition scale (k : Z) (v : vec) : vec := let '(a, b, c) := v in (k * a, k * b, k * c).

(** [p'] is the image of plane [p], and its normal is [k] times the image of
    the normal of [p]. *)
Definition plane_image (o : rot_option) (p p' : plane) (k : Z) : Prop :=
  (k = 1 \/ k = -1) /\ apply (turn o) (normal p) = scale k (normal p').

Definition other_direction (g : string) : string := if String.eqb g "2" then "3" else "2".

(** G code [g] (2 or 3) programmed in plane [p] is rewritten to the code that
    describes the rotated arc. *)
Definition arc_consistent (o : rot_option) (p : plane) (g : string) : Prop :=
  forall p' k, plane_image o p p' k ->
  rotate_decimal o (plain "G" g) = plain "G" (if k =? 1 then g else other_direction g).
