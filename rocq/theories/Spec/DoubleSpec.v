(** Doubles as exact numbers.  Every finite binary64 number is an integer
    multiple of 2^-1074, so its value is given by the integer
    [sval x = x * 2^1074]; comparing and adding values is then plain integer
    arithmetic. *)
From Verif Require Import Model.Base Model.Double.

Definition unit_exp : Z := 1074.

Definition sval (x : dbl) : Z :=
  match x with
  | S754_finite s m e => (if s then -1 else 1) * (Zpos m * 2 ^ (e + unit_exp))
  | _ => 0
  end.

(** A number (not NaN or infinite) in the canonical form of binary64. *)
Definition finite (x : dbl) : Prop :=
  match x with
  | S754_finite _ m e => bounded 53 1024 m e = true
  | S754_zero _ => True
  | _ => False
  end.

(** The integer [n] as a scaled value. *)
Definition scaled (n : Z) : Z := n * 2 ^ unit_exp.

(** [x] is the integer [n]. *)
Definition is_int (x : dbl) (n : Z) : Prop := finite x /\ sval x = scaled n.

(** A scaled value that binary64 represents exactly. *)
Definition representable (z : Z) : Prop :=
  exists m k, 0 <= k /\ Z.abs m < 2 ^ 53 /\ z = m * 2 ^ k /\ Z.abs z < 2 ^ 2098.
