(** Rounding of a number [x] to an integer [n], over scaled values. *)
From Verif Require Import Model.Base Model.Double Spec.DoubleSpec.

(** [n] is the greatest integer not above [x]. *)
Definition rounds_down (x : dbl) (n : Z) : Prop := scaled n <= sval x < scaled (n + 1).
(** [n] is the least integer not below [x]. *)
Definition rounds_up (x : dbl) (n : Z) : Prop := scaled (n - 1) < sval x <= scaled n.
(** [n] is nearest to [x]; of two equally near, the one away from zero. *)
Definition rounds_nearest (x : dbl) (n : Z) : Prop :=
  2 * Z.abs (sval x - scaled n) <= scaled 1 /\
  (2 * Z.abs (sval x - scaled n) = scaled 1 -> Z.abs (sval x) < Z.abs (scaled n)).
