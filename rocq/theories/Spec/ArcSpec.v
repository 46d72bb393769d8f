(** What full circles should travel. *)
From Coq Require Import Reals.
From Flocq Require Import Core.
From Verif Require Import Model.Base Model.Attr Model.Double Model.PathCalc Spec.DoubleSpec Spec.SplitSpec Spec.PathSpec Spec.MotionSpec Spec.DrillSpec.

(** The axes of a plane and the words that give the centre from the start. *)
Definition arc_words (plane : Z) (a1 a2 a3 p1 p2 : string) : Prop :=
  (plane = 17 /\ a1 = "X" /\ a2 = "Y" /\ a3 = "Z" /\ p1 = "I" /\ p2 = "J")%string%Z \/
  (plane = 18 /\ a1 = "X" /\ a2 = "Z" /\ a3 = "Y" /\ p1 = "I" /\ p2 = "K")%string%Z \/
  (plane = 19 /\ a1 = "Y" /\ a2 = "Z" /\ a3 = "X" /\ p1 = "J" /\ p2 = "K")%string%Z.

(** The block ends where it starts: it does not give the coordinate, or gives the
    one of before. *)
Definition same_place (p : Z) (o : option dbl) (before : dbl) : Prop := o = None \/ p = 90%Z /\ o = Some before.

(** The length of a circle whose centre is [i], [j] away. *)
Definition circumference (i j : R) : R := (2 * PI * sqrt (i * i + j * j))%R.

(** A number that occurs on a machine: up to a kilometre in millimetres. *)
Definition on_machine (x : dbl) : Prop := finite x /\ (size x <= 1000000)%R.
