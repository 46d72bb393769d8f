(** What drilling cycles should travel. *)
From Coq Require Import Reals.
From Flocq Require Import Core BinarySingleNaN.
From Verif Require Import Model.Base Model.Attr Model.Double Model.PathCalc Spec.DoubleSpec Spec.SplitSpec Spec.PathSpec Spec.MotionSpec.

Open Scope list_scope.

(** The axes of the plane a hole is in, and the one it is drilled along. *)
Definition tool_axes (plane : Z) (a1 a2 a3 : string) : Prop :=
  (plane = 17 /\ a1 = "X" /\ a2 = "Y" /\ a3 = "Z")%string%Z \/
  (plane = 18 /\ a1 = "X" /\ a2 = "Z" /\ a3 = "Y")%string%Z \/
  (plane = 19 /\ a1 = "Y" /\ a2 = "Z" /\ a3 = "X")%string%Z.

(** Cycles that go down once cutting, and those that also come up cutting. *)
Definition bores : list Z := [81; 82; 85; 86; 88; 89].
Definition taps : list Z := [74; 84].

(** A calculated number: as exact as numbers of the size [s] are. *)
Definition within (x : dbl) (r s : R) : Prop := finite x /\ (Rabs (amount x - r) <= / 2 ^ 48 * s + bpow radix2 (-490))%R.

(** The rapid way of a hole from the height [zp] by [r] to the bottom [z] and back
    to where the cycle began (G98) or to [r] (G99). *)
Definition bore_rapid (ret : Z) (zp r z : R) : R := ((zp - r) + if (ret =? 98)%Z then zp - z else r - z)%R.
Definition tap_rapid (ret : Z) (zp r : R) : R := (Rabs (zp - r) * if (ret =? 98)%Z then 2 else 1)%R.

(** Fine boring (G76): the tool comes up in rapid, [q] aside. *)
Definition fine_rapid (ret : Z) (zp r z q : R) : R := (Rabs (r - zp) + (if (ret =? 98)%Z then Rabs (z - zp) else Rabs (z - r)) + 2 * q)%R.

(** Boring backwards (G87): the tool goes down to [r], [q] aside, cuts up to [z] and
    comes up [q] aside again. *)
Definition back_rapid (zp r z q : R) : R := ((zp - r) + (zp - z) + 4 * q)%R.

(** Deep drilling (G83) in steps of [q]: [n] strokes down to [q], twice [q] and so on,
    each from the level and back to it. *)
Fixpoint strokes (n : nat) (q : R) : R := match n with O => 0%R | S m => (strokes m q + 2 * (INR n * q))%R end.

(** After them the rest of the [depth]: every stroke but the first is cutting from a
    fifth of [q] above where the one before ended. *)
Definition peck_cut (n : nat) (q depth : R) : R := (depth + INR n * (q / 5))%R.
Definition peck_rapid (n : nat) (ret : Z) (zp r q depth : R) : R :=
  (strokes n q + 2 * depth - peck_cut n q depth + Rabs (zp - r) * if (ret =? 98)%Z then 2 else 1)%R.

(** Sizes. *)
Definition size (x : dbl) : R := Rabs (amount x).
