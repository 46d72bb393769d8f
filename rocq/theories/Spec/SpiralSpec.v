(** What spirals should travel. *)
From Coq Require Import Reals.
From Flocq Require Import Core.
From Verif Require Import Model.Base Model.Double Spec.DoubleSpec Spec.MotionSpec.

(** The length of a spiral of Archimedes, the curve whose distance from the centre
    grows with the angle [t], from the centre to [t]; [a] is the growth. *)
Definition spiral (a t : R) : R := (a / 2 * (t * sqrt (1 + t * t) + ln (t + sqrt (1 + t * t))))%R.

(** The spiral from the centre to a point at [radius] with [turns] turns. *)
Definition spiral_length (radius turns : R) : R := spiral (radius / (2 * PI * turns)) (2 * PI * turns).

(** The library knows the logarithm of numbers from 1 on. *)
Definition good_log (log : dbl -> dbl) : Prop :=
  forall x, finite x -> (1 <= amount x)%R -> about (log x) (ln (amount x)).

(** A length that occurs: from 2^-100 to 2^100. *)
Definition a_length (r : R) : Prop := (bpow radix2 (-100) <= r <= bpow radix2 100)%R.

(** How far [i], [j] is away. *)
Definition away (i j : R) : R := sqrt (i * i + j * j).

(** A calculated length: as exact as 13 digits are. *)
Definition near_spiral (x : dbl) (r : R) : Prop := finite x /\ (Rabs (amount x - r) <= / 2 ^ 46 * r)%R.
