(** What arcs with a radius should travel. *)
From Coq Require Import Reals.
From Flocq Require Import Core.
From Verif Require Import Model.Base Model.Double Spec.DoubleSpec Spec.MotionSpec.

(** The library knows the arc tangent. *)
Definition good_atan (tan_ : dbl -> dbl) : Prop :=
  forall x, finite x -> (0 <= amount x)%R -> about (tan_ x) (atan (amount x)).

(** How far two points are from each other. *)
Definition chord (x y x' y' : R) : R := sqrt ((x - x') * (x - x') + (y - y') * (y - y')).

(** The arcs with [radius] over a [chord]: the shorter one and the rest of the circle. *)
Definition shorter (radius chord : R) : R := (2 * radius * asin (chord / (2 * radius)))%R.
Definition longer (radius chord : R) : R := (2 * PI * radius - shorter radius chord)%R.

(** A negative radius asks for the longer one. *)
Definition way_around (r chord : R) : R := if Rlt_dec r 0 then longer (- r) chord else shorter r chord.

(** A calculated length: as exact as 13 digits are. *)
Definition near_arc (x : dbl) (r : R) : Prop := finite x /\ (Rabs (amount x - r) <= / 2 ^ 44 * r)%R.

(** Where a block that gives [o] ends: absolute or from where it was. *)
Definition goes_to (p : Z) (o : option dbl) (before after : dbl) : Prop :=
  match o with None => after = before | Some x => p = 90%Z /\ after = x \/ p = 91%Z /\ after = dadd before x end.

(** A coordinate: up to a kilometre in millimetres, not so small that its half is not exact. *)
Definition coordinate (x : dbl) : Prop :=
  finite x /\ (Rabs (amount x) <= 1000000)%R /\ (amount x = 0%R \/ (bpow radix2 (-400) <= Rabs (amount x))%R).

(** From [px], [py] to [cx], [cy], seen from the centre, it is to the left or to the
    right of the line through the centre and the first point. *)
Definition cross (px py cx cy : R) : R := (px * cy - py * cx)%R.

(** They are in quadrants next to each other. *)
Definition neighbours (px py cx cy : R) : Prop :=
  (0 < px * cx)%R /\ (py * cy < 0)%R \/ (px * cx < 0)%R /\ (0 < py * cy)%R.

(** The arc from the one to the other, with G3 to the left. *)
Definition turned (g : Z) (px py cx cy radius chord : R) : R :=
  if Rlt_dec 0 (if (g =? 3)%Z then cross px py cx cy else - cross px py cx cy) then shorter radius chord else longer radius chord.

(** They are in quadrants opposite to each other, and not on one line with the centre:
    the sine of the angle between them is at least a quarter. *)
Definition opposite (px py cx cy : R) : Prop :=
  (px * cx < 0)%R /\ (py * cy < 0)%R /\ ((px * px + py * py) * (cx * cx + cy * cy) <= 16 * (cross px py cx cy * cross px py cx cy))%R.

(** The library knows the arc tangent, of negative numbers too. *)
Definition whole_atan (tan_ : dbl -> dbl) : Prop :=
  forall x, finite x -> finite (tan_ x) /\ (Rabs (amount (tan_ x) - atan (amount x)) <= / 2 ^ 50 * Rabs (atan (amount x)) + bpow radix2 (-500))%R.
