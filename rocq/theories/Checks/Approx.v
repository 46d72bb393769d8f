(** For the cases of the unit tests: [EXPECT_NEAR], and series in place of the
    functions of the mathematical library, good enough for its tolerances. *)
From Verif Require Import Model.Base Model.Double Model.Macro Model.Calc Model.PathGeom.
Local Open Scope Z_scope.

Definition near (tol a b : dbl) : bool := dleb (dabs (dsub a b)) tol.

(** Sum of [x^k / d(k)] with the signs and steps of the series at hand. *)
Fixpoint series (n : nat) (k sign step : Z) (pow ratio : dbl) : dbl :=
  match n with
  | O => dzero
  | S n => dadd (ddiv pow (dz (sign * k))) (series n (k + 2) (sign * step) step (dmul pow ratio) ratio)
  end.

Definition halve_angle (x : dbl) : dbl := ddiv x (dadd (dz 1) (dsqrt (dadd (dz 1) (sq x)))).

Definition atan_small (x : dbl) : dbl :=
  let y := halve_angle (halve_angle (halve_angle x)) in
  dmul (dz 8) (series 12 1 1 (-1) y (sq y)).

Definition atan_series (x : dbl) : dbl :=
  match x with
  | S754_nan => S754_nan
  | S754_infinity s => if s then dopp (ddiv m_pi (dz 2)) else ddiv m_pi (dz 2)
  | _ => atan_small x
  end.

Definition log_series (x : dbl) : dbl :=
  let y := Nat.iter 8 dsqrt x in
  let z := ddiv (dsub y (dz 1)) (dadd y (dz 1)) in
  dmul (dz 512) (series 10 1 1 1 z (sq z)).

(** [x - x^3/3! + x^5/5! - ...] *)
Fixpoint sin_terms (n : nat) (k : Z) (term x2 : dbl) : dbl :=
  match n with
  | O => dzero
  | S n => dadd term (sin_terms n (k + 2) (dopp (ddiv (dmul term x2) (dz ((k + 1) * (k + 2))))) x2)
  end.

(** After the multiples of a whole turn are taken away. *)
Definition sin_series (x : dbl) : dbl :=
  let turn := dmul (dz 2) m_pi in
  let r := dsub x (dmul (d_floor (dadd (ddiv x turn) (d_of_ratio false 1 2))) turn) in
  sin_terms 20 1 r (sq r).

(** A table of macros as the braces of a [std::map] make it. *)
Definition made (l : list (mkey * dbl)) : macro_map dbl := fold_left (fun m e => emplace m (fst e) (snd e)) l [].
