(** The cases of parser_ut/fanuc/PathCalculatorTest.cpp.  The arcs by increments
    (47-77, 97-112 there) are not modelled: nothing calls them.  The three planes
    have the same functions. *)
From Verif Require Import Model.Base Model.Double Model.Calc Model.PathGeom Checks.Approx.
Local Open Scope Z_scope.

Definition tol : dbl := d_of_ratio false 1 (10 ^ 8).
Definition is (num den : Z) (x : dbl) : bool := near tol (d_of_ratio false num den) x.
Definition p10 (n : Z) : Z := 10 ^ n.
Definition both (a b : Z) (x : dbl * dbl) : bool := is a 1 (fst x) && is b 1 (snd x).
Definition both' (a b : Z) (x : res (dbl * dbl)) : bool := match x with Ok x => both a b x | Exc _ => false end.

Definition all (l : list bool) : Prop := forallb (fun b => b) l = true.

Example pct_lines : all
  [is 13856406460551 (p10 12) (line3_to (dz 12) (dz 13) (dz 14) (dz 20) (dz 21) (dz 22));
   is 13856406460551 (p10 12) (line3 (dz 8) (dz 8) (dz 8))].
Proof. vm_compute. reflexivity. Qed.

Example pct_arcs : all
  (map (fun dir => is 282954938327595 (p10 14)
                      (arc_ij atan_series dabs dir (dz 12) (dz 13) (dz 14) (dz 15) (dz 20) (dz 21))) [2; 3]).
Proof. vm_compute. reflexivity. Qed.

Example pct_arc_r : all
  [is 283078946648854 (p10 14) (arc_r atan_series dabs (dz 12) (dz 13) (dz 14) (dz 15) (dz 20))].
Proof. vm_compute. reflexivity. Qed.

Definition bores : list Z := [81; 82; 85; 86; 88; 89].
Definition taps : list Z := [74; 84].

Example pct_drill_depth_incremental : all
  (map (fun m => both 27 13 (drill (dz 14) (dz 20) (dz 21) true m 98)) bores ++
   map (fun m => both 20 13 (drill (dz 14) (dz 20) (dz 21) true m 99)) bores ++
   map (fun m => both 40 14 (drill (dz 14) (dz 20) (dz 21) true m 98)) taps ++
   map (fun m => both 40 7 (drill (dz 14) (dz 20) (dz 21) true m 99)) taps).
Proof. vm_compute. reflexivity. Qed.

Example pct_drill_absolute : all
  (map (fun m => both 1 13 (drill (dz 14) (dz 20) (dz 21) false m 98)) bores ++
   map (fun m => both 1 6 (drill (dz 14) (dz 20) (dz 21) false m 99)) bores ++
   map (fun m => both 2 14 (drill (dz 14) (dz 20) (dz 21) false m 98)) taps ++
   map (fun m => both 2 7 (drill (dz 14) (dz 20) (dz 21) false m 99)) taps).
Proof. vm_compute. reflexivity. Qed.

Example pct_drill_incremental : all
  (map (fun m => both 6 48 (drill_incr (dz 6) (dz 21) m 98)) bores ++
   map (fun m => both 6 27 (drill_incr (dz 6) (dz 21) m 99)) bores ++
   map (fun m => both 12 42 (drill_incr (dz 6) (dz 21) m 98)) taps ++
   map (fun m => both 12 0 (drill_incr (dz 6) (dz 21) m 99)) taps).
Proof. vm_compute. reflexivity. Qed.

Definition dq (incr : bool) (mode ret : Z) := drill_q (dz 14) (dz 20) (dz 21) (dz 5) incr mode ret.

Example pct_drill_q_depth_incremental : all
  [both' 1 33 (dq true 87 98); both' 1 33 (dq true 87 99); both' 20 44 (dq true 76 98); both' 20 37 (dq true 76 99);
   both' 24 34 (dq true 73 98); both' 24 27 (dq true 73 99); both' 24 90 (dq true 83 98); both' 24 83 (dq true 83 99)].
Proof. vm_compute. reflexivity. Qed.

Example pct_drill_q_absolute : all
  [both' 1 33 (dq false 87 98); both' 1 33 (dq false 87 99); both' 1 23 (dq false 76 98); both' 1 18 (dq false 76 99);
   both' 1 15 (dq false 73 98); both' 1 8 (dq false 73 99); both' 1 15 (dq false 83 98); both' 1 8 (dq false 83 99)].
Proof. vm_compute. reflexivity. Qed.

Definition di (mode ret : Z) := drill_q_incr (dz 6) (dz 21) (dz 5) mode ret.

Definition back (r : res (dbl * dbl)) : bool :=
  match r with Ok x => is 6 1 (fst x) && is 648102496759066 (p10 13) (snd x) | Exc _ => false end.

Example pct_drill_q_incremental : all
  [back (di 87 98); back (di 87 99); both' 6 37 (di 76 98); both' 6 16 (di 76 99);
   both' 7 49 (di 73 98); both' 7 28 (di 73 99); both' 7 57 (di 83 98); both' 7 36 (di 83 99)].
Proof. vm_compute. reflexivity. Qed.

Definition hole (x : dbl * dbl) : bool := is 10 1 (fst x) && is 4045584412271571 (p10 14) (snd x).

Example pct_holes : all
  [hole (hole_to (dz 12) (dz 13) (dz 30) (dz 31) (dz 10, dz 15)); hole (hole_by (dz 18) (dz 18) (dz 10, dz 15))].
Proof. vm_compute. reflexivity. Qed.

(** The functions for points take the difference of the two heights first. *)
Definition way : dbl := dsub (dz 12) (dz 13).

Example pct_helices : all
  [is 271125088435787 (p10 12) (helix_ij way (dz 30) (dz 31)); is 271125088435787 (p10 12) (helix_ij (dz (-1)) (dz 30) (dz 31));
   is 188600249897836 (p10 12) (helix_r way (dz 30)); is 188600249897836 (p10 12) (helix_r (dz (-1)) (dz 30));
   is 680537424776271 (p10 13) (helix_quarter_ij way (dz 30) (dz 31));
   is 680537424776271 (p10 13) (helix_quarter_ij (dz (-1)) (dz 30) (dz 31));
   is 475409235064851 (p10 13) (helix_quarter_r way (dz 30)); is 475409235064851 (p10 13) (helix_quarter_r (dz (-1)) (dz 30));
   is 6173 1000 (helix_last (d_of_ratio false 12346 1000));
   is 38773935717471 (p10 12) (archimedes_q log_series (dz 12) (dz 13) (dz 30));
   is 166771529169112 (p10 11) (archimedes_l log_series (dz 12) (dz 13) (dz 30))].
Proof. vm_compute. reflexivity. Qed.
