(** Lengths of motions.
    Source: parser/fanuc/MathUtils.h, PathCalculator.h, PathCalculator.cpp.
    The G18 and G19 functions of PathCalculator.h only rename the arguments of
    the G17 ones and are not repeated here.  [pow(x, 2)] is [x * x] rounded
    once.  [atan] and [log] are oracles.  So is the unqualified [abs] of
    PathCalculator.cpp: whether it is the one for [int] or the one for [double]
    depends on the headers of the compiler.  The arc functions for increments
    (PathCalculator.cpp 203-304) are never called and not modelled. *)
From Verif Require Import Model.Base Model.Double Model.Calc.

Definition dz (z : Z) : dbl := d_of_Z z.

(** MathUtils.h 5-7: M_PI. *)
Definition m_pi : dbl := d_of_ratio false 314159265358979323846 (10 ^ 20).

Definition sq (x : dbl) : dbl := dmul x x.

(** MathUtils.h 15-23. *)
Definition line2 (x y : dbl) : dbl := dsqrt (dadd (sq x) (sq y)).
Definition line2_to (xp yp xc yc : dbl) : dbl := line2 (dsub xp xc) (dsub yp yc).

(** MathUtils.h 25-33. *)
Definition line3 (x y z : dbl) : dbl := dsqrt (dadd (dadd (sq x) (sq y)) (sq z)).
Definition line3_to (xp yp zp xc yc zc : dbl) : dbl := line3 (dsub xp xc) (dsub yp yc) (dsub zp zc).

(** MathUtils.h 35-38. *)
Definition circle (x y : dbl) : dbl := dmul (dmul (dz 2) m_pi) (line2 x y).

(** MathUtils.h 40-58. *)
Definition calc_time (path feed : dbl) : dbl := ddiv path feed.
Definition feed_minutes (f s : dbl) : dbl := dmul f s.
Definition css_mm (s path : dbl) : dbl := ddiv (dmul s (dz 1000)) (dmul m_pi path).
Definition css_inch (s path : dbl) : dbl := ddiv (dmul s (dz 12)) (dmul m_pi path).

(** [std::fmod]: exact. *)
Definition d_fmod (x y : dbl) : dbl :=
  match x, y with
  | S754_nan, _ | _, S754_nan | S754_infinity _, _ | _, S754_zero _ => S754_nan
  | S754_zero _, _ | _, S754_infinity _ => x
  | S754_finite sx mx ex, S754_finite _ my ey =>
      let e := Z.min ex ey in
      let r := (Zpos mx * 2 ^ (ex - e)) mod (Zpos my * 2 ^ (ey - e)) in
      if r =? 0 then S754_zero sx else binary_normalize 53 1024 (if sx then - r else r) e sx
  end.

Section Geometry.
Variables atan log cabs : dbl -> dbl.

(** PathCalculator.cpp 10. *)
Definition deg : dbl := ddiv (dz 180) m_pi.

Definition tolerance : dbl := d_of_ratio false 1 (10 ^ 8).

(** PathCalculator.cpp 70-92: the quadrant of a point, 0 on an axis. *)
Definition quadrant (x y : dbl) : Z :=
  if dgtb x dzero && dgtb y dzero then 1
  else if dltb x dzero && dltb y dzero then 3
  else if dgtb x dzero && dltb y dzero then 4
  else if dltb x dzero && dgtb y dzero then 2
  else 0.

Definition quadrants (p c : Z) (l : list (Z * Z)) : bool := existsb (fun q => (p =? fst q) && (c =? snd q)) l.

(** PathCalculator.cpp 94-134. *)
Definition long_arc (dir p c : Z) (tg_p tg_c : dbl) : bool :=
  let opposite := quadrants p c [(1, 3); (3, 1); (2, 4); (4, 2)] in
  if dir =? 3 then quadrants p c [(1, 4); (2, 1); (3, 2); (4, 3)] || opposite && dgtb tg_c tg_p
  else if dir =? 2 then quadrants p c [(4, 1); (1, 2); (2, 3); (3, 4)] || opposite && dltb tg_c tg_p
  else false.

(** PathCalculator.cpp 17-48, 136-145 and 155-200: the arc with radius [r] and half
    chord [half]; [long] says whether it is the longer one. *)
Definition arc_angle (r half : dbl) : dbl :=
  let h := dsqrt (dabs (dsub (sq r) (sq half))) in
  dmul (dmul (atan (ddiv half h)) deg) (dz 2).

Definition arc_length (xp yp xc yc r : dbl) (long : bool) : dbl :=
  let half := ddiv (line2_to xp yp xc yc) (dz 2) in
  let semi := ddiv (dmul (dmul (dz 2) m_pi) r) (dz 2) in
  if dltb (cabs (dsub semi r)) tolerance then r
  else
    let alpha := arc_angle r half in
    let alpha := if long then dsub (dz 360) alpha else alpha in
    let alpha := if dltb (cabs (dsub xp xc)) tolerance && dltb (cabs (dsub yp yc)) tolerance then dz 360 else alpha in
    dmul (dmul (ddiv alpha (dz 180)) m_pi) r.

(** PathCalculator.cpp 12-148: centre given by [i], [j]. *)
Definition arc_ij (dir : Z) (xp yp xc yc i j : dbl) : dbl :=
  let xm := dadd xp i in
  let ym := dadd yp j in
  let r := dsqrt (dadd (sq (dsub xm xp)) (sq (dsub ym yp))) in
  let moved := negb (deqb xm dzero) || negb (deqb ym dzero) in
  let px := if moved then dsub xp xm else xp in
  let py := if moved then dsub yp ym else yp in
  let cx := if moved then dsub xc xm else xc in
  let cy := if moved then dsub yc ym else yc in
  let tg_p := dmul (atan (ddiv py px)) deg in
  let tg_c := dmul (atan (ddiv cy cx)) deg in
  arc_length xp yp xc yc r (long_arc dir (quadrant px py) (quadrant cx cy) tg_p tg_c).

(** PathCalculator.cpp 150-201: radius given. *)
Definition arc_r (xp yp xc yc r : dbl) : dbl := arc_length xp yp xc yc (cabs r) (dltb r dzero).

(** PathCalculator.cpp 306-378: helices.  [pitch] is the way along the axis. *)
Definition helix_ij (pitch i j : dbl) : dbl := circle (line2 i j) pitch.
Definition helix_r (pitch r : dbl) : dbl := circle r pitch.
Definition helix_quarter_ij (way i j : dbl) : dbl := ddiv (circle (line2 i j) (dmul way (dz 4))) (dz 4).
Definition helix_quarter_r (way r : dbl) : dbl := ddiv (circle r (dmul way (dz 4))) (dz 4).
(** PathCalculator.cpp 380-383. *)
Definition helix_last (l : dbl) : dbl := ddiv l (dz 2).

(** PathCalculator.cpp 398-405. *)
Definition archimedes (l radius : dbl) : dbl :=
  let turns := dmul (dmul l (dz 2)) m_pi in
  let root := dsqrt (dadd (dz 1) (sq turns)) in
  dmul (ddiv (ddiv radius turns) (dz 2)) (dadd (dmul turns root) (log (dadd turns root))).

(** PathCalculator.cpp 385-396. *)
Definition archimedes_l (i j l : dbl) : dbl := archimedes l (line2 i j).
Definition archimedes_q (i j q : dbl) : dbl := archimedes (ddiv (line2 i j) q) (line2 i j).

End Geometry.

(** ** Drilling cycles: (working path, rapid path) of one hole *)

Definition none2 : dbl * dbl := (dzero, dzero).
Definition twice (x : dbl) : dbl := dmul (dz 2) x.

Definition bore_modes : list Z := [81; 82; 85; 86; 88; 89].
Definition tap_modes : list Z := [74; 84].
Definition is_mode (m : Z) (l : list Z) : bool := existsb (Z.eqb m) l.

(** PathCalculator.cpp 407-509.  [ret] is 98 or 99. *)
Definition drill (zpre zg r : dbl) (incr : bool) (mode ret : Z) : dbl * dbl :=
  if is_mode mode bore_modes then
    if incr then
      if ret =? 98 then
        let rapid := dadd (dsub zpre r) (dabs zg) in (dsub (twice (dabs zg)) rapid, rapid)
      else if ret =? 99 then (zg, dadd (dsub zpre r) zg)
      else none2
    else
      let through := dgtb zpre dzero && dltb zg dzero in
      if ret =? 98 then
        if through then
          (dabs (dadd r (dabs zg)), dabs (dadd (dadd (dsub (dabs zpre) (dabs r)) (dabs zpre)) (dabs zg)))
        else
          (dabs (dsub (dabs r) (dabs zg)), dabs (dsub (dadd (dsub (dabs zpre) (dabs r)) (dabs zpre)) (dabs zg)))
      else if ret =? 99 then
        if through then (dadd r (dabs zg), dadd (dabs zpre) (dabs zg))
        else (dabs (dsub (dabs r) (dabs zg)), dabs (dsub (dabs zpre) (dabs zg)))
      else none2
  else if is_mode mode tap_modes then
    let work := twice (dabs (if incr then zg else dsub zg r)) in
    let way := dabs (dsub r zpre) in
    if ret =? 98 then (work, twice way)
    else if ret =? 99 then (if incr then work else dabs work, if incr then way else dabs way)
    else none2
  else none2.

(** PathCalculator.cpp 600-644 and 730-745: G83. *)
Definition peck (depth q way linear : dbl) (ret : Z) : res (dbl * dbl) :=
  let n := d_floor (ddiv depth q) in
  let rest := d_fmod depth q in
  do nq <- d_to_int (dadd (dmul n n) n);
  let dist := dadd (dmul (dz nq) q) (dmul (dz (if ret =? 99 then 1 else 2)) way) in
  let dist := if dgtb rest dzero then dadd dist (twice depth) else dist in
  Ok (linear, dsub dist linear).

(** PathCalculator.cpp 605-609 and 628-632. *)
Definition peck_linear (depth q : dbl) : dbl :=
  let n := d_floor (ddiv depth q) in
  dadd (dadd (dmul q n) (dmul (ddiv q (dz 5)) n)) (d_fmod depth q).

(** PathCalculator.cpp 555-571, 714-717: G73. *)
Definition chip_linear (depth q : dbl) : dbl :=
  dadd depth (dmul (ddiv q (dz 5)) (d_floor (ddiv depth q))).

(** PathCalculator.cpp 511-647. *)
Definition drill_q (zpre zg r q : dbl) (incr : bool) (mode ret : Z) : res (dbl * dbl) :=
  let way := dabs (dsub r zpre) in
  if mode =? 87 then
    let back := dabs (dsub r zg) in
    Ok (dabs back, dabs (dsub (dadd (twice way) (dmul (dz 4) q)) back))
  else if mode =? 76 then
    if incr then
      let w := dabs zg in
      if ret =? 98 then Ok (w, dadd (dadd (twice way) w) (twice q))
      else if ret =? 99 then Ok (w, dadd (dadd way w) (twice q))
      else Ok none2
    else
      let w := dabs (dsub zg r) in
      if ret =? 98 then Ok (w, dadd (dadd way (dabs (dsub zg zpre))) (twice q))
      else if ret =? 99 then Ok (w, dadd (dadd way w) (twice q))
      else Ok none2
  else if mode =? 73 then
    let depth := if incr then dabs zg else dabs (dsub r zg) in
    let linear := chip_linear depth q in
    let down := if incr then dabs zg else dabs (dsub zg r) in
    if ret =? 98 then Ok (linear, dadd (if incr then twice way else dmul way (dz 2)) down)
    else if ret =? 99 then Ok (linear, dadd way down)
    else Ok none2
  else if mode =? 83 then
    let depth := if incr then zg else dabs (dsub r zg) in
    peck depth q (dabs (dsub zpre r)) (peck_linear depth q) ret
  else Ok none2.

(** PathCalculator.cpp 649-684. *)
Definition drill_incr (zg r : dbl) (mode ret : Z) : dbl * dbl :=
  if is_mode mode bore_modes then
    let w := dabs zg in
    if ret =? 98 then (w, dadd w (twice (dabs r)))
    else if ret =? 99 then (w, dadd w (dabs r))
    else none2
  else if is_mode mode tap_modes then
    let w := twice (dabs zg) in
    if ret =? 98 then (w, twice (dabs r))
    else if ret =? 99 then (w, dzero)
    else none2
  else none2.

(** PathCalculator.cpp 686-748. *)
Definition drill_q_incr (zg r q : dbl) (mode ret : Z) : res (dbl * dbl) :=
  let w := dabs zg in
  if mode =? 87 then
    Ok (w, dabs (dadd (dadd (twice (dabs r)) (dmul (dz 3) q)) (dsqrt (dadd (sq q) (sq zg)))))
  else if mode =? 76 then
    if ret =? 98 then Ok (w, dadd (dadd (dabs r) w) (twice q))
    else if ret =? 99 then Ok (w, dadd w (twice q))
    else Ok none2
  else if mode =? 73 then
    let jumps := dmul (ddiv q (dz 5)) (d_floor (ddiv w q)) in
    if ret =? 98 then Ok (chip_linear w q, dadd (dadd (twice (dabs r)) w) jumps)
    else if ret =? 99 then Ok (chip_linear w q, dadd (dadd (dabs r) w) jumps)
    else Ok none2
  else if mode =? 83 then peck w q (dabs r) (chip_linear w q) ret
  else Ok none2.

(** PathCalculator.cpp 750-766: the way to the hole is rapid. *)
Definition hole_to (xp yp xc yc : dbl) (cd : dbl * dbl) : dbl * dbl := (fst cd, dadd (snd cd) (line2_to xp yp xc yc)).
Definition hole_by (x y : dbl) (cd : dbl * dbl) : dbl * dbl := (fst cd, dadd (snd cd) (line2 x y)).
