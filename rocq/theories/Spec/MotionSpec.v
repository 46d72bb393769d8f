(** What the path and the time of a motion should be: real numbers. *)
From Coq Require Import Reals.
From Flocq Require Import Core BinarySingleNaN.
From Verif Require Import Model.Base Model.Attr Model.Double Model.Macro Model.Verifiers Model.PathGeom Model.PathCalc
  Spec.DoubleSpec Spec.SplitSpec Spec.PathSpec.

Open Scope list_scope.

(** ** Numbers *)

(** The real number a double stands for. *)
Definition amount (x : dbl) : R := SF2R radix2 x.

(** A number of a size that occurs: zero, or between 2^-400 and 2^400. *)
Definition moderate (x : dbl) : Prop :=
  finite x /\ (amount x = 0 \/ bpow radix2 (-400) <= Rabs (amount x) <= bpow radix2 400)%R.

(** A calculated length or time: as exact as 15 digits are. *)
Definition about (x : dbl) (r : R) : Prop := finite x /\ (Rabs (amount x - r) <= / 2 ^ 50 * r + bpow radix2 (-500))%R.

(** ** What a block says *)

(** The last word of a block that says something of a kind. *)
Definition last_said {A} (says : decimal -> A -> Prop) (b : block) (o : option A) : Prop :=
  match o with
  | Some a => exists l1 d l2, effective b = l1 ++ d :: l2 /\ says d a /\ forall d' a', In d' l2 -> ~ says d' a'
  | None => forall d a, In d (effective b) -> ~ says d a
  end.

(** What holds in a block: what it says or, if it says nothing, what held before. *)
Definition in_force {A} (says : decimal -> A -> Prop) (b : block) (before a : A) : Prop :=
  last_said says b (Some a) \/ last_said says b None /\ a = before.

(** A G code of a group. *)
Definition code_of (group : list Z) (d : decimal) (n : Z) : Prop :=
  d_word d = "G"%string /\ (exists t, d_value d = Some t /\ stoi t = Ok n) /\ In n group.

Definition motions : list Z := [0; 1; 2; 3; 80; 73; 74; 76; 81; 82; 83; 84; 85; 86; 87; 88; 89].
Definition planes : list Z := [17; 18; 19].
Definition feed_modes : list Z := [94; 95].
Definition speed_modes : list Z := [96; 97].
Definition returns : list Z := [98; 99].
Definition programmings : list Z := [90; 91].

(** No G code but these: none such as G4, G10, G28 or G92, which have their own
    use for coordinates. *)
Definition plain_codes (b : block) : Prop :=
  forall d t n, In d (effective b) -> d_word d = "G"%string -> d_value d = Some t -> stoi t = Ok n ->
    In n (motions ++ planes ++ feed_modes ++ speed_modes ++ returns ++ programmings).

(** The number of a word without its sign. *)
Definition number_of (w : string) (d : decimal) (x : dbl) : Prop :=
  d_word d = w /\ (d_value d <> None \/ d_dot d <> None) /\
  stod (opt_str (d_value d) ++ match d_dot d with Some c => String c (opt_str (d_value2 d)) | None => "" end)%string = Ok x.

(** The motion code of the block.  After a tool change the first coordinates may
    be approached in rapid. *)
Definition motion_code (b : block) (c : calc) (g : Z) : Prop :=
  last_said (code_of motions) b (Some g) \/
  last_said (code_of motions) b None /\ (if c_auto c then gives_coordinate b /\ g = 0 else g = c_g c).

(** Neither a tool nor M6. *)
Definition no_tool (b : block) : Prop := ~ names_tool b /\ ~ has_m6 b.

(** Turning: a lathe, or a mill-turn machine in the plane G18. *)
Definition turning (mc : machine) (plane : Z) : Prop := mc_type mc = MTLathe \/ mc_type mc = MTMillturn /\ plane = 18.

(** X is a diameter that counts half. *)
Definition diameters (mc : machine) (plane : Z) : Prop := mc_diameter_2x mc = false /\ turning mc plane.

(** What X is divided by. *)
Definition share (mc : machine) (plane : Z) (k : R) : Prop := diameters mc plane /\ k = 2%R \/ ~ diameters mc plane /\ k = 1%R.

(** The length of the way [x], [y], [z]. *)
Definition way (x y z : R) : R := sqrt (x * x + y * y + z * z).

(** What the block is reported to have travelled, cutting and in rapid. *)
Definition cut (c : calc) : dbl := p_work (c_path c).
Definition rapid (c : calc) : dbl := p_fast (c_path c).

(** The seconds the block is reported to have taken, cutting and in rapid. *)
Definition cut_time (c : calc) : dbl := t_work (c_time c).
Definition rapid_time (c : calc) : dbl := t_fast (c_time c).

(** A feed or a speed of a size that occurs: between 2^-100 and 2^100. *)
Definition rate (x : dbl) : Prop := finite x /\ (bpow radix2 (-100) <= amount x <= bpow radix2 100)%R.

(** How many seconds a way [l] takes at [v] a minute. *)
Definition seconds (l v : R) : R := (60 * (l / v))%R.
