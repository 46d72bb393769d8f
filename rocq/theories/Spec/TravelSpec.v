(** Ways to the tool exchange point and to the base point of a machine. *)
From Coq Require Import Reals.
From Verif Require Import Model.Base Model.Attr Model.Double Model.Macro Model.Verifiers Model.PathGeom Model.PathCalc
  Spec.DoubleSpec Spec.SplitSpec Spec.PathSpec Spec.MotionSpec.

Open Scope list_scope.

(** A G code that is not one of the plain ones, as it is written. *)
Definition special_code (d : decimal) (s : string) : Prop :=
  d_word d = "G"%string /\ exists t n, d_value d = Some t /\ stoi t = Ok n /\
    ~ In n (motions ++ planes ++ feed_modes ++ speed_modes ++ returns ++ programmings) /\
    s = (t ++ match d_dot d, d_value2 d with Some c, Some t2 => String c t2 | _, _ => "" end)%string.

(** The block has G28 and no other special code. *)
Definition calls_base (b : block) : Prop :=
  (exists d, In d (effective b) /\ special_code d "28") /\ forall d s, In d (effective b) -> special_code d s -> s = "28"%string.

(** The block moves in rapid: it says G0 or names no motion. *)
Definition in_rapid (b : block) : Prop := last_said (code_of motions) b (Some 0%Z) \/ last_said (code_of motions) b None.

(** Where an axis at [x] is when the machine stands at the point [p]: axes that
    the point leaves open stay. *)
Definition standing_at (p : dmap) (w : string) (x y : dbl) : Prop :=
  In (w, y) p \/ (forall z, ~ In (w, z) p) /\ y = x.

(** The point a block goes to: a tool exchange to the tool exchange point, G28 to
    the base point. *)
Definition bound_for (mc : machine) (b : block) (p : dmap) : Prop :=
  exchanges mc b /\ plain_codes b /\ p = mc_exchange_point mc \/ calls_base b /\ no_tool b /\ p = mc_base_point mc.
