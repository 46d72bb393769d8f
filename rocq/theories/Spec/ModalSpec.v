(** What stays in force from block to block. *)
From Verif Require Import Model.Base Model.Attr Model.Double Model.Macro Model.Verifiers Model.PathGeom Model.PathCalc
  Spec.DoubleSpec Spec.SplitSpec Spec.PathSpec Spec.MotionSpec.

Open Scope list_scope.

(** The kinds of words that hold until replaced, and where the calculator keeps
    them: the feed, the speed, the plane, the return of a cycle, absolute or
    incremental coordinates, the kind of speed and the kind of feed. *)
Inductive modal : forall A : Type, (decimal -> A -> Prop) -> (calc -> A) -> Prop :=
| modal_feed : modal dbl (number_of "F") c_f
| modal_speed : modal dbl (number_of "S") c_s
| modal_plane : modal Z (code_of planes) c_plane
| modal_return : modal Z (code_of returns) c_return
| modal_coordinates : modal Z (code_of programmings) c_prog
| modal_speed_kind : modal Z (code_of speed_modes) c_css
| modal_feed_kind : modal Z (code_of feed_modes) c_feed.

(** The block is carried out up to its end: it names a motion; or a straight
    motion or G80 is active; or another motion is active and there is a
    coordinate.  A tool it names is taken. *)
Definition carried_out (mc : machine) (b : block) (c : calc) : Prop :=
  ((exists g, last_said (code_of motions) b (Some g)) \/ In (c_g c) [0; 1; 80]%Z \/ In (c_g c) motions /\ gives_coordinate b) /\
  (~ names_tool b \/ cd_tool_executes (mc_cnc mc) = true \/ has_m6 b).

(** Blocks without errors, one after the other. *)
Inductive runs (tan_ log cabs : dbl -> dbl) (stale : Z) (mc : machine) (inch : bool) : calc -> list block -> calc -> Prop :=
| runs_none c : runs tan_ log cabs stale mc inch c [] c
| runs_block c b c1 bs c2 line mv mv' : b <> [] -> carried_out mc b c ->
    evaluate tan_ log cabs stale mc inch line b c mv = (c1, mv', None) ->
    runs tan_ log cabs stale mc inch c1 bs c2 -> runs tan_ log cabs stale mc inch c (b :: bs) c2.

(** The motion code that G80 leaves: itself or G0. *)
Definition left_by (mc : machine) (g : Z) : Z :=
  if (g =? 80)%Z then (if cd_cancel_starts_rapid (mc_cnc mc) then 0 else 80)%Z else g.
