(** What path, time and positions should be. *)
From Verif Require Import Model.Base Model.Attr Model.Double Model.Macro Model.PathGeom Model.PathCalc Spec.SplitSpec.

(** Doubles added up one after another, beginning with 0. *)
Definition total (l : list dbl) : dbl := fold_left dadd l dzero.

(** Equal, or both zero (there are two zeros). *)
Definition same_number (x y : dbl) : Prop := x = y \/ exists s t, x = S754_zero s /\ y = S754_zero t.

(** ** Runs: blocks given to the calculator one after another *)

Record step : Type := mkStep { s_inch : bool; s_line : Z; s_block : block; s_macros : macro_map dbl }.

Section Run.
Variables atan log cabs : dbl -> dbl.
Variable stale : Z.
Variable mc : machine.

(** The calculator and the exception after one block. *)
Definition after (s : step) (c : calc) : calc * option exn :=
  let '(c', _, e) := evaluate atan log cabs stale mc (s_inch s) (s_line s) (s_block s) c (s_macros s) in (c', e).

(** What can be seen after every block. *)
Fixpoint run (c : calc) (l : list step) : list (calc * option exn) :=
  match l with
  | [] => []
  | s :: l' => after s c :: run (fst (after s c)) l'
  end.

End Run.

(** A calculator newly made or reset. *)
Definition fresh (mc : machine) (c : calc) : Prop := c = calc_new mc \/ exists c0, c = calc_reset mc c0.

(** The state after the run. *)
Definition final (c : calc) (rs : list (calc * option exn)) : calc := last (map fst rs) c.

(** The path and the time of the last block, as reported. *)
Definition block_path (c : calc) : dbl := dadd (p_work (c_path c)) (p_fast (c_path c)).
Definition block_time (c : calc) : dbl := dadd (t_work (c_time c)) (t_fast (c_time c)).

(** A failure that leaves a path reported but not added up. *)
Definition unset_in_helix (e : option exn) : Prop :=
  exists l, e = Some (EPathCalc ("ValueNotSetForEitherEither"%string :: l)).

Definition undefined_behaviour (e : option exn) : Prop := exists w, e = Some (EUB w).

(** ** Times that are not motion *)

Definition words (w : string) (b : block) : list decimal := filter (fun d => String.eqb (d_word d) w) (effective b).

(** The number of a word written without a point. *)
Definition whole (d : decimal) : option string :=
  match d_value d, d_dot d, d_value2 d with Some t, None, None => Some t | _, _, _ => None end.

(** The block has a tool number. *)
Definition names_tool (b : block) : Prop := exists d t, In d (words "T" b) /\ whole d = Some t.

(** The block has M6. *)
Definition has_m6 (b : block) : Prop := exists d t, In d (words "M" b) /\ whole d = Some t /\ stoi t = Ok 6.

(** The block has the code [w] with the value [t]: a word with a text, or M. *)
Definition has_code (w t : string) (b : block) : Prop :=
  In (AStr w t) b \/ w = "M"%string /\ exists d, In d (words "M" b) /\ whole d = Some t.

(** The block has G4. *)
Definition has_dwell (b : block) : Prop :=
  exists d t, In d (words "G" b) /\ d_value d = Some t /\ (t = "4" \/ t = "04")%string /\
              (d_dot d = None \/ d_value2 d = None).

(** The number a word stands for; P without a point counts thousandths. *)
Definition reading (d : decimal) (x : dbl) : Prop :=
  (d_value d <> None \/ d_dot d <> None) /\
  exists y, stod (opt_chr (d_sign d) ++ opt_str (d_value d) ++ opt_chr (d_dot d) ++ opt_str (d_value2 d))%string = Ok y /\
            x = if String.eqb (d_word d) "P" && match d_dot d with None => true | _ => false end
                then ddiv y (d_of_Z 1000) else y.

(** The value of [w] in the block: that of its last occurrence with a number. *)
Definition block_value (w : string) (b : block) (o : option dbl) : Prop :=
  match o with
  | Some x => exists l1 d l2, words w b = (l1 ++ d :: l2)%list /\ reading d x /\
                (forall d', In d' l2 -> d_value d' = None /\ d_dot d' = None)
  | None => forall d, In d (words w b) -> d_value d = None /\ d_dot d = None
  end.

(** [l] is [xs] if [p] holds and empty otherwise. *)
Definition provided (p : Prop) (xs l : list dbl) : Prop := (p /\ l = xs) \/ (~ p /\ l = []).

Definition listed (o : option dbl) : list dbl := match o with Some x => [x] | None => [] end.

(** The seconds for exchanging and measuring a tool. *)
Definition exchange_seconds (mc : machine) : list dbl :=
  (d_of_Z (mc_exchange_time mc) :: if mc_auto_measure mc then [d_of_Z (mc_measure_time mc)] else [])%list.

(** The block exchanges the tool. *)
Definition exchanges (mc : machine) (b : block) : Prop :=
  if cd_tool_executes (mc_cnc mc) then names_tool b else has_m6 b.

(** [l] are the seconds the block takes besides its motion. *)
Definition other_seconds (mc : machine) (b : block) (l : list dbl) : Prop :=
  exists m p e1 e2 d x u q,
    provided (mc_auto_measure mc = false /\ has_code (mc_measure_code mc) (mc_measure_value mc) b)
             [d_of_Z (mc_measure_time mc)] m /\
    provided (has_code (mc_pallet_code mc) (mc_pallet_value mc) b) [d_of_Z (mc_pallet_time mc)] p /\
    provided (cd_tool_executes (mc_cnc mc) = false /\ exchanges mc b) (exchange_seconds mc) e1 /\
    provided (cd_tool_executes (mc_cnc mc) = true /\ exchanges mc b) (exchange_seconds mc) e2 /\
    block_value "X" b x /\ block_value "U" b u /\ block_value "P" b q /\
    provided (has_dwell b) (listed x ++ listed u ++ listed q) d /\
    l = (e1 ++ m ++ p ++ e2 ++ d)%list.

(** Axis names are not those of the other words. *)
Definition proper_axes (mc : machine) : Prop :=
  forall w, In w ["/"; "T"; "F"; "S"; "M"; "G"]%string -> ~ In w (mc_axes mc).

(** G4 together with a tool number that is only prepared. *)
Definition dwell_while_preparing (mc : machine) (b : block) : Prop :=
  has_dwell b /\ names_tool b /\ ~ exchanges mc b.

(** Failures before the times of the block are complete: a number that cannot be
    read, or a G code with a tool number that is only prepared. *)
Definition early_failure (e : option exn) : Prop :=
  e = Some EOutOfRange \/ e = Some EInvalidArgument \/ exists l, e = Some (EPathCalc ("TNotWithG"%string :: l)).

(** ** Positions *)

(** [std::map]: no key twice. *)
Definition is_map {A} (m : list (string * A)) : Prop := NoDup (map fst m).

Definition finite_points (m : dmap) : Prop :=
  forall w x, In (w, x) m -> exists s f e, x = S754_finite s f e \/ x = S754_zero s.

(** Where [w] stands: the next motion starts from here. *)
Definition position (w : string) (c : calc) : option dbl := assoc w (c_prev c).

(** The smallest and the largest value of [w], as reported. *)
Definition extremes (w : string) (c : calc) : option (dbl * dbl) :=
  match assoc w (c_range c) with Some (mn, _, mx) => Some (mn, mx) | None => None end.

(** ** Resetting *)

(** States of a calculator after any blocks and resets. *)
Inductive reached (atan log cabs : dbl -> dbl) (stale : Z) (mc : machine) : calc -> Prop :=
| reached_new : reached atan log cabs stale mc (calc_new mc)
| reached_block s c : reached atan log cabs stale mc c ->
    reached atan log cabs stale mc (fst (after atan log cabs stale mc s c))
| reached_reset c : reached atan log cabs stale mc c -> reached atan log cabs stale mc (calc_reset mc c).

(** The block gives a coordinate. *)
Definition gives_coordinate (b : block) : Prop :=
  exists w x, In w ["X"; "Y"; "Z"]%string /\ block_value w b (Some x).
