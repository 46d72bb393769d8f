(** Description tables of macro variables. *)
From Verif Require Import Model.Base Model.MacrosDesc Spec.Text.

(** The entries of a file in order. *)
Definition entries (f : desc_file) : list (string * (string * string)) :=
  flat_map (fun e => map (fun td => (fst e, td)) (snd e)) f.

(** The first entry for [c] is [td]. *)
Definition described (f : desc_file) (c : string) (td : string * string) : Prop :=
  exists l1 l2, entries f = (l1 ++ (c, td) :: l2)%list /\ forall td', ~ In (c, td') l1.

Definition undescribed (f : desc_file) (c : string) : Prop := forall td, ~ In (c, td) (entries f).

(** The description of [c] when a user file comes before the built-in one. *)
Definition effective (user : option desc_file) (builtin : desc_file) (c : string) (td : string * string) : Prop :=
  match user with
  | None => described builtin c td
  | Some u => described u c td \/ (undescribed u c /\ described builtin c td)
  end.

(** [s] does not go on with a digit. *)
Definition no_digit (s : string) : Prop := forall c r, s = String c r -> is_digit c = false.

(** Somewhere in [text] stands #b-#e. *)
Definition mentions (text : string) (b e : Z) : Prop :=
  exists pre nb ne suf, text = pre ++ "#" ++ nb ++ "-#" ++ ne ++ suf /\ denotes nb b /\ denotes ne e /\ no_digit suf.

(** What follows "Range: ": one range, or two with " - " between. *)
Inductive range_phrase : string -> list (Z * Z) -> Prop :=
| phrase_one nb ne b e suf :
    denotes nb b -> denotes ne e -> no_digit suf ->
    range_phrase ("#" ++ nb ++ "-#" ++ ne ++ suf) [(b, e)]
| phrase_two nb ne b e nb' ne' b' e' suf :
    denotes nb b -> denotes ne e -> denotes nb' b' -> denotes ne' e' -> no_digit suf ->
    range_phrase ("#" ++ nb ++ "-#" ++ ne ++ " - " ++ "#" ++ nb' ++ "-#" ++ ne' ++ suf) [(b, e); (b', e')].

(** [text] has exactly one "Range: ", and documents [b] to [e] there. *)
Definition documents (text : string) (b e : Z) : Prop :=
  exists pre rest l, text = pre ++ "Range: " ++ rest /\
    (forall p q, text = p ++ "Range: " ++ q -> p = pre) /\ range_phrase rest l /\ In (b, e) l.
