(** Which unit a sequence of blocks selects. *)
From Verif Require Import Model.Base Model.Attr Model.Verifiers Spec.Text.

(** The integer parts of the G words, in order. *)
Definition g_values (b : block) : list string :=
  flat_map (fun a => match a with
                     | ADec d => if String.eqb (d_word d) "G" then match d_value d with Some v => [v] | None => [] end else []
                     | _ => []
                     end) b.

(** After [l] the unit is [u] ([true]: millimetres): the last 20 or 21 decides,
    without any it is still [u0]. *)
Inductive selects (u0 : bool) : list string -> bool -> Prop :=
| sel_none : selects u0 [] u0
| sel_inch l v u : selects u0 l u -> denotes v 20 -> selects u0 (l ++ [v]) false
| sel_mm l v u : selects u0 l u -> denotes v 21 -> selects u0 (l ++ [v]) true
| sel_other l v n u : selects u0 l u -> denotes v n -> n <> 20 -> n <> 21 -> selects u0 (l ++ [v]) u.

(** The blocks of a program one after the other (AllAttributesParser.cpp 277 at
    the end of each accepted line). *)
Fixpoint program_unit (u : bool) (p : list block) : res bool :=
  match p with [] => Ok u | b :: r => do u' <- grammar_selector u b; program_unit u' r end.
