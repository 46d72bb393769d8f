(** Comments and optional-block marks. *)
From Verif Require Import Model.Base Model.Attr.

Definition is_comment (a : attr) : bool :=
  match a with AStr w _ => String.eqb w "(" | _ => false end.

(** A numbered optional-block mark such as /1. *)
Definition is_numbered_mark (a : attr) : Prop :=
  exists d v, a = ADec d /\ d_word d = "/" /\ d_value d = Some v.

(** [c] is obtained by interleaving [a] and [b], keeping both orders. *)
Inductive interleaved {A} : list A -> list A -> list A -> Prop :=
| il_nil : interleaved [] [] []
| il_left x a b c : interleaved a b c -> interleaved (x :: a) b (x :: c)
| il_right x a b c : interleaved a b c -> interleaved a (x :: b) (x :: c).
