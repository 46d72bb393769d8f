(** Small proof tools shared by the proof files. *)
From Verif Require Import Model.Base.
From Coq Require Export ZifyBool.

Ltac inv H := inversion H; subst; clear H.
Ltac bdestr :=
  repeat match goal with
  | |- context [if ?b then _ else _] => let E := fresh "E" in destruct b eqn:E
  | H : context [if ?b then _ else _] |- _ => let E := fresh "E" in destruct b eqn:E
  end.
