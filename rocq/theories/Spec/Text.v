(** Decimal texts. *)
From Verif Require Import Model.Base.

(** The text [s] is a decimal number with value [n]. *)
Definition denotes (s : string) (n : Z) : Prop :=
  s <> ""%string /\ all_chars is_digit s = true /\ digits_val s = n.
