(** Spindle start before cutting, over a whole program. *)
From Verif Require Import Model.Base Model.Attr.
From Verif Require Export Spec.Text.

(** The word has address [w] and its integer part denotes [n]. *)
Definition number_of (w : string) (a : attr) (n : Z) : Prop :=
  exists d v, a = ADec d /\ d_word d = w /\ d_value d = Some v /\ denotes v n.

(** The block contains G1 or G81..G89. *)
Definition cutting (b : block) : Prop :=
  exists a n, In a b /\ number_of "G" a n /\ (n = 1 \/ 81 <= n <= 89).
(** The block contains an S word. *)
Definition speed (b : block) : Prop := exists d, In (ADec d) b /\ d_word d = "S".
(** The block contains M3 or M4. *)
Definition spindle_on (b : block) : Prop :=
  exists a n, In a b /\ number_of "M" a n /\ (n = 3 \/ n = 4).

(** Values of G and M words are digits and fit an int (the parser delivers
    digits only). *)
Definition readable (b : block) : Prop :=
  forall d v, In (ADec d) b -> d_word d = "G" \/ d_word d = "M" -> d_value d = Some v ->
  exists n, denotes v n /\ n <= int_max.

(** [P] holds for one of the blocks 0..i. *)
Definition by_now (P : block -> Prop) (p : list block) (i : nat) : Prop :=
  exists j b, (j <= i)%nat /\ nth_error p j = Some b /\ P b.

(** By block [i] a cutting code has appeared, but not both S and M3/M4. *)
Definition missing (p : list block) (i : nat) : Prop :=
  by_now cutting p i /\ (~ by_now speed p i \/ ~ by_now spindle_on p i).
