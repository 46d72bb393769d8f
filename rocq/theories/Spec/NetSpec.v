(** What a .NET program is meant to get. *)
From Verif Require Import Model.Base Model.Attr Model.Double Model.Verifiers Spec.WrapperSpec.

(** The text up to the first zero; all of it if there is none. *)
Fixpoint upto_zero (s : string) : string :=
  match s with
  | EmptyString => EmptyString
  | String c r => if Ascii.eqb c "000" then EmptyString else String c (upto_zero r)
  end.

(** A word as a .NET program sees it. *)
Definition seen (a : attr) : string * string := (upto_zero (fst (shown a)), upto_zero (snd (shown a))).

(** The value a table has for a key: that of the first entry. *)
Fixpoint value_of (k : Z * Z) (m : list ((Z * Z) * dbl)) : option dbl :=
  match m with
  | [] => None
  | ((i, l), v) :: m' => if Z.eq_dec i (fst k) then if Z.eq_dec l (snd k) then Some v else value_of k m' else value_of k m'
  end.
