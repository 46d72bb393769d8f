(** C08: removing optional blocks removes exactly the leading numbered marks. *)
From Verif Require Import Model.Base Model.Attr Model.Removers Spec.RemoverSpec Proofs.RemoverProofs.

Theorem C08_exactly_the_leading_marks : forall b, exists marks,
  b = (marks ++ remove_optional_block b)%list /\ Forall is_numbered_mark marks /\
  (forall a r, remove_optional_block b = a :: r -> ~ is_numbered_mark a).
Proof. exact remove_optional_exact. Qed.
Print Assumptions C08_exactly_the_leading_marks.

Theorem C08_idempotent : forall b,
  remove_optional_block (remove_optional_block b) = remove_optional_block b.
Proof. exact remove_optional_idem. Qed.
Print Assumptions C08_idempotent.

Definition bare : attr := ADec (mkDec "/" None None None None None None None None).

Example C08_ex :
  remove_optional_block [ADec (plain "/" "1"); ADec (plain "/" "2"); ADec (plain "G" "1"); ADec (plain "/" "3")]
    = [ADec (plain "G" "1"); ADec (plain "/" "3")] /\
  remove_optional_block [bare; ADec (plain "G" "1")] = [bare; ADec (plain "G" "1")].
Proof. split; reflexivity. Qed.
