(** C07: removing comments removes exactly the comments. *)
From Verif Require Import Model.Base Model.Attr Model.Removers Spec.RemoverSpec Proofs.RemoverProofs.

Theorem C07_exactly_the_comments : forall b,
  Forall (fun a => is_comment a = false) (remove_comment b) /\
  exists cs, Forall (fun a => is_comment a = true) cs /\ interleaved (remove_comment b) cs b.
Proof. exact remove_comment_exact. Qed.
Print Assumptions C07_exactly_the_comments.

Theorem C07_idempotent : forall b, remove_comment (remove_comment b) = remove_comment b.
Proof. exact remove_comment_idem. Qed.
Print Assumptions C07_idempotent.

Example C07_ex :
  remove_comment [AStr "(" "a"; ADec (plain "G" "0"); AStr "O" "1"; AStr "(" "b"; AStr "(" "c"]
  = [ADec (plain "G" "0"); AStr "O" "1"].
Proof. reflexivity. Qed.
