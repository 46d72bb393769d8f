(** C44: an address may be limited to one word per block. *)
From Verif Require Import Model.Base Model.Attr Model.Verifiers Spec.VerifierSpec Proofs.SelectProofs.

(** The check for [w] accepts a block exactly when [w] occurs at most once, and
    otherwise the error names [w]. *)
Theorem C44_accepts : forall w b, same_word w b = Ok tt <-> ~ repeated w (addresses b).
Proof. exact same_word_accepts. Qed.
Print Assumptions C44_accepts.

Theorem C44_rejects : forall w b e, same_word w b = Exc e <-> repeated w (addresses b) /\ e = ESameWord w.
Proof. exact same_word_rejects. Qed.
Print Assumptions C44_rejects.

Example C44_ex :
  let b := [ADec (plain "M" "3"); ADec (plain "X" "1"); AStr "(" "M"; ADec (plain "M" "8")] in
  same_word "M" b = Exc (ESameWord "M") /\ same_word "X" b = Ok tt /\ repeated "M" (addresses b).
Proof. repeat split; unfold repeated; cbn; lia. Qed.
