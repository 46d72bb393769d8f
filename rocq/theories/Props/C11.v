(** C11: a block is rejected exactly when an address marked unique is repeated,
    and the error names the first address to be repeated. *)
From Verif Require Import Model.Base Model.Attr Model.Verifiers Spec.VerifierSpec Proofs.VerifierProofs.

Theorem C11_accepts : forall wm b, unique_code wm b = Ok tt <->
  (forall w, unique_address wm w -> ~ repeated w (addresses b)).
Proof. exact unique_accepts. Qed.
Print Assumptions C11_accepts.

(** [l1] is the part of the block before the repetition: it already holds [w]
    and nothing unique twice. *)
Theorem C11_names_first : forall wm b e, unique_code wm b = Exc e ->
  exists w l1 l2, addresses b = (l1 ++ w :: l2)%list /\ e = EUniqueCode w /\
    unique_address wm w /\ In w l1 /\ (forall x, unique_address wm x -> ~ repeated x l1).
Proof. exact unique_rejects. Qed.
Print Assumptions C11_names_first.

Definition wm : word_map :=
  [("X", mkWG "X" 0 9 0 9 true WTlength); ("F", mkWG "F" 0 9 0 9 true WTfeed);
   ("G", mkWG "G" 0 9 0 9 false WTcode)].

Example C11_ex :
  let b := [ADec (plain "G" "1"); ADec (plain "X" "1"); ADec (plain "G" "2"); ADec (plain "F" "1");
            ADec (plain "F" "2"); ADec (plain "X" "2")] in
  unique_code wm b = Exc (EUniqueCode "F") /\ unique_address wm "X" /\
  unique_code wm (firstn 4 b) = Ok tt.
Proof. split; [reflexivity|]. split; [eexists; split; reflexivity|reflexivity]. Qed.
