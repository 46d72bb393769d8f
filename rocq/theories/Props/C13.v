(** C13: spindle speed, tool number and feed limits.

    Full statement: a block is rejected exactly when the number written after
    some S, T or F exceeds the limit.  It holds for words that are an address
    and digits (C13_limits_partial); it fails for numbers with decimals, whose
    fraction is ignored (C13_limits_refuted). *)
From Verif Require Import Model.Base Model.Attr Model.Double Model.Verifiers.
From Verif Require Import Spec.VerifierSpec Proofs.VerifierProofs.

Theorem C13_limits_partial : forall mt k b, finite (kin_max_feed k) ->
  (forall d, In (ADec d) b -> integer_word d) ->
  match range_verifier mt k b with
  | Ok _ => forall d, In (ADec d) b -> ~ exceeds mt k d
  | Exc e => exists d l, In (ADec d) b /\ exceeds mt k d /\ e = ERangeVerifier (d_word d :: l)
  end.
Proof. exact range_accepts. Qed.
Print Assumptions C13_limits_partial.

Theorem C13_limits_refuted : exists mt k b d,
  In (ADec d) b /\ d_word d = "S" /\ number_exceeds d (kin_max_spindle k) /\ range_verifier mt k b = Ok tt.
Proof. exact range_fraction_refuted. Qed.
Print Assumptions C13_limits_refuted.

Example C13_ex :
  let k := mkKin [] (d_of_Z 500) 3000 24 in
  finite (kin_max_feed k) /\
  (forall d, In (ADec d) [ADec (plain "T" "2501"); ADec (plain "S" "3000")] -> integer_word d) /\
  range_verifier MTLathe k [ADec (plain "T" "2401"); ADec (plain "S" "3000"); ADec (plain "F" "500")] = Ok tt /\
  range_verifier MTLathe k [ADec (plain "T" "2501")] = Exc (ERangeVerifier ["T"; "25"; "24"]) /\
  range_verifier MTMill k [ADec (plain "F" "501")] = Exc (ERangeVerifier ["F"; "501"; "500.000000"]).
Proof.
  split; [vm_compute; reflexivity|]. split; [|repeat split; vm_compute; reflexivity].
  intros d [E|[E|[]]]; inversion E; subst; repeat split; cbn;
    eexists; (split; [split; [discriminate|split; reflexivity]|vm_compute; discriminate]).
Qed.
