(** C45: the last unit code decides. *)
From Verif Require Import Model.Base Model.Attr Model.Verifiers Spec.Text Spec.SelectSpec Proofs.SelectProofs.

(** For a program whose G words have numbers: after its blocks the unit is the
    one of the last G20 or G21, and the starting unit without any. *)
Theorem C45_last_decides : forall u0 p, 
  Forall (fun v => exists n, denotes v n /\ n <= int_max) (flat_map g_values p) ->
  exists u, program_unit u0 p = Ok u /\ selects u0 (flat_map g_values p) u.
Proof.
  intros u0 p F. destruct (program_ok p F u0) as [u E]. exists u. split; auto.
  apply (program_selects u0 p [] u0 u); auto; [constructor|].
  eapply Forall_impl; [|exact F]. intros v (n & D & _). eauto.
Qed.
Print Assumptions C45_last_decides.

(** The specification determines the unit. *)
Theorem C45_determined : forall u0 l u u', selects u0 l u -> selects u0 l u' -> u = u'.
Proof. intros u0 l u u' H H'. exact (selects_fun u0 l u H u' H'). Qed.
Print Assumptions C45_determined.

(** Only the integer part is looked at: G20.5 selects inches. *)
Theorem C45_fraction_refuted : exists b,
  b = [ADec (mkDec "G" None None None None (Some "20") (Some "."%char) (Some "5") None)] /\
  grammar_selector true b = Ok false.
Proof. eexists. split; reflexivity. Qed.
Print Assumptions C45_fraction_refuted.

Example C45_ex :
  let p := [[ADec (plain "G" "20"); ADec (plain "X" "1")]; [ADec (plain "G" "1")]; [ADec (plain "G" "021"); ADec (plain "G" "90")]] in
  program_unit true p = Ok true /\ program_unit true (firstn 2 p) = Ok false /\
  Forall (fun v => exists n, denotes v n /\ n <= int_max) (flat_map g_values p).
Proof.
  cbv zeta. split; [reflexivity|]. split; [reflexivity|].
  cbn. repeat constructor; eexists; (split; [repeat split; discriminate|vm_compute; discriminate]).
Qed.
