(** C50: splitting by number of blocks cuts exactly where the part has the
    requested number of blocks, never between the start and the cancellation of
    a drilling cycle and, if asked for, only in rapid traverse.
    Partial: with the setting that rapid traverse cancels cycles, a further G
    code behind G0 hides the rapid traverse and the cut is missed (see
    C49_hidden_rapid_refuted). *)
From Verif Require Import Model.Base Model.Attr Model.Double Model.Splitter Spec.SplitSpec
  Proofs.SplitProofs Proofs.SplitAmountProofs.

Theorem C50_blocks_partial : forall sd rapid n rp data ps, Forall readable_block data ->
  split_blocks sd rapid n rp data = Ok ps ->
  exists parts, partition data parts /\ ps = fenced rp parts /\
    cuts_only (enough_blocks n rapid) parts /\
    ((rapid = true -> sd_rapid_traverse_cancel_cycle sd = false) -> cuts_all (enough_blocks n rapid) parts).
Proof. exact blocks_cuts. Qed.
Print Assumptions C50_blocks_partial.

Definition g (v : string) : block := [ADec (plain "G" v)].

Example C50_ex :
  let sd := mkSD false false false in
  let x := [ADec (plain "X" "5")] in
  Forall readable_block [g "1"; g "81"; x; g "80"; g "0"] /\
  split_blocks sd false 2 None [g "1"; g "81"; x; x; g "80"; g "0"; x]
    = Ok [[g "1"; g "81"; x; x; g "80"]; [g "0"; x]] /\
  split_blocks sd true 2 None [g "1"; x; x; g "81"; x; g "0"; x]
    = Ok [[g "1"; x; x; g "81"; x]; [g "0"; x]].
Proof.
  split; [|vm_compute; repeat split].
  repeat constructor; intros d v I W V; cbn in I; destruct I as [I|[]]; inversion I; subst; cbn in V; inversion V; subst;
    (eexists; split; [split; [discriminate|split; [reflexivity|reflexivity]]|vm_compute; discriminate]).
Qed.
