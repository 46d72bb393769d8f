(** C17: splitting by number of blocks respects the requested size. *)
From Verif Require Import Model.Base Model.Attr Model.Splitter Spec.SplitSpec Proofs.SplitProofs.

(** Sizes are counted without the retraction planes. *)
Theorem C17_at_least : forall sd rapid n rp data ps, split_blocks sd rapid n rp data = Ok ps ->
  exists cores, partition data cores /\ ps = fenced rp cores /\
  Forall (fun c => n <= Z.of_nat (List.length c)) (removelast cores).
Proof. exact blocks_sizes. Qed.
Print Assumptions C17_at_least.

Theorem C17_exactly : forall sd n rp data ps,
  Forall readable_block data -> Forall no_cycle_code data ->
  split_blocks sd false n rp data = Ok ps ->
  exists cores, partition data cores /\ ps = fenced rp cores /\
  Forall (fun c => Z.of_nat (List.length c) = n) (removelast cores) /\
  Z.of_nat (List.length (last cores [])) <= n.
Proof. exact blocks_exact. Qed.
Print Assumptions C17_exactly.

Theorem C17_refused : forall sd rapid n rp data, n <= 0 ->
  split_blocks sd rapid n rp data = Exc (EFileSplitter ["CannotSplitFileNumberOfBlocks"%string]).
Proof. exact blocks_refused. Qed.
Print Assumptions C17_refused.

(** When only cutting at rapid traverse is allowed, every cut is at a block
    where G0 is the latest motion code. *)
Theorem C17_rapid_only : forall sd n rp data ps, Forall readable_block data ->
  split_blocks sd true n rp data = Ok ps ->
  exists cores, partition data cores /\ ps = fenced rp cores /\
  forall pre b post, starts_part cores pre b post -> in_rapid (pre ++ [b]).
Proof. exact blocks_rapid. Qed.
Print Assumptions C17_rapid_only.

Definition g (v : string) : block := [ADec (plain "G" v)].

Example C17_ex :
  let sd := mkSD false false false in
  split_blocks sd false 2 None [g "0"; g "1"; g "1"; g "2"; g "3"]
    = Ok [[g "0"; g "1"]; [g "1"; g "2"]; [g "3"]] /\
  split_blocks sd true 2 None [g "1"; g "1"; g "1"; g "0"; g "3"]
    = Ok [[g "1"; g "1"; g "1"]; [g "0"; g "3"]] /\
  split_blocks sd false 2 None [g "1"; g "81"; g "99"; g "99"; g "80"; g "0"]
    = Ok [[g "1"; g "81"; g "99"; g "99"; g "80"]; [g "0"]].
Proof. vm_compute. repeat split. Qed.
