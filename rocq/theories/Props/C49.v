(** C49: splitting by path length or time cuts exactly where the amount of the
    part has reached the limit and a cut is allowed (not inside a drilling
    cycle; in rapid traverse, if asked for).
    Partial: with the setting that rapid traverse cancels cycles, a further G
    code behind G0 hides the rapid traverse and the cut is missed
    (C49_hidden_rapid_refuted). *)
From Verif Require Import Model.Base Model.Attr Model.Double Model.Splitter Spec.SplitSpec
  Proofs.SplitProofs Proofs.SplitAmountProofs.

(** Parts are lists of blocks with their amounts. *)
Theorem C49_amount_partial : forall sd rapid limit rp data w ps, Forall readable_block data ->
  split_amount sd rapid limit rp data w = Ok ps ->
  exists parts, partition (combine data w) parts /\ (List.length data <= List.length w)%nat /\
    ps = fenced rp (map (map fst) parts) /\
    cuts_only (enough_amount limit rapid) parts /\
    ((rapid = true -> sd_rapid_traverse_cancel_cycle sd = false) -> cuts_all (enough_amount limit rapid) parts).
Proof. exact amount_cuts. Qed.
Print Assumptions C49_amount_partial.

Theorem C49_refused : forall sd rapid limit rp data w, limit <= 0 ->
  exists m, split_amount sd rapid limit rp data w = Exc (EFileSplitter m).
Proof. intros. unfold split_amount. replace (limit <=? 0) with true by lia. eauto. Qed.
Print Assumptions C49_refused.

Definition g (v : string) : block := [ADec (plain "G" v)].
Definition rapid_absolute : block := [ADec (plain "G" "0"); ADec (plain "G" "90")].

(** The second part should start at the last block. *)
Theorem C49_hidden_rapid_refuted : exists sd data w parts,
  Forall readable_block data /\ split_amount sd true 1 None data w = Ok (map (map fst) parts) /\
  partition (combine data w) parts /\ ~ cuts_all (enough_amount 1 true) parts.
Proof.
  exists (mkSD false true false), [g "1"; rapid_absolute], [d_of_Z 5; d_of_Z 5],
    [[(g "1", d_of_Z 5); (rapid_absolute, d_of_Z 5)]].
  split; [|split; [|split]].
  - repeat constructor; intros d v I W V; cbn in I;
      repeat (destruct I as [I|I]; [inversion I; subst; cbn in V; inversion V; subst|]); try contradiction;
      (eexists; split; [split; [discriminate|split; [reflexivity|reflexivity]]|vm_compute; discriminate]).
  - vm_compute. reflexivity.
  - repeat split; try discriminate. constructor.
  - intro C. apply (C [] [(g "1", d_of_Z 5)] (rapid_absolute, d_of_Z 5) [] [] eq_refl); [discriminate|].
    split; [vm_compute; reflexivity|]. split.
    + intros [(n & L & D & NM)|L].
      * apply (NM (plain "G" "0") 0); [now left| |now left]. split; [reflexivity|]. exists "0"%string. repeat split; discriminate.
      * destruct L as (l1 & d & l2 & E & G & _). cbn in E. assert (I : In d [plain "G" "0"; plain "G" "90"]) by (rewrite E; apply in_app_iff; right; now left).
        destruct I as [<-|[<-|[]]]; destruct G as (_ & v & V & _ & _ & D); cbn in V; inversion V; subst v; vm_compute in D; discriminate.
    + intros _. exists [plain "G" "1"], (plain "G" "0"), [plain "G" "90"]. split; [reflexivity|]. split.
      * split; [reflexivity|]. exists "0"%string. repeat split; discriminate.
      * intros d' n [<-|[]] (_ & v & V & _ & _ & D). cbn in V. inversion V; subst v. vm_compute in D. subst n. vm_compute. intuition discriminate.
Qed.
Print Assumptions C49_hidden_rapid_refuted.

Example C49_ex :
  let sd := mkSD false false false in
  let w := map d_of_Z [0; 5; 5; 5; 1; 1] in
  split_amount sd false 10 None [g "0"; g "1"; g "1"; g "2"; g "3"; g "3"] w
    = Ok [[g "0"; g "1"; g "1"]; [g "2"; g "3"; g "3"]] /\
  split_amount sd true 10 None [g "0"; g "1"; g "1"; g "2"; g "0"; g "3"] w
    = Ok [[g "0"; g "1"; g "1"; g "2"]; [g "0"; g "3"]].
Proof. vm_compute. repeat split. Qed.
