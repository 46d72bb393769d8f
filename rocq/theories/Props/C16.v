(** C16: splitting loses, duplicates and reorders nothing. *)
From Verif Require Import Model.Base Model.Attr Model.Double Model.Splitter Spec.SplitSpec Proofs.SplitProofs.

(** Each piece is a part of the program in order, with the retraction plane at
    the end of every piece but the last and the start of every piece but the
    first.  A failed split gives no pieces. *)
Theorem C16_partition :
  (forall text rp data, splits rp data (split_text text rp data)) /\
  (forall sd rapid step rp data ps, split_blocks sd rapid step rp data = Ok ps -> splits rp data ps) /\
  (forall sd rp data ps, split_tool sd rp data = Ok ps -> splits rp data ps) /\
  (forall sd rapid limit rp data w ps, split_amount sd rapid limit rp data w = Ok ps -> splits rp data ps).
Proof.
  split; [exact text_splits|]. split; [exact blocks_splits|]. split; [exact tool_splits|exact amount_splits].
Qed.
Print Assumptions C16_partition.

(** The retraction plane does not influence where the program is cut. *)
Theorem C16_same_cuts :
  (forall text rp data, split_text text rp data = fenced rp (split_text text None data)) /\
  (forall sd rapid step rp data ps, split_blocks sd rapid step None data = Ok ps ->
     split_blocks sd rapid step rp data = Ok (fenced rp ps)) /\
  (forall sd rp data ps, split_tool sd None data = Ok ps -> split_tool sd rp data = Ok (fenced rp ps)) /\
  (forall sd rapid limit rp data w ps, split_amount sd rapid limit None data w = Ok ps ->
     split_amount sd rapid limit rp data w = Ok (fenced rp ps)).
Proof.
  split; [exact text_fenced|]. split; [|split].
  - intros. rewrite blocks_fenced. now rewrite H.
  - intros. rewrite tool_fenced. now rewrite H.
  - intros. rewrite amount_fenced. now rewrite H.
Qed.
Print Assumptions C16_same_cuts.

(** Splitting at a text cuts exactly before the lines that contain it. *)
Theorem C16_text_cuts : forall text rp data,
  exists cores, partition data cores /\ split_text text rp data = fenced rp cores /\
  forall pre x post, data = (pre ++ x :: post)%list ->
   (starts_part cores pre x post <-> contains text x = true).
Proof. exact text_cut. Qed.
Print Assumptions C16_text_cuts.

Example C16_ex :
  split_text "T" (Some "R"%string) ["a"; "T1"; "b"; "c"; "T2"]%string
  = [["a"; "R"]; ["R"; "T1"; "b"; "c"; "R"]; ["R"; "T2"]]%string /\
  let g v := [ADec (plain "G" v)] in
  split_amount (mkSD false false false) false 10 (Some (g "28"%string)) [g "1"; g "2"; g "3"; g "2"]%string
    [d_of_Z 6; d_of_Z 5; d_of_Z 1; d_of_Z 1]
  = Ok [[g "1"; g "2"; g "28"]; [g "28"; g "3"; g "2"]]%string.
Proof. split; vm_compute; reflexivity. Qed.
