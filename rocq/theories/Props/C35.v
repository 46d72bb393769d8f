(** C35: the lines of a document. *)
From Verif Require Import Model.Base Model.Double Model.NCText Spec.Text Spec.NCTextSpec Proofs.NCTextProofs.

(** The lines the parser sees are the segments between the line feeds of the
    document, in order, each without its trailing white space. *)
Theorem C35_lines : forall code, exists segs, segments code segs /\ Forall2 trimmed segs (split_lines code).
Proof. exact lines_spec. Qed.
Print Assumptions C35_lines.

(** There is only one such list of segments: the lines the language server
    keeps for its positions are these segments. *)
Theorem C35_segments : forall code segs, segments code segs <-> segs = content_lines code.
Proof. intros code segs. split; [apply segments_unique|intros ->; apply content_segments]. Qed.
Print Assumptions C35_segments.

(** Numbering agrees: line [n] of the parser is line [n] of the server without
    the trailing white space, and both have the same number of lines. *)
Theorem C35_numbering : forall code,
  List.length (content_lines code) = List.length (split_lines code) /\
  forall n s t, nth_error (content_lines code) n = Some s -> nth_error (split_lines code) n = Some t -> trimmed s t.
Proof.
  intros code. split; [generalize (lines_agree code); intros H; induction H; cbn; auto|].
  intros n s t. generalize (lines_agree code). generalize (split_lines code) (content_lines code).
  intros a b H. revert n. induction H; intros [|n]; cbn; try discriminate; eauto.
  intros H1 H2. injection H1 as <-. injection H2 as <-. assumption.
Qed.
Print Assumptions C35_numbering.

(** Joining the parser's lines gives the document back (up to a final line
    feed) exactly when no line ends in white space. *)
Theorem C35_lossless_partial : forall code,
  segments code (split_lines code) <-> Forall (fun s => ~ ends_blank s) (content_lines code).
Proof. intros code. split; [apply lines_lossless_only|apply lines_lossless]. Qed.
Print Assumptions C35_lossless_partial.

(** White space before a line feed is lost: two different documents, that do
    not differ in a final line feed only, have the same lines. *)
Theorem C35_refuted : exists a b,
  split_lines a = split_lines b /\ content_lines a <> content_lines b.
Proof. exists ("G0 " ++ String lf "X1"), ("G0" ++ String lf "X1"). split; [reflexivity|discriminate]. Qed.
Print Assumptions C35_refuted.

(** A document with a blank line, CR LF line ends and an unfinished last line. *)
Example C35_ex :
  let code := "G0 X1" ++ String lf ("" ++ String lf ("  Z2 " ++ String "013" (String lf "M30"))) in
  split_lines code = ["G0 X1"; ""; "  Z2"; "M30"] /\
  Forall (fun s => ~ ends_blank s) (content_lines ("G0 X1" ++ String lf "M30")) /\
  segments ("G0 X1" ++ String lf "M30") ["G0 X1"; "M30"].
Proof.
  cbv zeta. split; [reflexivity|].
  assert (H : segments ("G0 X1" ++ String lf "M30") ["G0 X1"; "M30"]) by (apply C35_segments; reflexivity).
  split; [now apply lines_lossless_only|exact H].
Qed.
