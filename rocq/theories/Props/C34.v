(** C34: diagnostics point at the offending line. *)
From Verif Require Import Model.Base Model.Double Model.NCText Spec.Text Spec.NCTextSpec
  Proofs.NCTextProofs Proofs.DiagProofs.

(** For any line parser whose messages have one of the shapes [located]: there
    is exactly one diagnostic per rejected line, in order, at that line
    (counted from zero) and at the column of the message.  The line number the
    verdicts carry is the one of the document line.  The shapes that are
    excluded are misplaced or dropped: see the refutations. *)
Theorem C34_partial : forall p path_time st code ms summaries st',
  parse_document p path_time st code = Ok (ms, summaries, st') ->
  Z.of_nat (List.length (split_lines code)) <= int_max ->
  let r := rejected (verdicts p st 1 (split_lines code)) in
  (forall n l m, In (n, l, m) r -> exists ch, located n l m ch) ->
  (forall n l m, In (n, l, m) r -> nth_error (split_lines code) (Z.to_nat (n - 1)) = Some l) /\
  exists ds, diagnostics ms = Ok ds /\
    Forall2 (fun '(n, l, m) d => dg_line d = n - 1 /\ located n l m (dg_char d)) r ds.
Proof. exact diagnostics_placed. Qed.
Print Assumptions C34_partial.

(** A parser that rejects every line with the message [f line]. *)
Definition rejecting (f : string -> string) : line_parser :=
  mkLP unit (fun _ _ l => Ok (false, f l, tt)) (fun _ => mkPR dzero dzero dzero dzero "")
    (fun _ => mkTR dzero dzero dzero dzero "").

Definition two (l1 l2 : string) : string := l1 ++ String lf l2.

(** A message that quotes text with "line 1" in it is placed at the first line:
    here the second of two lines is rejected, with what the parser says about a
    stray "line 12" in column 4. *)
Theorem C34_refuted : exists p st code ms su ds,
  rejected (verdicts p st 1 (split_lines code)) = [(2, "G0 line 12", "1:4: line 12")] /\
  parse_document p false st code = Ok (ms, su, st) /\
  diagnostics ms = Ok ds /\ map dg_line ds = [0].
Proof.
  exists (rejecting (fun _ => "1:4: line 12")), tt, (two "" "G0 line 12").
  eexists _, _, _. repeat split; vm_compute; reflexivity.
Qed.
Print Assumptions C34_refuted.

(** A rejected first line can go unreported. *)
Theorem C34_dropped_refuted : exists p st code ms su,
  rejected (verdicts p st 1 (split_lines code)) = [(1, "::", "")] /\
  parse_document p false st code = Ok (ms, su, st) /\
  diagnostics ms = Ok [].
Proof.
  exists (rejecting (fun _ => "")), tt, "::".
  eexists _, _. repeat split; vm_compute; reflexivity.
Qed.
Print Assumptions C34_dropped_refuted.

(** A message without a colon, which relabelling leaves without one, makes the
    server read behind the end of the list of tokens. *)
Theorem C34_undefined_refuted : exists p st code ms su what,
  parse_document p false st code = Ok (ms, su, st) /\ diagnostics ms = Exc (EUB what).
Proof.
  exists (rejecting (fun _ => "see line 1")), tt, "G1".
  eexists _, _, _. split; [vm_compute; reflexivity|]. vm_compute. reflexivity.
Qed.
Print Assumptions C34_undefined_refuted.

(** Three lines, two of them rejected, with messages of two shapes. *)
Definition picky : line_parser :=
  mkLP unit (fun _ _ l => Ok (String.eqb l "G0", if String.eqb l "X" then "1:2: value missing <- X" else "no value", tt))
    (fun _ => mkPR dzero dzero dzero dzero "") (fun _ => mkTR dzero dzero dzero dzero "").

Example C34_ex :
  let code := "G0" ++ String lf ("X" ++ String lf ("" ++ String lf ("Z  "))) in
  exists ms su, parse_document picky false tt code = Ok (ms, su, tt) /\
  rejected (verdicts picky tt 1 (split_lines code)) = [(2, "X", "1:2: value missing <- X"); (4, "Z", "no value")] /\
  located 2 "X" "1:2: value missing <- X" 1 /\ located 4 "Z" "no value" 0 /\
  diagnostics ms = Ok [mkDiag 1 1 "value missing <- X"; mkDiag 3 0 "no value"].
Proof.
  assert (O : forall m, replace_first "line 1" "" m = None -> ~ occurs "line 1" m).
  { intros m H (a & b & ->). revert H.
    induction a as [|c a IH]; cbn [append]; intros H.
    { assert (P : prefix "line 1" ("line 1" ++ b) = true) by (destruct b; reflexivity).
      cbn [append] in P. cbn [replace_first] in H. rewrite P in H. discriminate. }
    cbn [replace_first] in H. destruct (prefix _ _); [discriminate|]. destruct (replace_first _ _ (a ++ _)) eqn:E; [discriminate|]. auto. }
  eexists _, _. split; [vm_compute; reflexivity|]. split; [vm_compute; reflexivity|].
  split; [|split; [|vm_compute; reflexivity]].
  - replace 1 with (2 - 1) by reflexivity.
    apply (at_column 2 "X" _ 2 "2" " value missing <- X" ""); try reflexivity; auto; try discriminate.
    + repeat split; discriminate.
    + lia.
    + intros a b H. repeat (destruct a as [|? a]; [discriminate|]; cbn in H; try discriminate; injection H as _ H).
    + left. lia.
  - apply (at_text 4 "Z" _ "n" "o value"); try reflexivity; auto; try discriminate. left. lia.
Qed.
