(** C63: what the server reports about a line stands at that line.  Partial: the
    conditions exclude what is misplaced or lost, see the refutations. *)
From Verif Require Import Model.Base Model.Attr Model.Double Model.Verifiers Model.PathCalc Model.Enums Model.NCText Model.Parser Model.Messages Model.Settings Model.Document.
From Verif Require Import Spec.Text Spec.NCTextSpec Spec.DocumentSpec Proofs.PlacedProofs Proofs.ParserCases.
Local Open Scope string_scope.
Local Open Scope Z_scope.

(** C34 with the parser the server uses in place of an arbitrary one: exactly one
    diagnostic for each rejected line, in order, at the number of that line; when
    the message quotes the rest of the line, at the character where that rest
    begins, else at the beginning.  There is no carriage return within a line
    (the one of a CR LF ending is not part of it); a tabulator is more than one
    column. *)
Theorem C63_partial : forall lit libm atan log cabs stale range_what cf path_time st code ms su st',
  starts_with_letter range_what ->
  parse_document (fanuc_line_parser lit libm atan log cabs stale range_what cf) path_time st code = Ok (ms, su, st') ->
  Z.of_nat (List.length (split_lines code)) <= int_max -> (forall l, In l (split_lines code) -> without "013" l) ->
  let r := rejected (verdicts (fanuc_line_parser lit libm atan log cabs stale range_what cf) st 1 (split_lines code)) in
  (forall n l m, In (n, l, m) r -> clear n l m) ->
  exists ds, diagnostics ms = Ok ds /\
    Forall2 (fun '(n, l, m) d => dg_line d = n - 1 /\ located n l m (dg_char d) /\
      (without "009" l -> (dg_char d = 0 /\ ~ exists t, m = "1:" ++ t) \/ points_at l m (dg_char d))) r ds.
Proof. exact server_placed. Qed.
Print Assumptions C63_partial.

(** A parser with the shipped tables on a document: messages and diagnostics. *)
Definition C63_parser : line_parser := fanuc_line_parser ex_lit (fun _ => ex_id) ex_id ex_id ex_id 90 "range" ex_cf.
Definition C63_run (code : string) : res (list string * res (list diagnostic)) :=
  do r <- parse_document C63_parser true ex_parser code; let '(ms, _, _) := r in Ok (ms, diagnostics ms).

Definition lines2 (a b : string) : string := a ++ String lf b.

(** A rejected first line that is not reported. *)
Theorem C63_dropped_refuted : C63_run "::" = Ok (["1: '::'"], Ok []).
Proof. vm_compute. reflexivity. Qed.
Print Assumptions C63_dropped_refuted.

(** The second line, reported at the first, with another text. *)
Theorem C63_line_refuted : C63_run (lines2 "" "G0 line 12") = Ok (["1:4: line 22"], Ok [mkDiag 0 3 "line 22"]).
Proof. vm_compute. reflexivity. Qed.
Print Assumptions C63_line_refuted.

(** Nine carriage returns in a comment on the second line: reported at line 20. *)
Definition C63_returns : string := String "013" (String "013" (String "013" (String "013" (String "013" (String "013" (String "013" (String "013" (String "013" "")))))))).
Theorem C63_return_refuted : C63_run (lines2 "" ("(" ++ C63_returns ++ "X)?")) = Ok (["20:3: ?"], Ok [mkDiag 19 2 "?"]).
Proof. vm_compute. reflexivity. Qed.
Print Assumptions C63_return_refuted.

(** A value that the grammar rejects is reported when it is written down, but not
    when a macro variable has it: the line counts as accepted (C37). *)
Theorem C63_macro_refuted : C63_run (lines2 "#1=9999*9999" "G0 X#1") = Ok ([], Ok []) /\
  C63_run (lines2 "" "G0 X99980001") =
  Ok (["2:4: X99980001 <- Value [99980001] not in range [-99999, 99999] for address [X]"],
      Ok [mkDiag 1 3 "X99980001 <- Value [99980001] not in range [-99999, 99999] for address [X]"]).
Proof. split; vm_compute; reflexivity. Qed.
Print Assumptions C63_macro_refuted.

(** A tabulator is one character, but up to four columns: "X" stands at
    character 3. *)
Theorem C63_tabulator_refuted : C63_run (lines2 "" ("G0" ++ String "009" "X999999")) =
  Ok (["2:5: X999999 <- Value [999999] not in range [-99999, 99999] for address [X]"],
      Ok [mkDiag 1 4 "X999999 <- Value [999999] not in range [-99999, 99999] for address [X]"]).
Proof. vm_compute. reflexivity. Qed.
Print Assumptions C63_tabulator_refuted.

(** Three lines, the first and the last rejected. *)
Definition C63_code : string := lines2 "G0 X999999" (lines2 "G0 X1" "?").
Definition C63_message : string := "1:4: X999999 <- Value [999999] not in range [-99999, 99999] for address [X]".
Example C63_ex :
  exists p' ms su, starts_with_letter "range" /\
    parse_document C63_parser true ex_parser C63_code = Ok (ms, su, p') /\
    (forall l, In l (split_lines C63_code) -> without "013" l) /\
    rejected (verdicts C63_parser ex_parser 1 (split_lines C63_code)) = [(1, "G0 X999999", C63_message); (3, "?", "")] /\
    clear 1 "G0 X999999" C63_message /\ clear 3 "?" "" /\ points_at "G0 X999999" C63_message 3 /\
    diagnostics ms = Ok [mkDiag 0 3 "X999999 <- Value [999999] not in range [-99999, 99999] for address [X]"; mkDiag 2 0 "'?'"].
Proof.
  eexists _, _, _. split; [reflexivity|]. split; [vm_compute; reflexivity|]. split.
  { assert (W : Forall (without "013") (split_lines C63_code)).
    { apply without_check. vm_compute. reflexivity. }
    intros l I. rewrite Forall_forall in W. auto. }
  split; [vm_compute; reflexivity|]. split.
  { split; [apply occurs_check; vm_compute; reflexivity|]. split.
    - right. right. exists "4", 4. eexists. split; [reflexivity|]. split; [repeat split; discriminate|lia].
    - intros cs c r E (_ & D & V). unfold C63_message in E. cbn [append] in E. injection E as E.
      apply (digits_front "4" cs _ r eq_refl D) in E as <-. vm_compute in V. subst c. reflexivity. }
  split.
  { split; [apply occurs_check; vm_compute; reflexivity|]. split; [left; lia|]. intros cs c r E. discriminate. }
  split; [|vm_compute; reflexivity].
  exists "G0 ", "X999999", " <- Value [999999] not in range [-99999, 99999] for address [X]", "4". repeat split; discriminate.
Qed.
