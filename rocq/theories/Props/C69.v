(** C69: no document brings the server down.  Partial: for documents without
    macros and brackets and without the motions the path calculation stumbles
    over, see the refutations. *)
From Verif Require Import Model.Base Model.Attr Model.Double Model.Macro Model.Verifiers Model.PathCalc Model.Enums Model.NCText Model.Parser Model.Messages Model.Settings Model.Shipped Model.Document.
From Verif Require Import Spec.Text Spec.NCTextSpec Spec.EscapeSpec Proofs.Tactics Proofs.NCTextProofs Proofs.PlacedProofs Proofs.EscapeProofs Proofs.EscapeCases Proofs.ParserCases.
Local Open Scope string_scope.
Local Open Scope Z_scope.

(** Whatever else the document is, down to the last byte, the run comes to its
    end: every line is accepted or gets its message, no exception leaves the
    parser and nothing undefined is evaluated.  What is left is the summary of
    path and time, when it is asked for and a number is too large to be written
    (C40). *)
Theorem C69_partial : forall lit libm atan log cabs stale range_what n code lines fg ops p,
  nc_grammar n = Some (fg, ops) -> tables_complete fg ops ->
  let s := sr_settings (nc_settings n) in
  Forall address (map fst (ks_axes (se_kin s))) ->
  document_parser n = Ok p -> segments code lines -> Forall unmarked lines ->
  harmless (cd_motion (cnc_of (se_cnc s))) (map fst (se_exchange s)) lines ->
  match run_document lit libm atan log cabs stale range_what code n with
  | Ok _ => True
  | Exc e => nc_path_time n = true /\ (e = EUB "double to int64 out of range" \/ e = EUB "read behind the snprintf buffer")
  end.
Proof. exact document_ends. Qed.
Print Assumptions C69_partial.

(** The server without settings and summaries, with any of the shipped tables. *)
Definition C69_server (fg : fanuc_grammar) (gg mg : code_groups) (path_time : bool) : nc_parser :=
  mkNC false path_time settings_new (Some (fg, shipped_ops)) (Some gg) (Some mg).

Theorem C69_shipped_partial : forall lit libm atan log cabs stale range_what name fg gg mg code lines,
  In (name, fg) shipped -> segments code lines -> Forall unmarked lines -> harmless 0 ["X"; "Y"; "Z"] lines ->
  exists messages macros, run_document lit libm atan log cabs stale range_what code (C69_server fg gg mg false) = Ok (messages, macros, []).
Proof. exact shipped_ends. Qed.
Print Assumptions C69_shipped_partial.

Definition C69_text (l : list string) : string := concat_str (map (fun s => s ++ String lf "") l).
Definition C69_run (path_time : bool) (l : list string) : res nc_result :=
  run_document ex_lit (fun _ => ex_id) ex_id ex_id ex_id 90 "range" (C69_text l) (C69_server (mkFG fanuc_mill_metric fanuc_mill_imperial) [] [] path_time).

(** Two characters end the server: [std::stod] of nothing throws an exception that
    nobody catches. *)
Theorem C69_bracket_refuted : C69_run false ["N["] = Exc EInvalidArgument.
Proof. vm_compute. reflexivity. Qed.
Print Assumptions C69_bracket_refuted.

(** A pecking cycle without Q. *)
Theorem C69_pecking_refuted : C69_run false ["S100 M3"; "G83 Z1 R1 F1"] = Exc (EUB "dereferences an empty optional or an end iterator").
Proof. vm_compute. reflexivity. Qed.
Print Assumptions C69_pecking_refuted.

(** A helix, then a block without Z. *)
Theorem C69_helix_refuted : C69_run false ["S100 M3"; "G91"; "G2 X0 Y0 Z1 R1 F1"; "X0 R1"] = Exc (EUB "dereferences an empty optional or an end iterator").
Proof. vm_compute. reflexivity. Qed.
Print Assumptions C69_helix_refuted.

(** A feed so small that the time is no int64. *)
Theorem C69_summary_refuted : C69_run true ["S100 M3"; "G1 X1 F0.00000000000000000001"] = Exc (EUB "double to int64 out of range").
Proof. vm_compute. reflexivity. Qed.
Print Assumptions C69_summary_refuted.

(** Lines that are accepted, out of range, not understood and not text at all. *)
Definition C69_lines : list string :=
  ["%"; "O1234 (PART)"; "S100 M3"; "G1 X10 Y20 F100"; "G2 X15 Y25 R5"; "X999999"; "G1 X1..2"; "G G G"; String "200" (String "000" "X"); "G28 Z0"; "G81 Z-5 R2"; "M30"].
Example C69_ex : exists messages macros,
  tables_complete (mkFG fanuc_mill_metric fanuc_mill_imperial) shipped_ops /\ Forall address (map fst (ks_axes (se_kin default_settings))) /\
  segments (C69_text C69_lines) C69_lines /\ Forall unmarked C69_lines /\ harmless 0 ["X"; "Y"; "Z"] C69_lines /\
  ~ harmless 0 ["X"; "Y"; "Z"] ["G83 Z1 R1"] /\
  C69_run false C69_lines = Ok (messages, macros, []) /\ List.length messages = 4%nat.
Proof.
  eexists _, _. split; [apply (shipped_complete "fanuc_mill"); vm_compute; tauto|]. split.
  { repeat constructor; eexists; (split; [reflexivity|]); vm_compute; split; discriminate. }
  split. { split; [|now left]. apply without_check. vm_compute. reflexivity. }
  split; [apply unmarkedb_ok; vm_compute; reflexivity|]. split; [apply harmlessb_ok; vm_compute; reflexivity|]. split.
  { intros [A _ _ _]. apply (A 83); [|vm_compute; tauto]. right. exists "G83 Z1 R1". split; [now left|]. exists "", "", "83", " Z1 R1".
    repeat split; try discriminate. intros c r E. injection E as <- <-. reflexivity. }
  split; [vm_compute; reflexivity|]. vm_compute. reflexivity.
Qed.
