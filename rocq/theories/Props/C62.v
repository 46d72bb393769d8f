(** C62: the answer about a document depends on the document and the configuration. *)
From Verif Require Import Model.Base Model.Attr Model.Double Model.Macro Model.Grammar Model.Verifiers Model.PathCalc Model.Enums Model.Renumberer Model.NCText Model.Parser Model.Settings Model.Document.
From Verif Require Import Spec.VerifierSpec Spec.SettingsSpec Spec.DocumentSpec Proofs.DocumentProofs Proofs.DocumentStart Proofs.ParserCases Props.C59 Props.C60.
Local Open Scope string_scope.
Local Open Scope Z_scope.
Local Open Scope list_scope.

(** Once the files have been read, nothing on the disk and no other document has
    an influence. *)
Theorem C62_history : forall lit libm atan log cabs stale range_what l left d left' d' code n, ready n ->
  snd (nc_parse lit libm atan log cabs stale range_what left d code (after lit libm atan log cabs stale range_what l n)) =
  snd (nc_parse lit libm atan log cabs stale range_what left' d' code n).
Proof. exact history_irrelevant. Qed.
Print Assumptions C62_history.

(** The document that makes the parser read its files has none either. *)
Theorem C62_first : forall lit libm atan log cabs stale range_what left d c0 c n n1, opening left d n = (n1, None) ->
  snd (nc_parse lit libm atan log cabs stale range_what left d c (fst (nc_parse lit libm atan log cabs stale range_what left d c0 n))) =
  snd (nc_parse lit libm atan log cabs stale range_what left d c n).
Proof. exact first_document_irrelevant. Qed.
Print Assumptions C62_first.

(** Each document starts with the two constants as its only macro values, the
    rest as in a new parser, in the unit of the settings. *)
Theorem C62_start : forall n p, document_parser n = Ok p ->
  (forall id line, 0 <= line -> macro_lookup (pr_macros p) id line =
     if id =? 3101 then Some (d_of_ratio false 314159265358979323846 (10 ^ 20))
     else if id =? 3102 then Some (d_of_ratio false 271828182845904523536 (10 ^ 20)) else None) /\
  pr_gs p = gstate_init /\ pr_rot p = rot_init /\ pr_ren p = renumber_reset /\ pr_zp p = se_zero (sr_settings (nc_settings n)) /\
  (pr_metric p = true <-> cd_inch (mc_cnc (machine_of (sr_settings (nc_settings n)))) = false).
Proof. exact document_start. Qed.
Print Assumptions C62_start.

(** What is typed behind a line changes nothing of what is said about the text up
    to that line: messages and summaries are added behind those there are, the
    summaries for later lines; an exception remains. *)
Theorem C62_prefix : forall lit libm atan log cabs stale range_what n a b,
  match run_document lit libm atan log cabs stale range_what (a ++ String lf "")%string n with
  | Exc e => run_document lit libm atan log cabs stale range_what (a ++ String lf b)%string n = Exc e
  | Ok (ms, mac, su) => forall ms' mac' su',
      run_document lit libm atan log cabs stale range_what (a ++ String lf b)%string n = Ok (ms', mac', su') ->
      exists ms2 su2, ms' = ms ++ ms2 /\ su' = su ++ su2 /\
        Forall (fun s => Z.of_nat (List.length (split_lines (a ++ String lf "")%string)) <= fst s) su2
  end.
Proof. exact document_prefix. Qed.
Print Assumptions C62_prefix.

(** A mill that knows X, Y, Z, F and G. *)
Definition C62_word (w t : string) : string * ptree :=
  (w, node [("word", leaf w); ("range_from", leaf "-9999"); ("range_to", leaf "9999"); ("decimal_from", leaf "0");
            ("decimal_to", leaf "999"); ("unique", leaf "false"); ("type", leaf t)]).
Definition C62_words : ptree := node
  [("metric", node [C62_word "X" "length"; C62_word "Y" "length"; C62_word "Z" "length"; C62_word "F" "feed"; C62_word "G" "code"]);
   ("imperial", node []); ("operations", node [])].
Definition C62_disk : disk :=
  mkDisk None (fun dir name => if String.eqb name "grammar.json" then Some (Some C62_words) else C60_conf "haas_lathe" name).
Definition C62_n := fst (C60_parse C62_disk "" (nc_new false true)).

Example C62_ex :
  let a := "(start" in
  let b := ("X5" ++ String lf "Y1")%string in
  let gone := mkDisk None (fun _ _ => None) in
  opening default_settings C62_disk (nc_new false true) = (C62_n, None) /\ ready C62_n /\
  (exists p, document_parser C62_n = Ok p) /\
  (exists m, snd (C60_parse gone (a ++ String lf "")%string C62_n) = Ok (["1:7: "], m, [])) /\
  (exists m, snd (C60_parse gone (a ++ String lf b)%string C62_n) = Ok (["1:7: "], m,
    [(1, " | Total path = 5.00 | Total time = 0:00.015 | Total rapid path = 5.00 | Total rapid time = 0:00.015");
     (2, " | Total path = 6.00 | Total time = 0:00.018 | Total rapid path = 6.00")])).
Proof.
  cbv zeta. assert (O : opening default_settings C62_disk (nc_new false true) = (C62_n, None)) by (vm_compute; reflexivity).
  split; [exact O|]. split; [exact (opening_makes_ready _ _ _ _ O)|].
  split; [eexists; vm_compute; reflexivity|].
  split; eexists; vm_compute; reflexivity.
Qed.
