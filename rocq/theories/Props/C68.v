(** C68: what the server says about a document is what a fresh analysis of its
    last text says.  C31, C62 and C63 put together: the message handler with the
    parser it uses. *)
From Verif Require Import Model.Base Model.Attr Model.Double Model.Macro Model.Verifiers Model.PathCalc Model.Enums Model.NCText Model.MacrosDesc Model.Server.
From Verif Require Import Model.Parser Model.Messages Model.Settings Model.Document Model.Session.
From Verif Require Import Spec.Text Spec.NCTextSpec Spec.ServerSpec Spec.DiagnosticSpec Spec.DocumentSpec.
From Verif Require Import Proofs.Tactics Proofs.ServerProofs Proofs.DocumentProofs Proofs.SessionProofs Proofs.ParserCases Props.C31 Props.C60 Props.C62.
Local Open Scope string_scope.
Local Open Scope Z_scope.

(** [n0] is the parser the server starts with, [n1] the one with the
    configuration read.  Whatever messages came before, the diagnostics sent for
    a text are those of a run on this text alone; in front of them there may be
    one about the macro descriptions, but not after the first text. *)
Theorem C68_diagnostics : forall lit libm atan log cabs stale range_what left d gcodes mcodes macros macro_error logger n0 n1,
  opening left d n0 = (n1, None) ->
  let env := session_env lit libm atan log cabs stale range_what left d gcodes mcodes macros macro_error logger in
  forall ms v p outs m u t v' p' out,
  handle_all env (server_init, n0) ms = Ok (v, p, outs) ->
  handle env (v, p) m = Ok (v', p', out) -> says m (Sent u t) -> single_change m -> no_zero u -> no_zero t ->
  exists n messages mac results ds extra, out = [n] /\
    run_document lit libm atan log cabs stale range_what t n1 = Ok (messages, mac, results) /\
    diagnostics messages = Ok ds /\ (List.length extra <= 1)%nat /\
    (List.length outs = List.length ms -> (exists k u' t', In k ms /\ says k (Sent u' t')) -> extra = []) /\
    at_path n ["method"] = Some (JStr "textDocument/publishDiagnostics") /\
    at_path n ["params"; "uri"] = Some (JStr u) /\
    exists items, at_path n ["params"; "diagnostics"] = Some (JArr (extra ++ items)%list) /\ Forall2 sent_as ds items.
Proof.
  intros lit libm atan log cabs stale range_what left d gcodes mcodes macros macro_error logger n0 n1 O env ms v p outs m u t v' p' out H H' Y G Zu Zt.
  destruct (session_diagnostics lit libm atan log cabs stale range_what left d gcodes mcodes macros macro_error logger n0 n1 O ms v p outs m u t v' p' out H H' Y G Zu Zt)
    as (n & messages & mac & results & ds & extra & P1 & P2 & P3 & P4 & P5 & P6 & P7 & P8).
  exists n, messages, mac, results, ds, extra. do 7 (split; [assumption|]). exists (map diagnostic_json ds). split; [exact P8|].
  clear. induction ds; constructor; [repeat split; reflexivity|assumption].
Qed.
Print Assumptions C68_diagnostics.

(** The code lenses of a document are the summaries of a run on its last text
    alone. *)
Theorem C68_lenses : forall lit libm atan log cabs stale range_what left d gcodes mcodes macros macro_error logger n0 n1,
  opening left d n0 = (n1, None) ->
  let env := session_env lit libm atan log cabs stale range_what left d gcodes mcodes macros macro_error logger in
  forall ms es v p outs m u v' p' out,
  handle_all env (server_init, n0) ms = Ok (v, p, outs) -> List.length outs = List.length ms ->
  Forall2 says ms es -> Forall single_change ms -> Forall event_plain es ->
  method m "textDocument/codeLens" -> at_path m ["params"; "textDocument"; "uri"] = Some (JStr u) -> no_zero u ->
  handle env (v, p) m = Ok (v', p', out) ->
  exists r, out = [r] /\
  match last_text es u None with
  | None => at_path r ["result"] = Some JNull
  | Some t => exists messages mac results,
      run_document lit libm atan log cabs stale range_what t n1 = Ok (messages, mac, results) /\
      (results = [] /\ at_path r ["result"] = Some JNull \/
       exists lenses, at_path r ["result"] = Some (JArr lenses) /\
         Forall2 (fun x l => at_path l ["range"; "start"; "line"] = Some (JInt (fst x)) /\
                             at_path l ["command"; "title"] = Some (JStr (snd x))) results lenses)
  end.
Proof. exact session_lenses. Qed.
Print Assumptions C68_lenses.

(** From the message a client sends to the diagnostics it gets: one for each line
    that a new parser with the configuration rejects, in order, at the number of
    the line and, when the message quotes the rest of the line, at the character
    where that rest begins.  The conditions on messages are those of C63. *)
Theorem C68_placed : forall lit libm atan log cabs stale range_what left d gcodes mcodes macros macro_error logger n0 n1,
  opening left d n0 = (n1, None) ->
  let env := session_env lit libm atan log cabs stale range_what left d gcodes mcodes macros macro_error logger in
  forall ms v p outs m u t v' p' out,
  handle_all env (server_init, n0) ms = Ok (v, p, outs) ->
  handle env (v, p) m = Ok (v', p', out) -> says m (Sent u t) -> single_change m -> no_zero u -> no_zero t ->
  starts_with_letter range_what ->
  Z.of_nat (List.length (split_lines t)) <= int_max -> (forall l, In l (split_lines t) -> without "013" l) ->
  (List.length outs = List.length ms /\ exists k u' t', In k ms /\ says k (Sent u' t')) ->
  exists n p0, out = [n] /\ document_parser n1 = Ok p0 /\
    let r := rejected (verdicts (fanuc_line_parser lit libm atan log cabs stale range_what (config_of n1)) p0 1 (split_lines t)) in
    ((forall k l x, In (k, l, x) r -> clear k l x) ->
     exists js, at_path n ["params"; "diagnostics"] = Some (JArr js) /\
       Forall2 (fun '(k, l, x) j => exists ch,
         at_path j ["range"; "start"; "line"] = Some (JInt (k - 1)) /\
         at_path j ["range"; "start"; "character"] = Some (JInt ch) /\
         (without "009" l -> (ch = 0 /\ ~ exists y, x = "1:" ++ y) \/ points_at l x ch)) r js).
Proof. exact session_placed. Qed.
Print Assumptions C68_placed.

(** Three documents with a mill that knows X, Y, Z, F and G; the last text of "f"
    has one wrong line. *)
Definition C68_env : server_env :=
  session_env ex_lit (fun _ => ex_id) ex_id ex_id ex_id 90 "range" default_settings C62_disk
    (Ok (mkCodes [] [])) (Ok (mkCodes [] [])) (Ok (mkMD [] [], Some "faulty")) JStr false.
Definition C68_history : list json := [opened "f" "(start"; opened "g" "X7"; closed "g"].
Definition C68_text : string := ("X5" ++ String lf "G0 ?")%string.

Example C68_ex : exists v p outs v' p',
  opening default_settings C62_disk (nc_new false true) = (C62_n, None) /\
  handle_all C68_env (server_init, nc_new false true) C68_history = Ok (v, p, outs) /\
  List.length outs = List.length C68_history /\ says (opened "f" "(start") (Sent "f" "(start") /\
  says (changed "f" [C68_text]) (Sent "f" C68_text) /\ single_change (changed "f" [C68_text]) /\ no_zero "f" /\ no_zero C68_text /\
  handle C68_env (v, p) (changed "f" [C68_text]) = Ok (v', p',
    [JObj [("jsonrpc", JStr "2.0"); ("method", JStr "textDocument/publishDiagnostics");
           ("params", JObj [("uri", JStr "f"); ("diagnostics", JArr
              [JObj [("severity", JInt 1); ("range", make_range 1 3 3); ("message", JStr "?")]])])]]) /\
  rejected (verdicts (fanuc_line_parser ex_lit (fun _ => ex_id) ex_id ex_id ex_id 90 "range" (config_of C62_n))
     (match document_parser C62_n with Ok p0 => p0 | Exc _ => ex_parser end) 1 (split_lines C68_text)) = [(2, "G0 ?", "1:4: ?")].
Proof.
  do 5 eexists. split; [vm_compute; reflexivity|]. split; [vm_compute; reflexivity|]. split; [reflexivity|].
  split; [apply says_open; reflexivity|]. split; [eapply says_change with (cs := []); reflexivity|].
  split; [intros _; eexists; reflexivity|].
  split. { intros a b E; repeat (destruct a as [|? a]; [discriminate E|injection E as _ E]); destruct a; discriminate E. }
  split. { intros a b E; repeat (destruct a as [|? a]; [discriminate E|injection E as _ E]); destruct a; discriminate E. }
  split; vm_compute; reflexivity.
Qed.
