(** C33: every request gets one reply. *)
From Verif Require Import Model.Base Model.Double Model.Macro Model.NCText Model.MacrosDesc Model.Server.
From Verif Require Import Spec.ServerSpec Proofs.ServerProofs Proofs.HoverProofs.

(** As long as the server does not fail: each request with an int id gets
    exactly one message back, a reply to that id, and no other message gets a
    reply. Messages behind the one that ends the server are not handled. *)
Theorem C33_replies : forall env p0 ds v p outs,
  handle_all env (server_init, p0) ds = Ok (v, p, outs) ->
  exists ds1 ds2, ds = (ds1 ++ ds2)%list /\ (ds2 <> [] -> sv_exit v = true) /\
  Forall2 (fun d out => (forall id, is_request d -> int_at d ["id"] id -> exists r, out = [r] /\ reply_to id r) /\
                        (~ is_request d -> Forall no_reply out)) ds1 outs.
Proof. intros env p0 ds v p outs. exact (all_replies env ds server_init p0 v p outs). Qed.
Print Assumptions C33_replies.

Lemma good_weaken (o1 o2 : string -> Prop) doc d : (forall l, o1 l -> o2 l) -> good_request o1 doc d -> good_request o2 doc d.
Proof.
  intros H [m I M|l M L O|u line ch M U Li Ci Z S|u M U|line M Li];
    [eapply good_plain|eapply good_resolve|eapply good_hover|eapply good_lens|eapply good_lens_resolve]; eauto.
Qed.

(** The server answers, after any history it has handled: a request with an int
    id and the members the protocol asks for; a completion item to resolve must
    have been offered before, and the macro numbers of a document to hover over
    must fit an int. The description files must be there. *)
Theorem C33_answered_partial : forall env gc mc p0 ds es v p outs d id,
  env_gcodes env = Ok gc -> env_mcodes env = Ok mc ->
  handle_all env (server_init, p0) ds = Ok (v, p, outs) -> List.length outs = List.length ds ->
  Forall2 says ds es -> Forall single_change ds -> Forall event_plain es ->
  int_at d ["id"] id ->
  good_request (fun l => exists out r, In out outs /\ In r out /\ offers r l) (fun u => last_text es u None) d ->
  exists v' p' r, handle env (v, p) d = Ok (v', p', [r]) /\ reply_to id r.
Proof.
  intros env gc mc p0 ds es v p outs d id Eg Em H L Y G P B Q.
  destruct (all_good env ds _ _ _ _ _ H (good_init env)) as (GS & _ & O).
  destruct (request_answered env gc mc Eg Em v p d id (fun u => last_text es u None) GS B) as (v' & p' & r & E).
  - intro u. exact (all_files env ds _ _ _ _ _ _ H L Y G P u None I).
  - eapply good_weaken; [|exact Q]. intros l (out & r & I1 & I2 & I3). eauto.
  - exists v', p', r. split; auto. apply handle_step in E.
    assert (R : is_request d).
    { destruct Q as [m I0 M|l M _ _|u line ch M _ _ _ _ _|u M _|line M _]; eexists; (split; [|exact M]); cbn; try tauto.
      cbn in I0. intuition. }
    destruct (step_reply env d v p v' p' [r] id E R B) as (r' & Er & Rr). injection Er as <-. exact Rr.
Qed.
Print Assumptions C33_answered_partial.

(** Documents sent and closed are handled when their analysis is. *)
Theorem C33_notified : forall env v p d u t md err,
  at_path d ["id"] = None -> single_change d -> no_zero u -> no_zero t -> env_macros env = Ok (md, err) ->
  (says d (Closed u) \/
   says d (Sent u t) /\ exists p' ms mm pt ds, env_parse env p t = Ok (p', (ms, mm, pt)) /\ diagnostics ms = Ok ds) ->
  exists v' p' out, handle env (v, p) d = Ok (v', p', out).
Proof.
  intros env v p d u t md err NI G Zu Zt EM H.
  assert (MB : forall m, method d m -> request_id d = Ok 0 /\ member d "method" = Ok (Some (JStr m))).
  { intros m M. unfold method in M. apply at_path_one, get_member in M. split; auto. unfold request_id.
    destruct d; try discriminate. cbn in *. rewrite <- find_assoc in *. destruct (find _ l) as [[? ?]|] in NI |- *; [discriminate|reflexivity]. }
  assert (PUB : (exists p' ms mm pt ds, env_parse env p t = Ok (p', (ms, mm, pt)) /\ diagnostics ms = Ok ds) ->
                exists v' p' n, publish env v p u t = Ok (v', p', n)).
  { intros (p' & ms & mm & pt & ds & E & D). unfold publish. rewrite E. cbn [bind]. unfold fetch_macros. cbn [sv_macros set_files].
    destruct (sv_macros v); cbn [bind]; [rewrite D; cbn; eauto|]. rewrite EM. cbn [bind]. rewrite D. cbn. eauto. }
  destruct H as [Y|[Y E]]; inversion Y; subst; match goal with M : method d _ |- _ => destruct (MB _ M) as [R Mm] end;
    unfold handle; rewrite R; cbn [bind]; rewrite Mm; cbn [bind get_string]; cbn [String.eqb Ascii.eqb Bool.eqb].
  - match goal with X : at_path d ["params"; "textDocument"; "uri"] = _ |- _ =>
      apply at_path_cons in X as (ps & G1 & X); apply at_path_cons in X as (td & G2 & X); apply at_path_one in X;
      rewrite G1; cbn [bind]; rewrite G2; cbn [bind]; rewrite X; cbn; eauto end.
  - destruct (PUB E) as (v' & p' & n & Pn).
    match goal with X : at_path d ["params"; "textDocument"; "uri"] = _, X' : at_path d ["params"; "textDocument"; "text"] = _ |- _ =>
      apply at_path_cons in X as (ps & G1 & X); apply at_path_cons in X as (td & G2 & X); apply at_path_one in X;
      apply at_path_cons in X' as (ps' & G1' & X'); apply at_path_cons in X' as (td' & G2' & X'); apply at_path_one in X';
      assert (ps' = ps) by congruence; subst ps'; assert (td' = td) by congruence; subst td';
      rewrite G1; cbn [bind]; rewrite G2; cbn [bind]; rewrite X; cbn [bind get_c_string get_string]; rewrite X'; cbn [bind get_c_string get_string] end.
    rewrite !c_str_plain by assumption. rewrite Pn. cbn. eauto.
  - destruct (PUB E) as (v' & p' & n & Pn).
    match goal with M : method d _ |- _ => destruct (G M) as [c' Q] end.
    assert (c' = c). { match goal with X : at_path d _ = Some (JArr (cs ++ [c])%list) |- _ => rewrite Q in X; injection X as X;
      destruct cs as [|a [|b cs]]; inversion X; auto end. }
    subst c'.
    match goal with X : at_path d ["params"; "textDocument"; "uri"] = _, X' : at_path c ["text"] = _ |- _ =>
      apply at_path_cons in X as (ps & G1 & X); apply at_path_cons in X as (td & G2 & X); apply at_path_one in X;
      apply at_path_cons in Q as (ps' & G1' & Q); apply at_path_one in Q; apply at_path_one in X';
      assert (ps' = ps) by congruence; subst ps';
      rewrite G1; cbn [bind]; rewrite G2; cbn [bind]; rewrite Q; cbn [bind]; rewrite X; cbn [bind get_c_string get_string first_of]; rewrite X'; cbn [bind get_c_string get_string] end.
    rewrite !c_str_plain by assumption. rewrite Pn. cbn. eauto.
Qed.
Print Assumptions C33_notified.

Definition quiet (mm : macro_map dbl) : server_env :=
  mkEnv unit (fun _ s => Ok (tt, ([], mm, []))) (Ok (mkCodes [("1", ("Line", "moves"))] ["1"])) (Ok (mkCodes [] [])) (Ok (mkMD [] [], None))
        (fun _ => JNull) false.
Definition req (id : json) (m : string) (params : json) : json := JObj [("id", id); ("method", JStr m); ("params", params)].
Definition hover_at (u : string) (line ch : Z) : json :=
  JObj [("textDocument", JObj [("uri", JStr u)]); ("position", JObj [("line", JInt line); ("character", JInt ch)])].
Definition doc_open (u t : string) : json :=
  JObj [("method", JStr "textDocument/didOpen"); ("params", JObj [("textDocument", JObj [("uri", JStr u); ("text", JStr t)])])].

(** Text ids, which the protocol allows: the reply to initialize has another id,
    other requests are fatal. *)
Theorem C33_text_id_refuted :
  (exists v p r, handle (quiet []) (server_init, tt) (req (JStr "a1") "initialize" (JObj [])) = Ok (v, p, [r]) /\
     at_path r ["id"] = Some (JInt 0)) /\
  exists s, handle (quiet []) (server_init, tt) (req (JStr "7") "textDocument/hover" (hover_at "f" 0 0)) = Exc (EUB s).
Proof. split; repeat eexists; vm_compute; reflexivity. Qed.
Print Assumptions C33_text_id_refuted.

(** Resolving an item before any completion, a number of a macro that does not
    fit an int under the cursor, and a text that is no JSON are fatal. *)
Theorem C33_resolve_refuted : exists s,
  handle (quiet []) (server_init, tt) (req (JInt 1) "completionItem/resolve" (JObj [("label", JStr "G1")])) = Exc (EUB s).
Proof. eexists. vm_compute. reflexivity. Qed.
Print Assumptions C33_resolve_refuted.

Theorem C33_hover_refuted : exists mm v p outs,
  handle_all (quiet mm) (server_init, tt) [doc_open "f" "X#99999999999"] = Ok (v, p, outs) /\
  handle (quiet mm) (v, p) (req (JInt 1) "textDocument/hover" (hover_at "f" 0 3)) = Exc EOutOfRange.
Proof. exists [(mkKey 1 1, d_of_Z 0)]. do 3 eexists. split; [vm_compute; reflexivity|]. vm_compute. reflexivity. Qed.
Print Assumptions C33_hover_refuted.

Theorem C33_no_json_refuted : forall env vp, exists s, handle env vp JNull = Exc (EUB s).
Proof. intros env [v p]. eexists. reflexivity. Qed.
Print Assumptions C33_no_json_refuted.

(** A history after which hovering, completing and resolving are answered. *)
Example C33_ex : exists v p outs v1 p1 r1 v2 p2 r2,
  handle_all (quiet []) (server_init, tt) [doc_open "f" "G1 X5"; req (JInt 3) "textDocument/completion" (JObj [])] = Ok (v, p, outs) /\
  (exists out r, In out outs /\ In r out /\ offers r "G1") /\
  good_request (fun l => exists out r, In out outs /\ In r out /\ offers r l) (fun u => if String.eqb u "f" then Some "G1 X5" else None)
    (req (JInt 4) "completionItem/resolve" (JObj [("label", JStr "G1")])) /\
  handle (quiet []) (v, p) (req (JInt 4) "completionItem/resolve" (JObj [("label", JStr "G1")])) = Ok (v1, p1, [r1]) /\
  at_path r1 ["result"; "detail"] = Some (JStr "Line") /\
  handle (quiet []) (v1, p1) (req (JInt 5) "textDocument/hover" (hover_at "f" 0 1)) = Ok (v2, p2, [r2]) /\ reply_to 5 r2.
Proof.
  do 9 eexists. split; [vm_compute; reflexivity|].
  assert (K : exists out r, In out [[JObj [("jsonrpc", JStr "2.0"); ("method", JStr "textDocument/publishDiagnostics");
     ("params", JObj [("uri", JStr "f"); ("diagnostics", JArr [])])]];
     [JObj [("jsonrpc", JStr "2.0"); ("id", JInt 3); ("result", JArr [JObj [("label", JStr "G1"); ("kind", JInt 15); ("insertTextFormat", JInt 2); ("data", JInt 1)]])]]]
     /\ In r out /\ offers r "G1").
  { eexists _, _. split; [right; left; reflexivity|]. split; [left; reflexivity|]. eexists _, _. split; [reflexivity|].
    split; [left; reflexivity|]. reflexivity. }
  split; [exact K|]. split; [eapply good_resolve; [reflexivity|reflexivity|exact K]|].
  split; [vm_compute; reflexivity|]. split; [vm_compute; reflexivity|]. split; [vm_compute; reflexivity|].
  repeat split; discriminate.
Qed.
