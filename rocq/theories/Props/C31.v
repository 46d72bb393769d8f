(** C31: the text of a document is the last one sent. *)
From Verif Require Import Model.Base Model.Double Model.Macro Model.NCText Model.MacrosDesc Model.Server.
From Verif Require Import Spec.NCTextSpec Spec.ServerSpec Spec.DiagnosticSpec Proofs.NCTextProofs Proofs.ServerProofs.

(** After any messages the server handles: an open document has the lines of
    the last text sent for it and the results of an analysis of that text; other
    documents have none. Missing: changes with several texts, and texts and
    names with the character zero. *)
Theorem C31_partial : forall env p0 ds es v p outs,
  handle_all env (server_init, p0) ds = Ok (v, p, outs) -> List.length outs = List.length ds ->
  Forall2 says ds es -> Forall single_change ds -> Forall event_plain es -> forall u,
  match last_text es u None, assoc u (sv_files v) with
  | None, None => True
  | Some t, Some fc => segments t (fc_lines fc) /\
      exists q q' messages, env_parse env q t = Ok (q', (messages, fc_macros fc, fc_path_time fc))
  | _, _ => False
  end.
Proof.
  intros env p0 ds es v p outs H L Y G P u.
  pose proof (all_files env ds _ _ _ _ _ _ H L Y G P u None I) as C. unfold context_of in C.
  destruct (last_text es u None), (assoc u (sv_files v)); auto. destruct C as [-> C]. split; auto. apply content_segments.
Qed.
Print Assumptions C31_partial.

(** The code lenses a client then receives are those of the last text. *)
Theorem C31_code_lens : forall env p0 ds es v p outs d u v' p' out,
  handle_all env (server_init, p0) ds = Ok (v, p, outs) -> List.length outs = List.length ds ->
  Forall2 says ds es -> Forall single_change ds -> Forall event_plain es ->
  method d "textDocument/codeLens" -> at_path d ["params"; "textDocument"; "uri"] = Some (JStr u) -> no_zero u ->
  handle env (v, p) d = Ok (v', p', out) ->
  exists r, out = [r] /\
  match last_text es u None with
  | None => at_path r ["result"] = Some JNull
  | Some t => exists q q' messages macros results, env_parse env q t = Ok (q', (messages, macros, results)) /\
      (results = [] /\ at_path r ["result"] = Some JNull \/
       exists lenses, at_path r ["result"] = Some (JArr lenses) /\
         Forall2 (fun x l => at_path l ["range"; "start"; "line"] = Some (JInt (fst x)) /\
                             at_path l ["command"; "title"] = Some (JStr (snd x))) results lenses)
  end.
Proof.
  intros env p0 ds es v p outs d u v' p' out H L Y G P M U Z Hd.
  pose proof (all_files env ds _ _ _ _ _ _ H L Y G P u None I) as C.
  apply handle_step in Hd. destruct Hd; try (match goal with X : method d ?k |- _ => pose proof (method_fun _ _ _ X M); discriminate end).
  2:{ exfalso. apply (H0 _ M). cbn. tauto. }
  apply lens_inv in H1 as (id & u' & _ & U' & _ & ->). assert (u' = u) by congruence. subst u'. rewrite (c_str_plain u Z).
  eexists. split; [reflexivity|]. unfold context_of in C.
  destruct (last_text es u None) as [t|], (assoc u (sv_files v)) as [fc|]; try contradiction; [|reflexivity].
  destruct C as [_ (q & q' & ms & C)]. exists q, q', ms, (fc_macros fc), (fc_path_time fc). split; auto.
  destruct (fc_path_time fc) as [|x l]; [left; auto|]. right. eexists. split; [reflexivity|].
  clear C. generalize (x :: l). clear. induction l; cbn; constructor; auto.
Qed.
Print Assumptions C31_code_lens.

(** Each text sent is answered with the diagnostics of its analysis under the
    name of the document. *)
Theorem C31_diagnostics : forall env v p d u t v' p' out,
  handle env (v, p) d = Ok (v', p', out) -> says d (Sent u t) -> single_change d -> no_zero u -> no_zero t ->
  exists n messages macros results ds extra, out = [n] /\ env_parse env p t = Ok (p', (messages, macros, results)) /\
    diagnostics messages = Ok ds /\ (List.length extra <= 1)%nat /\
    at_path n ["method"] = Some (JStr "textDocument/publishDiagnostics") /\
    at_path n ["params"; "uri"] = Some (JStr u) /\
    exists items, at_path n ["params"; "diagnostics"] = Some (JArr (extra ++ items)%list) /\ Forall2 sent_as ds items.
Proof.
  intros env v p d u t v' p' out H Y G Zu Zt. apply handle_step in H.
  assert (K : forall n, publish env v p u t = Ok (v', p', n) -> exists n' messages macros results ds extra, [n] = [n'] /\
    env_parse env p t = Ok (p', (messages, macros, results)) /\
    diagnostics messages = Ok ds /\ (List.length extra <= 1)%nat /\
    at_path n' ["method"] = Some (JStr "textDocument/publishDiagnostics") /\
    at_path n' ["params"; "uri"] = Some (JStr u) /\
    exists items, at_path n' ["params"; "diagnostics"] = Some (JArr (extra ++ items)%list) /\ Forall2 sent_as ds items).
  { intros n Q. apply publish_inv in Q as (ms & mm & pt & v1 & e & ds & E & _ & _ & D & ->).
    eexists _, ms, mm, pt, ds, _. split; [reflexivity|]. split; [exact E|]. split; [exact D|].
    split; [|split; [reflexivity|split; [reflexivity|exists (map diagnostic_json ds); split; [reflexivity|clear; induction ds; constructor; [repeat split; reflexivity|assumption]]]]].
    destruct e as [[|c s]|]; cbn; lia. }
  inversion Y; subst; inversion H; subst;
    try (match goal with X : method d ?a, Z : method d ?b |- _ => pose proof (method_fun _ _ _ X Z); discriminate end).
  - assert (u0 = u) by congruence. assert (t0 = t) by congruence. subst. match goal with X : publish _ _ _ _ _ = _ |- _ => rewrite !c_str_plain in X by assumption; eauto end.
  - exfalso. match goal with X : forall m, method d m -> _, Z : method d _ |- _ => apply (X _ Z); cbn; tauto end.
  - match goal with Z : method d _ |- _ => destruct (G Z) as [c' Q] end. 
    assert (c0 = c).
    { assert (A : JArr (c0 :: cs0) = JArr [c']) by congruence. assert (B : JArr (cs ++ [c])%list = JArr [c']) by congruence.
      injection A as -> _. injection B as B. destruct cs as [|a [|b cs]]; inversion B; auto. }
    subst.
    assert (u0 = u) by congruence. assert (t0 = t) by congruence. subst. match goal with X : publish _ _ _ _ _ = _ |- _ => rewrite !c_str_plain in X by assumption; eauto end.
  - exfalso. match goal with X : forall m, method d m -> _, Z : method d _ |- _ => apply (X _ Z); cbn; tauto end.
Qed.
Print Assumptions C31_diagnostics.

(** A server whose analysis shows the text as a code lens. *)
Definition echo : server_env :=
  mkEnv unit (fun _ s => Ok (tt, ([], [], [(0, s)]))) (Ok (mkCodes [] [])) (Ok (mkCodes [] [])) (Ok (mkMD [] [], None))
        (fun _ => JNull) false.
Definition opened (u t : string) : json :=
  JObj [("method", JStr "textDocument/didOpen"); ("params", JObj [("textDocument", JObj [("uri", JStr u); ("text", JStr t)])])].
Definition changed (u : string) (ts : list string) : json :=
  JObj [("method", JStr "textDocument/didChange");
        ("params", JObj [("textDocument", JObj [("uri", JStr u)]); ("contentChanges", JArr (map (fun t => JObj [("text", JStr t)]) ts))])].
Definition closed (u : string) : json :=
  JObj [("method", JStr "textDocument/didClose"); ("params", JObj [("textDocument", JObj [("uri", JStr u)])])].

(** Of several changes in one message the first is taken. *)
Theorem C31_changes_refuted : exists ds es v p outs fc,
  handle_all echo (server_init, tt) ds = Ok (v, p, outs) /\ List.length outs = List.length ds /\
  Forall2 says ds es /\ Forall event_plain es /\
  last_text es "f" None = Some "G2" /\ assoc "f" (sv_files v) = Some fc /\ ~ segments "G2" (fc_lines fc).
Proof.
  exists [changed "f" ["G1"; "G2"]], [Sent "f" "G2"]. do 4 eexists.
  split; [vm_compute; reflexivity|]. split; [reflexivity|]. split.
  { constructor; [|constructor]. eapply says_change with (cs := [JObj [("text", JStr "G1")]]); reflexivity. }
  split. { repeat constructor; intros a b E; repeat (destruct a as [|? a]; [discriminate E|injection E as _ E]); destruct a; discriminate E. }
  split; [reflexivity|]. split; [vm_compute; reflexivity|]. intro S. apply segments_unique in S. vm_compute in S. discriminate.
Qed.
Print Assumptions C31_changes_refuted.

(** A text ends at the first character zero. *)
Theorem C31_zero_refuted : exists ds es v p outs fc,
  handle_all echo (server_init, tt) ds = Ok (v, p, outs) /\ List.length outs = List.length ds /\
  Forall2 says ds es /\ Forall single_change ds /\ last_text es "f" None = Some ("G1" ++ String "000" "G2") /\
  assoc "f" (sv_files v) = Some fc /\ fc_lines fc = ["G1"].
Proof.
  exists [opened "f" ("G1" ++ String "000" "G2")], [Sent "f" ("G1" ++ String "000" "G2")]. do 4 eexists.
  split; [vm_compute; reflexivity|]. split; [reflexivity|]. split.
  { constructor; [|constructor]. apply says_open; reflexivity. }
  split. { repeat constructor. intro M. discriminate M. }
  split; [reflexivity|]. split; vm_compute; reflexivity.
Qed.
Print Assumptions C31_zero_refuted.

Example C31_ex : exists v p outs,
  let ds := [opened "f" "G1"; opened "g" "G2"; changed "f" ["G3"]; closed "g"] in
  let es := [Sent "f" "G1"; Sent "g" "G2"; Sent "f" "G3"; Closed "g"] in
  handle_all echo (server_init, tt) ds = Ok (v, p, outs) /\ List.length outs = List.length ds /\
  Forall2 says ds es /\ Forall single_change ds /\ Forall event_plain es /\
  last_text es "f" None = Some "G3" /\ last_text es "g" None = None.
Proof.
  do 3 eexists. cbv zeta. split; [vm_compute; reflexivity|]. split; [reflexivity|]. split; [|split; [|split; [|split; reflexivity]]].
  - constructor; [apply says_open; reflexivity|]. constructor; [apply says_open; reflexivity|].
    constructor; [eapply says_change with (cs := []); reflexivity|]. constructor; [apply says_close; reflexivity|constructor].
  - repeat constructor; intro M; try discriminate M. eexists. reflexivity.
  - repeat constructor; intros a b E; repeat (destruct a as [|? a]; [discriminate E|injection E as _ E]); try (destruct a; discriminate E).
Qed.
