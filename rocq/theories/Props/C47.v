(** C47: resolving a code lens. *)
From Verif Require Import Model.Base Model.Double Model.Macro Model.NCText Model.MacrosDesc Model.Server.
From Verif Require Import Spec.ServerSpec Spec.LensSpec Proofs.Tactics Proofs.ServerProofs Proofs.LensProofs.

(** When the lenses of [u] were the last asked for, resolving the lens of a line
    gives the summary of that line of the last text of [u], and nothing when
    there is none. Missing from the property: lenses of another document. *)
Theorem C47_resolve_partial : forall env p0 ds1 d1 ds2 es1 es2 v p outs u d range line v' p' out,
  handle_all env (server_init, p0) (ds1 ++ d1 :: ds2) = Ok (v, p, outs) -> List.length outs = List.length (ds1 ++ d1 :: ds2) ->
  Forall2 says ds1 es1 -> Forall2 says (d1 :: ds2) es2 ->
  Forall single_change (ds1 ++ d1 :: ds2) -> Forall event_plain (es1 ++ es2) ->
  asks_lens d1 u -> no_zero u -> last_text es1 u None <> None -> Forall (fun d => ~ method d "textDocument/codeLens") ds2 ->
  resolves d range line -> handle env (v, p) d = Ok (v', p', out) ->
  exists r, out = [r] /\
  match last_text (es1 ++ es2) u None with
  | None => at_path r ["result"] = Some JNull
  | Some t => exists q q' messages macros results, env_parse env q t = Ok (q', (messages, macros, results)) /\
      ((exists title, In (line, title) results /\ lens_shown r range title) \/
       ((forall title, ~ In (line, title) results) /\ at_path r ["result"] = Some JNull))
  end.
Proof.
  intros env p0 ds1 d1 ds2 es1 es2 v p outs u d range line v' p' out H L Y1 Y2 G P (M1 & U1) Z O N (M & R & Li) Hd.
  assert (Y : Forall2 says (ds1 ++ d1 :: ds2) (es1 ++ es2)) by (now apply Forall2_app).
  pose proof (all_files env _ _ _ _ _ _ _ H L Y G P u None I) as C.
  destruct (all_split env ds1 (d1 :: ds2) _ _ _ _ _ H L) as (v1 & p1 & o1 & o2 & A1 & L1 & _ & A2 & L2 & ->).
  apply Forall_app in G as [G1 G2]. apply Forall_app in P as [P1 P2].
  pose proof (all_files env _ _ _ _ _ _ _ A1 L1 Y1 G1 P1 u None I) as C1.
  assert (F1 : assoc u (sv_files v1) <> None) by (unfold context_of in C1; destruct (last_text es1 u None), (assoc u (sv_files v1)); congruence).
  cbn [handle_all] in A2. apply bind_ok in A2 as ([[v2 p2] out2] & E2 & A2). cbn [fst] in A2.
  assert (U2 : sv_uri v2 = u).
  { apply handle_step in E2. inv E2; try (match goal with X : method d1 ?k |- _ => pose proof (method_fun _ _ _ X M1); discriminate end).
    - apply lens_inv in H1 as (id & u' & _ & U' & -> & _). assert (u' = u) by congruence. subst u'. rewrite (c_str_plain u Z).
      destruct (assoc u (sv_files v1)); [reflexivity|congruence].
    - exfalso. eapply H0; [exact M1|cbn; tauto]. }
  assert (UV : sv_uri v = u).
  { destruct (sv_exit v2); [now inv A2|]. apply bind_ok in A2 as ([[v3 p3] o3] & E3 & A2). inv A2. rewrite (all_uri env _ _ _ _ _ _ E3 N). auto. }
  clear U2.
  apply handle_step in Hd. inv Hd; try (match goal with X : method d ?k |- _ => pose proof (method_fun _ _ _ X M); discriminate end).
  - apply lens_resolve_inv in H1 as (id & ra & li & _ & R' & Li' & ->). assert (ra = range) by congruence. subst ra. assert (li = line) by congruence. subst li.
    eexists. split; [reflexivity|]. unfold context_of in C.
    destruct (last_text (es1 ++ es2) (sv_uri v') None) as [t|], (assoc (sv_uri v') (sv_files v')) as [fc|]; try contradiction.
    + destruct C as [_ (q & q' & ms & E)]. exists q, q', ms, (fc_macros fc), (fc_path_time fc). split; auto.
      pose proof (find_line_spec line (fc_path_time fc)) as S. destruct (find_line line (fc_path_time fc)) as [s|].
      * left. exists s. split; auto. split; reflexivity.
      * right. split; auto.
    + reflexivity.
  - exfalso. eapply H0; [exact M|cbn; tauto].
Qed.
Print Assumptions C47_resolve_partial.

(** The summary of a document is its text. *)
Definition env : server_env :=
  mkEnv unit (fun _ s => Ok (tt, ([], [], [(0, s)]))) (Ok (mkCodes [] [])) (Ok (mkCodes [] [])) (Ok (mkMD [] [], None)) (fun _ => JNull) false.
Definition open (u t : string) : json :=
  JObj [("method", JStr "textDocument/didOpen"); ("params", JObj [("textDocument", JObj [("uri", JStr u); ("text", JStr t)])])].
Definition lenses (u : string) : json :=
  JObj [("id", JInt 1); ("method", JStr "textDocument/codeLens"); ("params", JObj [("textDocument", JObj [("uri", JStr u)])])].
Definition at0 : json := JObj [("start", JObj [("line", JInt 0); ("character", JInt 0)])].
Definition resolve : json := JObj [("id", JInt 2); ("method", JStr "codeLens/resolve"); ("params", JObj [("range", at0)])].

(** A lens received for one document, resolved after the lenses of another were
    asked for, shows the other's summary. *)
Theorem C47_other_document_refuted : exists v p n1 n2 ra l rb v' p' r,
  handle_all env (server_init, tt) [open "a" "one"; open "b" "two"; lenses "a"; lenses "b"] = Ok (v, p, [[n1]; [n2]; [ra]; [rb]]) /\
  at_path ra ["result"] = Some (JArr [l]) /\ at_path l ["range"; "start"] = at_path at0 ["start"] /\
  at_path l ["command"; "title"] = Some (JStr "one") /\
  handle env (v, p) resolve = Ok (v', p', [r]) /\ lens_shown r at0 "two".
Proof.
  do 10 eexists. split; [vm_compute; reflexivity|]. split; [vm_compute; reflexivity|]. split; [reflexivity|]. split; [reflexivity|].
  split; [vm_compute; reflexivity|]. split; reflexivity.
Qed.
Print Assumptions C47_other_document_refuted.

Example C47_ex : exists v p outs v' p' r,
  handle_all env (server_init, tt) ([open "a" "one"; open "b" "two"; lenses "b"] ++ lenses "a" :: [open "a" "three"]) = Ok (v, p, outs) /\
  List.length outs = 5%nat /\
  last_text ([Sent "a" "one"; Sent "b" "two"; Other] ++ [Other; Sent "a" "three"]) "a" None = Some "three" /\
  handle env (v, p) resolve = Ok (v', p', [r]) /\ resolves resolve at0 0 /\ lens_shown r at0 "three".
Proof.
  do 6 eexists. split; [vm_compute; reflexivity|]. split; [reflexivity|]. split; [reflexivity|]. split; [vm_compute; reflexivity|].
  repeat split.
Qed.
