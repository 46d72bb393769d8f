(** C76: a code that completion offers shows its description, there and when
    pointed at. *)
From Verif Require Import Model.Base Model.Double Model.Macro Model.NCText Model.MacrosDesc Model.Server Model.ShippedCodes.
From Verif Require Import Spec.Text Spec.NCTextSpec Spec.DescSpec Spec.ServerSpec Spec.HoverSpec Spec.LensSpec Spec.CompletionSpec.
From Verif Require Import Proofs.Tactics Proofs.ServerProofs Proofs.LensProofs Proofs.HoverProofs Proofs.CompletionProofs Props.C46.
Local Open Scope string_scope. Local Open Scope list_scope. Local Open Scope Z_scope.

Definition file_of (gf mf : desc_file) (a : ascii) : desc_file := if Ascii.eqb a "G" then gf else mf.

(** With files in which the codes are named without superfluous zeros: every
    code that is offered is one of the file, perhaps with a zero in front; what is
    shown with it in the list, and where it stands in a document, is the first
    entry of the file. *)
Theorem C76_partial : forall env gf mf p0 ds v p outs d d' a num ls r ra v1 p1 v2 p2,
  env_gcodes env = Ok (codes_read gf) -> env_mcodes env = Ok (codes_read mf) ->
  Forall plain_name (map fst gf) -> Forall plain_name (map fst mf) ->
  handle_all env (server_init, p0) ds = Ok (v, p, outs) ->
  method d "textDocument/completion" -> handle env (v, p) d = Ok (v1, p1, [r]) ->
  items r ls -> In (String a num) ls -> a = "G"%char \/ a = "M"%char ->
  method d' "completionItem/resolve" -> at_path d' ["params"; "label"] = Some (JStr (String a num)) ->
  handle env (v1, p1) d' = Ok (v2, p2, [ra]) ->
  exists name o, In name (map fst (file_of gf mf a)) /\ (num = name \/ num = String "0" name) /\
    says_of (file_of gf mf a) name o /\ item_shown ra (String a num) o /\
    forall p0' ds' es' vh ph dh u line ch t pre suf vh' ph' out,
      after env p0' ds' es' vh ph -> hovers dh u line ch -> no_zero u -> last_text es' u None = Some t ->
      is_line t line (pre ++ String a num ++ suf) -> number_stops suf -> under ch pre (String a num) ->
      handle env (vh, ph) dh = Ok (vh', ph', out) ->
      exists rh, out = [rh] /\
        shows rh (match o with Some td => note (String a num) td | None => String a num end)
          line (String.length pre) (String.length pre + String.length (String a num)).
Proof.
  intros env gf mf p0 ds v p outs d d' a num ls r ra v1 p1 v2 p2 Eg Em Pg Pm H M Hd I In' A M' Lb Hd'.
  pose proof (offered_codes env _ _ _ _ _ _ _ _ _ _ _ _ _ _ Eg Em H M Hd I In' A) as O.
  destruct (item_reply env _ _ _ _ _ _ _ _ _ _ _ _ _ _ _ _ Eg Em H M Hd M' Lb Hd' num) as [IG IM].
  destruct (codes_faithful gf Pg) as [Fg Lg], (codes_faithful mf Pm) as [Fm Lm].
  assert (K : exists name, In name (map fst (file_of gf mf a)) /\ (num = name \/ (add_synonym name = true /\ num = String "0" name)) /\
    plain_name name /\ item_shown ra (String a num) (assoc name (entries (file_of gf mf a))) /\
    assoc name (co_data (table (codes_read gf) (codes_read mf) a)) = assoc name (entries (file_of gf mf a))).
  { destruct O as [[-> C]|[-> C]]; cbn [file_of table Ascii.eqb orb Bool.eqb].
    - apply Lg in C as (n & N & C). pose proof (proj1 (Forall_forall _ _) Pg n N) as P. exists n. destruct (Fg n P) as [F1 F2].
      split; auto. split; auto. split; auto. split; [|exact F1]. specialize (IG eq_refl).
      destruct C as [->|[S ->]]; [rewrite F1 in IG|rewrite (F2 S) in IG]; exact IG.
    - apply Lm in C as (n & N & C). pose proof (proj1 (Forall_forall _ _) Pm n N) as P. exists n. destruct (Fm n P) as [F1 F2].
      split; auto. split; auto. split; auto. split; [|exact F1]. specialize (IM eq_refl).
      destruct C as [->|[S ->]]; [rewrite F1 in IM|rewrite (F2 S) in IM]; exact IM. }
  destruct K as (name & N & C & P & S & T). exists name, (assoc name (entries (file_of gf mf a))).
  split; auto. split; [destruct C as [->|[_ ->]]; auto|]. split; [now apply says_assoc|]. split; auto.
  intros p0' ds' es' vh ph dh u line ch t pre suf vh' ph' out Af Hv Z La Li St U Hh.
  assert (CL : code_letter a) by (destruct A as [-> | ->]; unfold code_letter; auto).
  destruct (C46_code env _ _ _ _ _ _ _ _ _ _ _ _ _ _ _ _ _ _ _ _ _ Eg Em Af Hv Z La Li
    (listed_word _ _ _ _ P C CL St) (listed_key _ _ P C) U Hh) as (rh & E & Sh).
  exists rh. split; auto. rewrite T in Sh. exact Sh.
Qed.
Print Assumptions C76_partial.

(** All files the project ships are such files, but the M codes of the two
    generic machines. *)
Theorem C76_shipped :
  (forall m ns, In (m, ns) shipped_gcodes -> Forall plain_name ns) /\
  (forall m ns, In (m, ns) shipped_mcodes -> m <> "generic_mill" -> m <> "generic_lathe" -> Forall plain_name ns) /\
  map fst shipped_gcodes = map fst shipped_mcodes.
Proof.
  split; [|split; [|reflexivity]].
  - intros m ns H. apply plain_names_spec.
    assert (B : forallb (fun x => forallb plain_nameb (snd x)) shipped_gcodes = true) by (vm_compute; reflexivity).
    rewrite forallb_forall in B. exact (B _ H).
  - intros m ns H N1 N2. apply plain_names_spec.
    assert (B : forallb (fun x => String.eqb (fst x) "generic_mill" || String.eqb (fst x) "generic_lathe" || forallb plain_nameb (snd x))
      shipped_mcodes = true) by (vm_compute; reflexivity).
    rewrite forallb_forall in B. specialize (B _ H). cbn in B.
    apply String.eqb_neq in N1, N2. rewrite N1, N2 in B. exact B.
Qed.
Print Assumptions C76_shipped.

(** A server with the M codes of the generic mill. *)
Definition mill_env (gf mf : desc_file) : server_env :=
  mkEnv unit (fun _ s => Ok (tt, ([], [], []))) (Ok (codes_read gf)) (Ok (codes_read mf))
        (Ok (mkMD [] [], None)) (fun _ => JNull) false.
Definition complete : json := JObj [("id", JInt 1); ("method", JStr "textDocument/completion")].
Definition about (l : string) : json :=
  JObj [("id", JInt 2); ("method", JStr "completionItem/resolve"); ("params", JObj [("label", JStr l)])].

Lemma mill_after gf mf u t v p : (exists outs, handle_all (mill_env gf mf) (server_init, tt) [open u t] = Ok (v, p, outs) /\ List.length outs = 1%nat) ->
  no_zero u -> no_zero t -> after (mill_env gf mf) tt [open u t] [Sent u t] v p.
Proof.
  intros (outs & H & L) Zu Zt. exists outs. split; auto. split; auto. split; [|split].
  - constructor; [apply says_open; reflexivity|constructor].
  - constructor; [|constructor]. intro M. discriminate M.
  - constructor; [split; auto|constructor].
Qed.

(** The file of the generic mill names M03 with its zero: the list shows what it
    is, the document does not. *)
Theorem C76_zero_refuted :
  let env := mill_env [] generic_mill_mcode_file in
  generic_mill_mcodes = map fst generic_mill_mcode_file /\
  exists v p v1 p1 r ls v2 p2 ra v3 p3 rh,
  after env tt [open "f" "S500 M03"] [Sent "f" "S500 M03"] v p /\
  handle env (v, p) complete = Ok (v1, p1, [r]) /\ items r ls /\ In "M03" ls /\
  handle env (v1, p1) (about "M03") = Ok (v2, p2, [ra]) /\ item_shown ra "M03" (Some ("Spindle ON (CW Rotation)", "")) /\
  handle env (v, p) (ask "f" 0 6) = Ok (v3, p3, [rh]) /\ shows rh "M03" 0 5 8.
Proof.
  split; [reflexivity|]. do 5 eexists. exists (map (String "M") generic_mill_mcodes). do 6 eexists.
  split; [apply mill_after; [eexists; split; [vm_compute; reflexivity|reflexivity]|zeros|zeros]|].
  split; [vm_compute; reflexivity|]. split; [exact (items_of 1 (map (String "M") generic_mill_mcodes))|]. split; [vm_compute; tauto|].
  split; [vm_compute; reflexivity|]. split; [repeat split|]. split; [vm_compute; reflexivity|]. repeat split.
Qed.
Print Assumptions C76_zero_refuted.

(** A table for which the first theorem applies: M03 shows the entry for 3. *)
Example C76_ex :
  let gf := [("0", [("Rapid", "fast")]); ("54.1", [("Offset", "")])] in
  let mf := [("3", [("Spindle", "clockwise"); ("Other", "")]); ("30", [("End", "")])] in
  let env := mill_env gf mf in
  Forall plain_name (map fst gf) /\ Forall plain_name (map fst mf) /\
  exists v p v1 p1 r ls v2 p2 ra v3 p3 rh,
  after env tt [open "f" "S500 M03"] [Sent "f" "S500 M03"] v p /\
  handle env (v, p) complete = Ok (v1, p1, [r]) /\ items r ls /\ In "M03" ls /\ In "G00" ls /\ In "G54.1" ls /\ ~ In "G054.1" ls /\
  handle env (v1, p1) (about "M03") = Ok (v2, p2, [ra]) /\ item_shown ra "M03" (Some ("Spindle", "clockwise")) /\
  handle env (v, p) (ask "f" 0 6) = Ok (v3, p3, [rh]) /\ shows rh (note "M03" ("Spindle", "clockwise")) 0 5 8.
Proof.
  split; [apply plain_names_spec; reflexivity|]. split; [apply plain_names_spec; reflexivity|]. do 5 eexists. exists ["G0"; "G00"; "G54.1"; "M3"; "M03"; "M30"]. do 6 eexists.
  split; [apply mill_after; [eexists; split; [vm_compute; reflexivity|reflexivity]|zeros|zeros]|].
  split; [vm_compute; reflexivity|]. split; [exact (items_of 1 ["G0"; "G00"; "G54.1"; "M3"; "M03"; "M30"])|].
  split; [vm_compute; tauto|]. split; [vm_compute; tauto|]. split; [vm_compute; tauto|].
  split; [vm_compute; intuition discriminate|].
  split; [vm_compute; reflexivity|]. split; [repeat split|]. split; [vm_compute; reflexivity|]. repeat split.
Qed.
