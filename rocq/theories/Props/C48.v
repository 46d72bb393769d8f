(** C48: completion offers the codes of the tables. *)
From Coq Require Import Permutation.
From Verif Require Import Model.Base Model.Double Model.Macro Model.NCText Model.MacrosDesc Model.Server.
From Verif Require Import Spec.ServerSpec Spec.LensSpec Proofs.Tactics Proofs.ServerProofs Proofs.DescProofs Proofs.LensProofs.

(** After any history, the completion list has every code of the tables as often
    as the table has it, numbered from one, and the macro variables once some
    document has been sent. *)
Theorem C48_offered : forall env gc mc md e p0 ds es v p outs d v' p' out,
  env_gcodes env = Ok gc -> env_mcodes env = Ok mc -> env_macros env = Ok (md, e) ->
  handle_all env (server_init, p0) ds = Ok (v, p, outs) -> List.length outs = List.length ds -> Forall2 says ds es ->
  method d "textDocument/completion" -> handle env (v, p) d = Ok (v', p', out) ->
  exists r ls macros, out = [r] /\ items r ls /\
    Permutation ls (map (String "G") (co_codes gc) ++ map (String "M") (co_codes mc) ++ macros) /\
    (some_text es -> e = None -> macros = map (String "#") (map fst (md_data md))) /\
    (~ some_text es \/ e <> None -> macros = []).
Proof.
  intros env gc mc md e p0 ds es v p outs d v' p' out Eg Em Ed H L Y M Hd.
  destruct (all_good env ds _ _ _ _ _ H (good_init env)) as (GS & _).
  destruct (completion_reply env v p d v' p' out gc mc GS Eg Em M Hd) as (r & ls & -> & I & P).
  pose proof (all_macros env ds _ _ _ _ _ _ H L Y) as K.
  exists r, ls. eexists. split; [reflexivity|]. split; [exact I|]. split; [exact P|].
  destruct GS as [(_ & _ & S & _) _]. rewrite Ed. split.
  - intros T ->. destruct (sv_macros v) as [md'|] eqn:X; [|exfalso; apply (proj2 K (or_intror T)); auto].
    destruct (S md' eq_refl) as [e' Q]. assert (md' = md) by congruence. subst. reflexivity.
  - intros [T|T]; [|destruct e; [now destruct (sv_macros v)|congruence]].
    destruct (sv_macros v) as [md'|] eqn:X; auto. exfalso. destruct (proj1 K) as [Q|Q]; try discriminate; auto.
Qed.
Print Assumptions C48_offered.

(** Completing an item shows the entry of the table. *)
Theorem C48_resolved : forall env gc mc p0 ds v p outs d d' l r ra v1 p1 v2 p2,
  env_gcodes env = Ok gc -> env_mcodes env = Ok mc ->
  handle_all env (server_init, p0) ds = Ok (v, p, outs) ->
  method d "textDocument/completion" -> handle env (v, p) d = Ok (v1, p1, [r]) ->
  method d' "completionItem/resolve" -> at_path d' ["params"; "label"] = Some (JStr l) ->
  handle env (v1, p1) d' = Ok (v2, p2, [ra]) ->
  forall c t, (l = String "G" c /\ In (c, t) (co_data gc) /\ (forall t', In (c, t') (co_data gc) -> t' = t)) \/
              (l = String "M" c /\ In (c, t) (co_data mc) /\ (forall t', In (c, t') (co_data mc) -> t' = t)) ->
  at_path ra ["result"; "label"] = Some (JStr l) /\
  at_path ra ["result"; "detail"] = Some (if String.eqb (fst t) "" then JNull else JStr (fst t)) /\
  at_path ra ["result"; "documentation"] = Some (if String.eqb (snd t) "" then JNull else JStr (snd t)).
Proof.
  intros env gc mc p0 ds v p outs d d' l r ra v1 p1 v2 p2 Eg Em H M Hd M' Lb Hd' c t K.
  destruct (all_good env ds _ _ _ _ _ H (good_init env)) as (GS & _).
  assert (T : sv_gcodes v1 = Some gc /\ sv_mcodes v1 = Some mc).
  { apply handle_step in Hd. inv Hd; try (match goal with X : method d ?k |- _ => pose proof (method_fun _ _ _ X M); discriminate end).
    - match goal with X : fetch_gcodes _ _ = _, Y : fetch_mcodes _ _ = _ |- _ => rename X into H3x, Y into H5x end. pose proof (fetch_gcodes_sound _ _ _ (proj1 GS) H3x) as S1. pose proof (fetch_mcodes_sound _ _ _ S1 H5x) as (A & B & _).
      pose proof (fetch_gcodes_grown _ _ _ H3x) as [_ N1]. pose proof (fetch_mcodes_grown _ _ _ H5x) as [(_ & _ & _ & _ & Q & _) N2]. specialize (Q N1).
      split.
      + destruct (sv_gcodes v1) as [x|]; [|congruence]. rewrite (A x eq_refl) in Eg. congruence.
      + destruct (sv_mcodes v1) as [x|]; [|congruence]. rewrite (B x eq_refl) in Em. congruence. }
  destruct T as [Tg Tm].
  assert (AS : forall m, In (c, t) m -> (forall t', In (c, t') m -> t' = t) -> assoc c m = Some t).
  { intros m I U. destruct (assoc c m) as [t'|] eqn:X; [f_equal; apply U; now apply assoc_in|exfalso; now apply (proj1 (assoc_none c m) X t)]. }
  apply handle_step in Hd'. inv Hd'; try (match goal with X : method d' ?k |- _ => pose proof (method_fun _ _ _ X M'); discriminate end).
  match goal with X : resolve_item _ _ _ = _ |- _ => rename X into HR end. unfold resolve_item in HR. apply bind_ok in HR as (ji & _ & HR). apply bind_ok in HR as (id & _ & HR). apply bind_ok in HR as (ps & Ep & HR).
  apply at_path_cons in Lb as (params & G1 & Lb). apply at_path_one in Lb. apply get_member in G1. rewrite G1 in Ep. injection Ep as <-.
  apply bind_ok in HR as (lab & El & HR). rewrite Lb in El. injection El as <-.
  apply bind_ok in HR as (f1 & E1 & HR). apply bind_ok in HR as (f2 & E2 & HR). apply bind_ok in HR as (f3 & E3 & HR).
  apply bind_ok in HR as (l' & El & HR). injection El as <-. apply bind_ok in HR as (td & Etd & HR). injection HR as <-.
  assert (td = t).
  { destruct K as [(-> & I & U)|(-> & I & U)]; cbn in Etd.
    - rewrite Tg in Etd. cbn in Etd. rewrite (AS _ I U) in Etd. congruence.
    - rewrite Tm in Etd. cbn in Etd. rewrite (AS _ I U) in Etd. congruence. }
  subst td.
  assert (CP : forall k f, copied params k = Ok f -> f = [] \/ exists x, f = [(k, x)]).
  { intros k f Q. unfold copied in Q. apply bind_ok in Q as ([x|] & _ & Q); inv Q; eauto. }
  split; [reflexivity|].
  assert (DE : forall s, dec_or_empty s = if String.eqb s "" then JNull else JStr s) by (intros [|]; reflexivity).
  rewrite <- !DE.
  destruct (CP _ _ E1) as [-> |(x1 & ->)], (CP _ _ E2) as [-> |(x2 & ->)], (CP _ _ E3) as [-> |(x3 & ->)]; split; reflexivity.
Qed.
Print Assumptions C48_resolved.

Definition env (e : option string) : server_env :=
  mkEnv unit (fun _ s => Ok (tt, ([], [], []))) (Ok (mkCodes [("1", ("Line", "moves"))] ["0"; "1"])) (Ok (mkCodes [] ["3"]))
        (Ok (mkMD [("100", ("Own", ""))] [], e)) (fun _ => JNull) false.
Definition open (u t : string) : json :=
  JObj [("method", JStr "textDocument/didOpen"); ("params", JObj [("textDocument", JObj [("uri", JStr u); ("text", JStr t)])])].
Definition complete : json := JObj [("id", JInt 1); ("method", JStr "textDocument/completion")].

(** With a faulty description file of the user, no macro variable is offered,
    although some are described. *)
Theorem C48_faulty_file_refuted : exists v p outs v' p' r md,
  handle_all (env (Some "error")) (server_init, tt) [open "f" ""] = Ok (v, p, outs) /\ sv_macros v = Some md /\ In ("100", ("Own", "")) (md_data md) /\
  handle (env (Some "error")) (v, p) complete = Ok (v', p', [r]) /\ items r ["G0"; "G1"; "M3"].
Proof.
  do 7 eexists. split; [vm_compute; reflexivity|]. split; [reflexivity|]. split; [left; reflexivity|]. split; [vm_compute; reflexivity|].
  exact (items_of 1 ["G0"; "G1"; "M3"]).
Qed.
Print Assumptions C48_faulty_file_refuted.

Example C48_ex : exists v p outs v' p' r,
  handle_all (env None) (server_init, tt) [open "f" ""] = Ok (v, p, outs) /\ List.length outs = 1%nat /\
  some_text [Sent "f" ""] /\ Forall2 says [open "f" ""] [Sent "f" ""] /\ method complete "textDocument/completion" /\
  handle (env None) (v, p) complete = Ok (v', p', [r]) /\ items r ["#100"; "G0"; "G1"; "M3"].
Proof.
  do 6 eexists. split; [vm_compute; reflexivity|]. split; [reflexivity|]. split; [exists "f", ""; left; reflexivity|].
  split; [constructor; [apply says_open; reflexivity|constructor]|]. split; [reflexivity|]. split; [vm_compute; reflexivity|].
  exact (items_of 1 ["#100"; "G0"; "G1"; "M3"]).
Qed.
