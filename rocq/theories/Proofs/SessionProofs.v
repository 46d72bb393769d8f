(** The server with its parser. *)
From Verif Require Import Model.Base Model.Attr Model.Double Model.Macro Model.Verifiers Model.PathCalc Model.Enums Model.NCText Model.MacrosDesc Model.Server.
From Verif Require Import Model.Parser Model.Messages Model.Settings Model.Document Model.Session.
From Verif Require Import Spec.Text Spec.NCTextSpec Spec.ServerSpec Spec.DocumentSpec.
From Verif Require Import Proofs.Tactics Proofs.NCTextProofs Proofs.ServerProofs Proofs.DocumentProofs Proofs.PlacedProofs.
Local Open Scope string_scope.
Local Open Scope Z_scope.

Section Session.
Variable lit : string -> dbl.
Variable libm : string -> dbl -> dbl.
Variables atan log cabs : dbl -> dbl.
Variable stale : Z.
Variable range_what : string.
Variable left : settings.
Variable d : disk.
Variables gcodes mcodes : res codes.
Variable macros : res (macros_desc * option string).
Variable macro_error : string -> json.
Variable logger : bool.
Variables n0 n1 : nc_parser.
Hypothesis O : opening left d n0 = (n1, None).

Notation env := (session_env lit libm atan log cabs stale range_what left d gcodes mcodes macros macro_error logger).
Notation run := (run_document lit libm atan log cabs stale range_what).

Lemma session_parse_run p t p' r : p = n0 \/ p = n1 ->
  session_parse lit libm atan log cabs stale range_what left d p t = Ok (p', r) -> p' = n1 /\ run t n1 = Ok r.
Proof.
  unfold session_parse. intros P H.
  assert (E : nc_parse lit libm atan log cabs stale range_what left d t p = (n1, run t n1)).
  { destruct P as [-> | ->].
    - unfold nc_parse. fold (opening left d). now rewrite O.
    - apply parse_ready. exact (opening_makes_ready _ _ _ _ O). }
  rewrite E in H. destruct (run t n1); [|discriminate]. now inv H.
Qed.

(** A document whose last text is [t] has the results of a run on [t]. *)
Definition ran (t : option string) (fc : option file_context) : Prop :=
  match t, fc with
  | None, None => True
  | Some t, Some fc => fc_lines fc = content_lines t /\ exists ms, run t n1 = Ok (ms, fc_macros fc, fc_path_time fc)
  | _, _ => False
  end.

(** What a text sent amounts to. *)
Lemma sent_publish m v p v' p' out u t : step env m v p v' p' out -> says m (Sent u t) -> single_change m -> no_zero u -> no_zero t ->
  exists n, out = [n] /\ publish env v p u t = Ok (v', p', n).
Proof.
  intros H Y G Zu Zt.
  inversion Y; subst; inversion H; subst;
    try (match goal with X : method m ?a, Z : method m ?b |- _ => pose proof (method_fun _ _ _ X Z); discriminate end).
  - assert (u0 = u) by congruence. assert (t0 = t) by congruence. subst. match goal with X : publish _ _ _ _ _ = _ |- _ => rewrite !c_str_plain in X by assumption; eauto end.
  - exfalso. match goal with X : forall k, method m k -> _, Z : method m _ |- _ => apply (X _ Z); cbn; tauto end.
  - match goal with Z : method m _ |- _ => destruct (G Z) as [c' Q] end.
    assert (c0 = c).
    { assert (A : JArr (c0 :: cs0) = JArr [c']) by congruence. assert (B : JArr (cs ++ [c])%list = JArr [c']) by congruence.
      injection A as -> _. injection B as B. destruct cs as [|a [|b cs]]; inversion B; auto. }
    subst.
    assert (u0 = u) by congruence. assert (t0 = t) by congruence. subst. match goal with X : publish _ _ _ _ _ = _ |- _ => rewrite !c_str_plain in X by assumption; eauto end.
  - exfalso. match goal with X : forall k, method m k -> _, Z : method m _ |- _ => apply (X _ Z); cbn; tauto end.
Qed.

Lemma step_state m v p v' p' out : step env m v p v' p' out -> p = n0 \/ p = n1 -> p' = n0 \/ p' = n1.
Proof.
  intros S P. inv S; auto.
  - apply publish_inv in H2 as (ms & mm & pt & v1 & er & ds & Hp & _). apply (session_parse_run _ _ _ _ P) in Hp as [-> _]. auto.
  - apply publish_inv in H3 as (ms & mm & pt & v1 & er & ds & Hp & _). apply (session_parse_run _ _ _ _ P) in Hp as [-> _]. auto.
Qed.

Lemma step_ran m v p v' p' out e : step env m v p v' p' out -> p = n0 \/ p = n1 -> says m e -> single_change m -> event_plain e ->
  forall u t, ran t (assoc u (sv_files v)) -> ran (last_text [e] u t) (assoc u (sv_files v')).
Proof.
  intros S PP Y G P u t C.
  destruct e as [u' t'|u'|].
  - destruct P as [P1 P2]. destruct (sent_publish _ _ _ _ _ _ _ _ S Y G P1 P2) as (n & _ & H).
    apply publish_inv in H as (ms & mm & pt & v1 & er & ds & Hp & -> & Hf & _ & _).
    apply (session_parse_run _ _ _ _ PP) in Hp as [_ Hp].
    apply fetch_macros_grown in Hf as [(-> & _) _]. cbn. destruct (String.eqb_spec u' u) as [->|N].
    + rewrite String.eqb_refl. cbn. eauto.
    + destruct (String.eqb_spec u u') as [->|_]; [congruence|]. now rewrite erase_other.
  - inv Y. inv S; try (match goal with X : method m ?a, Z : method m ?b |- _ => pose proof (method_fun _ _ _ X Z); discriminate end).
    + assert (u0 = u') by congruence. subst. cbn in P. rewrite (c_str_plain u' P). cbn [set_files sv_files last_text].
      destruct (String.eqb_spec u' u) as [->|N]; [now rewrite erase_same|now rewrite erase_other].
    + exfalso. match goal with X : forall k, method m k -> _, Z : method m _ |- _ => apply (X _ Z); cbn; tauto end.
  - inv Y. inv S; try contradiction; auto.
    + apply fetch_gcodes_grown in H4 as [(E1 & _) _]. apply fetch_mcodes_grown in H5 as [(E2 & _) _]. cbn. now rewrite E2, E1.
    + apply hover_inv in H3 as (? & ? & ? & ? & ? & _ & _ & H3 & _). apply hover_line_grown in H3 as (-> & _). auto.
    + apply lens_inv in H3 as (? & u' & _ & _ & -> & _). now destruct (assoc (c_str u') (sv_files v)).
Qed.

Lemma all_state ms : forall v p v' p' outs, handle_all env (v, p) ms = Ok (v', p', outs) -> p = n0 \/ p = n1 -> p' = n0 \/ p' = n1.
Proof.
  induction ms as [|m ms IH]; intros v p v' p' outs H P; cbn [handle_all] in H; [now inv H|].
  bok H. destruct x as [[v1 p1] out]. apply handle_step in E. pose proof (step_state _ _ _ _ _ _ E P) as P1. cbn [fst] in H.
  destruct (sv_exit v1); [now inv H|]. bok H. destruct x as [[v2 p2] outs']. inv H. eauto.
Qed.

Lemma all_ran ms : forall v p v' p' outs es, handle_all env (v, p) ms = Ok (v', p', outs) -> p = n0 \/ p = n1 ->
  List.length outs = List.length ms -> Forall2 says ms es -> Forall single_change ms -> Forall event_plain es ->
  forall u t, ran t (assoc u (sv_files v)) -> ran (last_text es u t) (assoc u (sv_files v')).
Proof.
  induction ms as [|m ms IH]; intros v p v' p' outs es H PP L Y G P u t C; cbn [handle_all] in H.
  - inv H. inv Y. auto.
  - bok H. destruct x as [[v1 p1] out]. apply handle_step in E. inv Y. inv G. inv P. rewrite last_text_cons.
    pose proof (step_state _ _ _ _ _ _ E PP) as P1.
    pose proof (step_ran _ _ _ _ _ _ _ E PP H2 H3 H6 u t C) as C1. cbn [fst] in H. destruct (sv_exit v1).
    + inv H. cbn in L. destruct ms; [|discriminate]. inv H4. auto.
    + bok H. destruct x as [[v2 p2] outs']. inv H. cbn in L. eapply IH; eauto.
Qed.

(** The macro descriptions are read with the first text. *)
Lemma step_loaded m v p v' p' out : step env m v p v' p' out -> sv_macros v <> None -> sv_macros v' <> None.
Proof.
  intros S K. inv S; auto.
  - apply publish_inv in H2 as (ms & mm & pt & v1 & er & ds & _ & _ & Hf & _). now apply fetch_macros_grown in Hf.
  - apply publish_inv in H3 as (ms & mm & pt & v1 & er & ds & _ & _ & Hf & _). now apply fetch_macros_grown in Hf.
  - apply fetch_gcodes_grown in H1 as [(_ & _ & _ & _ & _ & _ & E1) _]. apply fetch_mcodes_grown in H2 as [(_ & _ & _ & _ & _ & _ & E2) _].
    rewrite E2; rewrite E1; auto.
  - apply hover_inv in H0 as (? & ? & ? & ? & ? & _ & _ & H0 & _). apply hover_line_grown in H0 as (_ & _ & _ & _ & _ & _ & E1). rewrite E1; auto.
  - apply lens_inv in H0 as (? & u' & _ & _ & -> & _). now destruct (assoc (c_str u') (sv_files v)).
Qed.

Lemma all_loaded ms : forall v p v' p' outs, handle_all env (v, p) ms = Ok (v', p', outs) -> sv_macros v <> None -> sv_macros v' <> None.
Proof.
  induction ms as [|m ms IH]; intros v p v' p' outs H K; cbn [handle_all] in H; [now inv H|].
  bok H. destruct x as [[v1 p1] out]. apply handle_step in E. pose proof (step_loaded _ _ _ _ _ _ E K) as K1. cbn [fst] in H.
  destruct (sv_exit v1); [now inv H|]. bok H. destruct x as [[v2 p2] outs']. inv H. eauto.
Qed.

Lemma sent_loads ms : forall v p v' p' outs m u t, handle_all env (v, p) ms = Ok (v', p', outs) -> List.length outs = List.length ms ->
  In m ms -> says m (Sent u t) -> sv_macros v' <> None.
Proof.
  induction ms as [|k ms IH]; intros v p v' p' outs m u t H L I Y; cbn [handle_all] in H; [contradiction|].
  bok H. destruct x as [[v1 p1] out]. apply handle_step in E. cbn [fst] in H. destruct I as [->|I].
  - assert (K : sv_macros v1 <> None).
    { inv Y; inv E; try (match goal with X : method m ?a, Z : method m ?b |- _ => pose proof (method_fun _ _ _ X Z); discriminate end);
        try (exfalso; match goal with X : forall k, method m k -> _, Z : method m _ |- _ => apply (X _ Z); cbn; tauto end);
        match goal with X : publish _ _ _ _ _ = _ |- _ => apply publish_inv in X as (? & ? & ? & ? & ? & ? & _ & _ & Hf & _) end;
        now apply fetch_macros_grown in Hf. }
    destruct (sv_exit v1); [now inv H|]. bok H. destruct x as [[v2 p2] outs']. inv H. eapply all_loaded; eauto.
  - destruct (sv_exit v1); [inv H; destruct ms; [contradiction|discriminate]|]. bok H. destruct x as [[v2 p2] outs']. inv H. cbn in L. eapply IH; eauto.
Qed.

(** ** A text sent after any messages *)

Theorem session_diagnostics ms v p outs m u t v' p' out :
  handle_all env (server_init, n0) ms = Ok (v, p, outs) ->
  handle env (v, p) m = Ok (v', p', out) -> says m (Sent u t) -> single_change m -> no_zero u -> no_zero t ->
  exists n messages mac results ds extra, out = [n] /\ run t n1 = Ok (messages, mac, results) /\
    diagnostics messages = Ok ds /\ (List.length extra <= 1)%nat /\
    (List.length outs = List.length ms -> (exists k u' t', In k ms /\ says k (Sent u' t')) -> extra = []) /\
    at_path n ["method"] = Some (JStr "textDocument/publishDiagnostics") /\
    at_path n ["params"; "uri"] = Some (JStr u) /\
    at_path n ["params"; "diagnostics"] = Some (JArr (extra ++ map diagnostic_json ds)%list).
Proof.
  intros A H Y G Zu Zt. apply handle_step in H.
  pose proof (all_state _ _ _ _ _ _ A (or_introl eq_refl)) as P.
  destruct (sent_publish _ _ _ _ _ _ _ _ H Y G Zu Zt) as (n & -> & Q).
  apply publish_inv in Q as (msg & mm & pt & v1 & e & ds & E & -> & F & D & ->).
  apply (session_parse_run _ _ _ _ P) in E as [-> E].
  eexists _, msg, mm, pt, ds, (match e with Some EmptyString => [] | Some e => [macro_error e] | None => [] end).
  split; [reflexivity|]. split; [exact E|]. split; [exact D|].
  split; [destruct e as [[|c s]|]; cbn; lia|]. split; [|repeat split; reflexivity].
  intros L (k & u' & t' & I & S). pose proof (sent_loads _ _ _ _ _ _ _ _ _ A L I S) as K.
  unfold fetch_macros in F. cbn [set_files sv_macros] in F. destruct (sv_macros v); [|contradiction]. now inv F.
Qed.

Theorem session_lenses ms es v p outs m u v' p' out :
  handle_all env (server_init, n0) ms = Ok (v, p, outs) -> List.length outs = List.length ms ->
  Forall2 says ms es -> Forall single_change ms -> Forall event_plain es ->
  method m "textDocument/codeLens" -> at_path m ["params"; "textDocument"; "uri"] = Some (JStr u) -> no_zero u ->
  handle env (v, p) m = Ok (v', p', out) ->
  exists r, out = [r] /\
  match last_text es u None with
  | None => at_path r ["result"] = Some JNull
  | Some t => exists messages mac results, run t n1 = Ok (messages, mac, results) /\
      (results = [] /\ at_path r ["result"] = Some JNull \/
       exists lenses, at_path r ["result"] = Some (JArr lenses) /\
         Forall2 (fun x l => at_path l ["range"; "start"; "line"] = Some (JInt (fst x)) /\
                             at_path l ["command"; "title"] = Some (JStr (snd x))) results lenses)
  end.
Proof.
  intros H L Y G P M U Z Hd.
  pose proof (all_ran ms _ _ _ _ _ _ H (or_introl eq_refl) L Y G P u None I) as C.
  apply handle_step in Hd. destruct Hd; try (match goal with X : method m ?k |- _ => pose proof (method_fun _ _ _ X M); discriminate end).
  2:{ exfalso. apply (H0 _ M). cbn. tauto. }
  apply lens_inv in H1 as (id & u' & _ & U' & _ & ->). assert (u' = u) by congruence. subst u'. rewrite (c_str_plain u Z).
  eexists. split; [reflexivity|]. unfold ran in C.
  destruct (last_text es u None) as [t|], (assoc u (sv_files v)) as [fc|]; try contradiction; [|reflexivity].
  destruct C as [_ (msg & C)]. exists msg, (fc_macros fc), (fc_path_time fc). split; auto.
  destruct (fc_path_time fc) as [|x l]; [left; auto|]. right. eexists. split; [reflexivity|].
  clear C. generalize (x :: l). clear. induction l; cbn; constructor; auto.
Qed.

(** ** The diagnostics stand at the rejected lines *)

Theorem session_placed ms v p outs m u t v' p' out :
  handle_all env (server_init, n0) ms = Ok (v, p, outs) ->
  handle env (v, p) m = Ok (v', p', out) -> says m (Sent u t) -> single_change m -> no_zero u -> no_zero t ->
  starts_with_letter range_what ->
  Z.of_nat (List.length (split_lines t)) <= int_max -> (forall l, In l (split_lines t) -> without "013" l) ->
  (List.length outs = List.length ms /\ exists k u' t', In k ms /\ says k (Sent u' t')) ->
  exists n p0, out = [n] /\ document_parser n1 = Ok p0 /\
    let r := rejected (verdicts (fanuc_line_parser lit libm atan log cabs stale range_what (config_of n1)) p0 1 (split_lines t)) in
    ((forall k l x, In (k, l, x) r -> clear k l x) ->
     exists js, at_path n ["params"; "diagnostics"] = Some (JArr js) /\
       Forall2 (fun '(k, l, x) j => exists ch,
         at_path j ["range"; "start"; "line"] = Some (JInt (k - 1)) /\
         at_path j ["range"; "start"; "character"] = Some (JInt ch) /\
         (without "009" l -> (ch = 0 /\ ~ exists y, x = "1:" ++ y) \/ points_at l x ch)) r js).
Proof.
  intros A H Y G Zu Zt W LL R (LO & SE).
  destruct (session_diagnostics _ _ _ _ _ _ _ _ _ _ A H Y G Zu Zt) as (n & msg & mac & res & ds & extra & -> & E & D & _ & X & _ & _ & J).
  specialize (X LO SE). subst extra. cbn [app] in J.
  unfold run_document in E. destruct (document_parser n1) as [p0|] eqn:DP; cbn [bind] in E; [|discriminate].
  destruct (parse_document (fanuc_line_parser lit libm atan log cabs stale range_what (config_of n1)) _ p0 t) as [[[msg' su] p2]|] eqn:PD; cbn [bind] in E; [|discriminate]. inv E.
  exists n, p0. split; [reflexivity|]. split; [reflexivity|]. cbv zeta. intros K.
  destruct (server_placed _ _ _ _ _ _ _ _ _ _ _ _ _ _ W PD LL R K) as (ds' & D' & F).
  assert (ds' = ds) by congruence. subst ds'. eexists. split; [exact J|].
  clear - F. induction F as [|[[k l] x] dg r ds F FF IH]; cbn [map]; constructor; auto.
  destruct F as (F1 & _ & F2). exists (dg_char dg). cbn. rewrite F1. auto.
Qed.

End Session.
