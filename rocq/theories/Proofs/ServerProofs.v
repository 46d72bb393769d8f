(** The message handler: proofs. *)
From Coq Require Import Permutation.
From Verif Require Import Model.Base Model.Double Model.Macro Model.NCText Model.MacrosDesc Model.Server.
From Verif Require Import Spec.Text Spec.NCTextSpec Spec.ServerSpec.
From Verif Require Import Proofs.Tactics Proofs.TextProofs Proofs.StringFacts Proofs.FramingProofs Proofs.DescProofs Proofs.NCTextProofs.

Lemma bind_ok {A B} (r : res A) (f : A -> res B) y : bind r f = Ok y -> exists x, r = Ok x /\ f x = Ok y.
Proof. destruct r; cbn; [eauto|discriminate]. Qed.

Ltac bok H := let x := fresh "x" in let E := fresh "E" in apply bind_ok in H as (x & E & H).

(** ** Paths *)

Lemma find_assoc {A} k (l : list (string * A)) :
  match find (fun e => String.eqb k (fst e)) l with Some (_, v) => Some v | None => None end = assoc k l.
Proof. induction l as [|[k' v] l IH]; cbn; auto. now destruct (String.eqb k k'). Qed.

Lemma at_path_cons j k ks v : at_path j (k :: ks) = Some v <-> exists x, get j k = Ok x /\ at_path x ks = Some v.
Proof.
  unfold get, member. destruct j; cbn; try (split; [discriminate|intros (? & H & _); discriminate]).
  rewrite <- find_assoc. destruct (find _ l) as [[k' x]|]; cbn.
  - split; [eauto|]. intros (y & H & Q). inv H. auto.
  - split; [discriminate|]. intros (y & H & _). discriminate.
Qed.

Lemma at_path_one j k v : at_path j [k] = Some v <-> get j k = Ok v.
Proof. rewrite at_path_cons. split; [intros (x & H & Q); cbn in Q; congruence|intro H; exists v; auto]. Qed.

Lemma get_member j k v : get j k = Ok v <-> member j k = Ok (Some v).
Proof. unfold get. destruct (member j k) as [[x|]|]; cbn; split; congruence. Qed.

Lemma method_fun d m m' : method d m -> method d m' -> m = m'.
Proof. unfold method. congruence. Qed.

Lemma c_str_plain s : no_zero s -> c_str s = s.
Proof.
  intro H. unfold c_str. induction s as [|c s IH]; cbn; auto.
  destruct (Ascii.eqb_spec c "000") as [->|N]; cbn.
  - exfalso. now apply (H "" s).
  - assert (K : no_zero s) by (intros p q ->; now apply (H (String c p) q)).
    specialize (IH K). destruct (span _ s). cbn in *. now rewrite IH.
Qed.

(** ** One message *)

Section Handler.
Variable env : server_env.

Inductive step (d : json) (v : server) (p : env_parser env) : server -> env_parser env -> list json -> Prop :=
| st_init id : method d "initialize" -> request_id d = Ok id -> step d v p v p [response id capabilities]
| st_open u t v' p' n : method d "textDocument/didOpen" ->
    at_path d ["params"; "textDocument"; "uri"] = Some (JStr u) -> at_path d ["params"; "textDocument"; "text"] = Some (JStr t) ->
    publish env v p (c_str u) (c_str t) = Ok (v', p', n) -> step d v p v' p' [n]
| st_change u t c cs v' p' n : method d "textDocument/didChange" ->
    at_path d ["params"; "textDocument"; "uri"] = Some (JStr u) ->
    at_path d ["params"; "contentChanges"] = Some (JArr (c :: cs)) -> at_path c ["text"] = Some (JStr t) ->
    publish env v p (c_str u) (c_str t) = Ok (v', p', n) -> step d v p v' p' [n]
| st_close u : method d "textDocument/didClose" -> at_path d ["params"; "textDocument"; "uri"] = Some (JStr u) ->
    step d v p (set_files v (erase (c_str u) (sv_files v))) p []
| st_comp id v1 v2 : method d "textDocument/completion" -> request_id d = Ok id ->
    fetch_gcodes env v = Ok v1 -> fetch_mcodes env v1 = Ok v2 ->
    step d v p v2 p [response id (JArr (completion_items 1 (sv_suggestions v2)))]
| st_resolve r : method d "completionItem/resolve" -> resolve_item env v d = Ok r -> step d v p v p [r]
| st_hover v' r : method d "textDocument/hover" -> hover env v d = Ok (v', r) -> step d v p v' p [r]
| st_lens v' r : method d "textDocument/codeLens" -> code_lens v d = Ok (v', r) -> step d v p v' p [r]
| st_lens_resolve r : method d "codeLens/resolve" -> resolve_lens v d = Ok r -> step d v p v p [r]
| st_shutdown id : method d "shutdown" -> request_id d = Ok id -> step d v p (set_exit v) p [response id JNull]
| st_exit : method d "exit" -> step d v p (set_exit v) p []
| st_none : (forall m, method d m -> ~ In m (request_methods ++ ["textDocument/didOpen"; "textDocument/didChange"; "textDocument/didClose"; "exit"])%list) ->
    step d v p v p [].

Lemma get_string_ok j s : get_string j = Ok s -> j = JStr s.
Proof. destruct j; cbn; congruence. Qed.
Lemma get_c_string_ok j s : get_c_string j = Ok s -> exists s', j = JStr s' /\ s = c_str s'.
Proof. unfold get_c_string. intro H. bok H. apply get_string_ok in E as ->. inv H. eauto. Qed.
Lemma get_int_ok j n : get_int j = Ok n -> j = JInt n.
Proof. destruct j; cbn; try discriminate. destruct (is_int n0); congruence. Qed.

Ltac path := repeat (apply at_path_cons; eexists; split; [eassumption|]); reflexivity.

Lemma handle_step d v p v' p' out : handle env (v, p) d = Ok (v', p', out) -> step d v p v' p' out.
Proof.
  unfold handle. intro H. bok H. rename x into id, E into Eid. bok H. rename x into om, E into Em.
  bok H. rename x into m, E into Es.
  assert (M : forall m', method d m' <-> om = Some (JStr m')).
  { intro m'. unfold method. rewrite at_path_one, get_member, Em. split; congruence. }
  assert (M' : om = Some (JStr m) \/ (om = None /\ m = "")).
  { destruct om as [j|]; [left; apply get_string_ok in Es as ->; auto|right; inv Es; auto]. }
  assert (MM : forall k, m = k -> k <> "" -> method d k).
  { intros k -> N. apply M. destruct M' as [->|[_ ->]]; auto. congruence. }
  destruct (String.eqb_spec m "initialize") as [Q|N1]; [inv H; apply st_init; auto; apply MM; auto; discriminate|].
  destruct (String.eqb_spec m "textDocument/didOpen") as [Q|N2].
  { apply MM in Q; [|discriminate]. bok H. bok H. bok H. bok H. bok H. bok H. bok H. destruct x5 as [[v1 p1] n]. inv H.
    apply get_c_string_ok in E2 as (u & -> & ->). apply get_c_string_ok in E4 as (t & -> & ->).
    eapply st_open; eauto; path. }
  destruct (String.eqb_spec m "textDocument/didChange") as [Q|N3].
  { apply MM in Q; [|discriminate]. bok H. bok H. bok H. bok H. bok H. bok H. bok H. bok H. bok H. destruct x7 as [[v1 p1] n]. inv H.
    apply get_c_string_ok in E3 as (u & -> & ->). apply get_c_string_ok in E6 as (t & -> & ->).
    destruct x1 as [| | | | |[|c cs]|]; try discriminate. inv E4.
    eapply st_change; eauto; path. }
  destruct (String.eqb_spec m "textDocument/didClose") as [Q|N4].
  { apply MM in Q; [|discriminate]. bok H. bok H. bok H. bok H. inv H.
    apply get_c_string_ok in E2 as (u & -> & ->). apply st_close; auto; path. }
  destruct (String.eqb_spec m "textDocument/completion") as [Q|N5].
  { apply MM in Q; [|discriminate]. bok H. bok H. inv H. eapply st_comp; eauto. }
  destruct (String.eqb_spec m "completionItem/resolve") as [Q|N6].
  { apply MM in Q; [|discriminate]. bok H. inv H. eapply st_resolve; eauto. }
  destruct (String.eqb_spec m "textDocument/hover") as [Q|N7].
  { apply MM in Q; [|discriminate]. bok H. destruct x as [v1 r]. inv H. eapply st_hover; eauto. }
  destruct (String.eqb_spec m "textDocument/codeLens") as [Q|N8].
  { apply MM in Q; [|discriminate]. bok H. destruct x as [v1 r]. inv H. eapply st_lens; eauto. }
  destruct (String.eqb_spec m "codeLens/resolve") as [Q|N9].
  { apply MM in Q; [|discriminate]. bok H. inv H. eapply st_lens_resolve; eauto. }
  destruct (String.eqb_spec m "shutdown") as [Q|N10].
  { apply MM in Q; [|discriminate]. inv H. eapply st_shutdown; eauto. }
  destruct (String.eqb_spec m "exit") as [Q|N11].
  { apply MM in Q; [|discriminate]. inv H. eapply st_exit; eauto. }
  inv H. apply st_none. intros m' Hm I. apply M in Hm. destruct M' as [Q|[Q _]]; [|congruence].
  assert (m' = m) by congruence. subst m'. cbn in I. intuition congruence.
Qed.

(** ** What changes *)

(** [v'] is [v] with perhaps more tables loaded. *)
Definition grown (v v' : server) : Prop :=
  sv_files v' = sv_files v /\ sv_uri v' = sv_uri v /\ sv_exit v' = sv_exit v /\
  (forall l, In l (sv_suggestions v) -> In l (sv_suggestions v')) /\
  (sv_gcodes v <> None -> sv_gcodes v' = sv_gcodes v) /\ (sv_mcodes v <> None -> sv_mcodes v' = sv_mcodes v) /\
  (sv_macros v <> None -> sv_macros v' = sv_macros v).

Lemma grown_refl v : grown v v.
Proof. unfold grown. intuition. Qed.
Lemma grown_trans a b c : grown a b -> grown b c -> grown a c.
Proof.
  unfold grown. intros (A1 & A2 & A3 & A4 & A5 & A6 & A7) (B1 & B2 & B3 & B4 & B5 & B6 & B7).
  repeat split; try congruence; auto.
  - intro H. rewrite B5; auto. rewrite A5; auto.
  - intro H. rewrite B6; auto. rewrite A6; auto.
  - intro H. rewrite B7; auto. rewrite A7; auto.
Qed.

Lemma fetch_gcodes_grown v v' : fetch_gcodes env v = Ok v' -> grown v v' /\ sv_gcodes v' <> None.
Proof.
  unfold fetch_gcodes. destruct (sv_gcodes v) eqn:E; intro H; [inv H; split; [apply grown_refl|congruence]|].
  bok H. inv H. unfold grown. cbn. rewrite E. repeat split; auto; try congruence. intros l I. apply in_app_iff. auto.
Qed.
Lemma fetch_mcodes_grown v v' : fetch_mcodes env v = Ok v' -> grown v v' /\ sv_mcodes v' <> None.
Proof.
  unfold fetch_mcodes. destruct (sv_mcodes v) eqn:E; intro H; [inv H; split; [apply grown_refl|congruence]|].
  bok H. inv H. unfold grown. cbn. rewrite E. repeat split; auto; try congruence. intros l I. apply in_app_iff. auto.
Qed.
Lemma fetch_macros_grown v v' e : fetch_macros env v = Ok (v', e) -> grown v v' /\ sv_macros v' <> None.
Proof.
  unfold fetch_macros. destruct (sv_macros v) eqn:E; intro H; [inv H; split; [apply grown_refl|congruence]|].
  bok H. destruct x as [md err]. inv H. unfold grown. cbn. rewrite E. repeat split; auto; try congruence. intros l I. apply in_app_iff. auto.
Qed.

(** The tables and suggestions come from the files, each file once. *)
Definition table_suggestions (v : server) : list string :=
  (match sv_gcodes v with Some c => prefixed "G" (co_codes c) | None => [] end ++
   match sv_mcodes v with Some c => prefixed "M" (co_codes c) | None => [] end ++
   match sv_macros v with
   | Some md => match env_macros env with Ok (_, None) => prefixed "#" (map fst (md_data md)) | _ => [] end
   | None => []
   end)%list.

Definition sound_tables (v : server) : Prop :=
  (forall c, sv_gcodes v = Some c -> env_gcodes env = Ok c) /\
  (forall c, sv_mcodes v = Some c -> env_mcodes env = Ok c) /\
  (forall m, sv_macros v = Some m -> exists e, env_macros env = Ok (m, e)) /\
  Permutation (sv_suggestions v) (table_suggestions v).

Lemma fetch_gcodes_sound v v' : sound_tables v -> fetch_gcodes env v = Ok v' -> sound_tables v'.
Proof.
  unfold fetch_gcodes. destruct (sv_gcodes v) eqn:E; intros S H; [now inv H|].
  destruct S as (S1 & S2 & S3 & S4). bok H. inv H. unfold sound_tables, table_suggestions in *. cbn. rewrite E in S4.
  repeat split; auto; [intros c Q; congruence|]. cbn in S4.
  etransitivity; [apply Permutation_app_tail, S4|]. apply Permutation_app_comm.
Qed.
Lemma fetch_mcodes_sound v v' : sound_tables v -> fetch_mcodes env v = Ok v' -> sound_tables v'.
Proof.
  unfold fetch_mcodes. destruct (sv_mcodes v) eqn:E; intros S H; [now inv H|].
  destruct S as (S1 & S2 & S3 & S4). bok H. inv H. unfold sound_tables, table_suggestions in *. cbn. rewrite E in S4.
  repeat split; auto; [intros c Q; congruence|]. cbn in S4.
  etransitivity; [apply Permutation_app_tail, S4|]. rewrite <- app_assoc. apply Permutation_app_head. apply Permutation_app_comm.
Qed.
Lemma fetch_macros_sound v v' e : sound_tables v -> fetch_macros env v = Ok (v', e) -> sound_tables v'.
Proof.
  unfold fetch_macros. destruct (sv_macros v) eqn:E; intros S H; [now inv H|].
  destruct S as (S1 & S2 & S3 & S4). bok H. destruct x as [md err]. inv H. unfold sound_tables, table_suggestions in *. cbn. rewrite E in S4.
  repeat split; auto; [intros c Q; inv Q; eauto|]. rewrite E0. rewrite app_nil_r in S4.
  rewrite (app_assoc (match sv_gcodes v with Some c => _ | None => _ end)).
  destruct e; apply Permutation_app; auto.
Qed.

Lemma set_files_sound v f : sound_tables v -> sound_tables (set_files v f).
Proof. auto. Qed.

Lemma publish_inv v p u t v' p' n : publish env v p u t = Ok (v', p', n) ->
  exists ms mm pt v1 e ds, env_parse env p t = Ok (p', (ms, mm, pt)) /\
    v1 = set_files v ((u, mkFC (content_lines t) mm pt) :: erase u (sv_files v)) /\
    fetch_macros env v1 = Ok (v', e) /\ diagnostics ms = Ok ds /\
    n = JObj [("jsonrpc", JStr "2.0"); ("method", JStr "textDocument/publishDiagnostics");
              ("params", JObj [("uri", JStr u); ("diagnostics",
                 JArr (match e with Some EmptyString => [] | Some e => [env_macro_error env e] | None => [] end ++ map diagnostic_json ds)%list)])].
Proof.
  unfold publish. intro H. bok H. destruct x as [p1 [[ms mm] pt]]. bok H. destruct x as [v1 e]. bok H. inv H.
  exists ms, mm, pt, (set_files v ((u, mkFC (content_lines t) mm pt) :: erase u (sv_files v))), e, x. auto 10.
Qed.

Lemma hover_line_grown v text mm line ch v' r : hover_line env v text mm line ch = Ok (v', r) -> grown v v'.
Proof.
  unfold hover_line. intro H. destruct (search_pattern match_code ch 0 0 text) as [[[c f] t]|].
  - bok H. bok H. bok H. inv H. apply fetch_gcodes_grown in E as [E _]. apply fetch_mcodes_grown in E0 as [E0 _].
    eapply grown_trans; eauto.
  - destruct mm as [[|m1 mm]|]; [inv H; apply grown_refl| |inv H; apply grown_refl].
    destruct (search_pattern match_code_macro ch 0 0 text) as [[[c f] t]|].
    + unfold hover_code_macro in H. bok H. destruct (macro_lookup _ _ _); [|inv H; apply grown_refl].
      bok H. bok H. bok H. inv H. apply fetch_gcodes_grown in E0 as [E0 _]. apply fetch_mcodes_grown in E1 as [E1 _].
      eapply grown_trans; eauto.
    + destruct (search_pattern match_macro ch 0 0 text) as [[[c f] t]|]; [|inv H; apply grown_refl].
      bok H. inv H. apply grown_refl.
Qed.

Lemma hover_line_sound v text mm line ch v' r : sound_tables v -> hover_line env v text mm line ch = Ok (v', r) -> sound_tables v'.
Proof.
  unfold hover_line. intros S H. destruct (search_pattern match_code ch 0 0 text) as [[[c f] t]|].
  - bok H. bok H. bok H. inv H. eauto using fetch_gcodes_sound, fetch_mcodes_sound.
  - destruct mm as [[|m1 mm]|]; [now inv H| |now inv H].
    destruct (search_pattern match_code_macro ch 0 0 text) as [[[c f] t]|].
    + unfold hover_code_macro in H. bok H. destruct (macro_lookup _ _ _); [|now inv H].
      bok H. bok H. bok H. inv H. eauto using fetch_gcodes_sound, fetch_mcodes_sound.
    + destruct (search_pattern match_macro ch 0 0 text) as [[[c f] t]|]; [|now inv H].
      bok H. now inv H.
Qed.

(** The line of a document hover looks at. *)
Definition hover_text (v : server) (u : string) (line : Z) : string * option (macro_map dbl) :=
  match assoc u (sv_files v) with
  | None => ("", None)
  | Some fc => if (line <? 0) || (Z.of_nat (List.length (fc_lines fc)) <=? line) then ("", None)
               else (nth (Z.to_nat line) (fc_lines fc) "", Some (fc_macros fc))
  end.

Lemma hover_inv v d v' r : hover env v d = Ok (v', r) ->
  exists id u line ch result, at_path d ["id"] = Some (JInt id) /\
    at_path d ["params"; "textDocument"; "uri"] = Some (JStr u) /\
    hover_line env v (fst (hover_text v (c_str u) line)) (snd (hover_text v (c_str u) line)) line ch = Ok (v', result) /\
    at_path d ["params"; "position"; "line"] = Some (JInt line) /\ at_path d ["params"; "position"; "character"] = Some (JInt ch) /\
    r = response id result.
Proof.
  unfold hover. intro H. bok H. bok H. bok H. bok H. bok H. bok H. bok H. bok H. bok H.
  fold (hover_text v x7 x2) in H. destruct (hover_text v x7 x2) as [text mm] eqn:T.
  bok H. bok H. bok H. destruct x10 as [v1 result]. inv H.
  apply get_int_ok in E2 as ->. apply get_int_ok in E4 as ->. apply get_int_ok in E9 as ->.
  apply get_c_string_ok in E7 as (u & -> & ->).
  exists x9, u, x2, x4, result. rewrite T. cbn [fst snd]. repeat split; auto; path.
Qed.

Lemma lens_inv v d v' r : code_lens v d = Ok (v', r) ->
  exists id u, at_path d ["id"] = Some (JInt id) /\ at_path d ["params"; "textDocument"; "uri"] = Some (JStr u) /\
    v' = match assoc (c_str u) (sv_files v) with Some _ => set_uri v (c_str u) | None => v end /\
    r = response id (match assoc (c_str u) (sv_files v) with
                     | Some fc => match fc_path_time fc with [] => JNull | pt => JArr (map lens pt) end
                     | None => JNull end).
Proof.
  unfold code_lens. intro H. bok H. bok H. bok H. bok H.
  apply get_c_string_ok in E2 as (u & -> & ->).
  destruct (assoc (c_str u) (sv_files v)) as [fc|] eqn:A; apply bind_ok in H as (ji & Ei & H); apply bind_ok in H as (id & Ei' & H); inv H; apply get_int_ok in Ei' as ->;
    exists id, u; rewrite A; (split; [path|]); (split; [path|]); split; auto; now destruct (fc_path_time fc).
Qed.

Lemma lens_resolve_inv v d r : resolve_lens v d = Ok r ->
  exists id range line, at_path d ["id"] = Some (JInt id) /\ at_path d ["params"; "range"] = Some range /\
    at_path range ["start"; "line"] = Some (JInt line) /\
    r = response id (match find_line line (match assoc (sv_uri v) (sv_files v) with None => [] | Some fc => fc_path_time fc end) with
                     | None => JNull
                     | Some s => JObj [("range", range); ("command", JObj [("title", JStr s); ("command", JNull)])]
                     end).
Proof.
  unfold resolve_lens. intro H. bok H. bok H. bok H. bok H. bok H. bok H. bok H. inv H.
  apply get_int_ok in E3 as ->. apply get_int_ok in E5 as ->. exists x5, x0, x3. repeat split; auto; path.
Qed.

Lemma resolve_inv v d r : resolve_item env v d = Ok r ->
  exists id result, at_path d ["id"] = Some (JInt id) /\ r = response id result.
Proof.
  unfold resolve_item. intro H. bok H. bok H. apply get_int_ok in E0 as ->.
  apply bind_ok in H as (ps & Ep & H). destruct ps as [ps|].
  - bok H. bok H. bok H. bok H. bok H. bok H. inv H. eexists _, _. split; [path|reflexivity].
  - inv H. eexists _, _. split; [path|reflexivity].
Qed.

Lemma request_id_int d id : int_at d ["id"] id -> request_id d = Ok id.
Proof.
  intros [H B]. unfold request_id. apply at_path_one, get_member in H. rewrite H. cbn.
  unfold is_int, int_min, int_max in *. now replace ((_ <=? id) && _) with true by lia.
Qed.

(** ** C33: replies *)

Lemma response_reply id result : reply_to id (response id result).
Proof. repeat split; discriminate. Qed.

Lemma step_reply d v p v' p' out id : step d v p v' p' out -> is_request d -> int_at d ["id"] id ->
  exists r, out = [r] /\ reply_to id r.
Proof.
  intros S (m & I & M) B. pose proof (request_id_int _ _ B) as R. destruct B as [B _].
  inv S; try (match goal with X : method d ?k |- _ => pose proof (method_fun _ _ _ X M); subst m end; cbn in I; intuition congruence).
  - assert (id0 = id) by congruence. subst. eexists. split; [reflexivity|]. apply response_reply.
  - assert (id0 = id) by congruence. subst. eexists. split; [reflexivity|]. apply response_reply.
  - apply resolve_inv in H0 as (i & res & A & ->). assert (i = id) by congruence. subst. eexists. split; [reflexivity|]. apply response_reply.
  - apply hover_inv in H0 as (i & u & line & ch & res & A & _ & _ & _ & _ & ->). assert (i = id) by congruence. subst. eexists. split; [reflexivity|]. apply response_reply.
  - apply lens_inv in H0 as (i & u & A & _ & _ & ->). assert (i = id) by congruence. subst. eexists. split; [reflexivity|]. apply response_reply.
  - apply lens_resolve_inv in H0 as (i & ra & line & A & _ & _ & ->). assert (i = id) by congruence. subst. eexists. split; [reflexivity|]. apply response_reply.
  - assert (id0 = id) by congruence. subst. eexists. split; [reflexivity|]. apply response_reply.
  - exfalso. apply (H m M). apply in_app_iff. auto.
Qed.

Lemma step_quiet d v p v' p' out : step d v p v' p' out -> ~ is_request d -> Forall no_reply out.
Proof.
  intros S N.
  inv S; try (exfalso; apply N; eexists; split; [|eassumption]; cbn; tauto); try constructor; try constructor.
  - apply publish_inv in H2 as (? & ? & ? & ? & ? & ? & _ & _ & _ & _ & ->). reflexivity.
  - apply publish_inv in H2 as (? & ? & ? & ? & ? & ? & _ & _ & _ & _ & ->). discriminate.
  - apply publish_inv in H3 as (? & ? & ? & ? & ? & ? & _ & _ & _ & _ & ->). reflexivity.
  - apply publish_inv in H3 as (? & ? & ? & ? & ? & ? & _ & _ & _ & _ & ->). discriminate.
Qed.

(** ** C31: documents *)

Lemma erase_same {A} u (m : list (string * A)) : assoc u (erase u m) = None.
Proof.
  apply assoc_none. intros x H. unfold erase in H. apply filter_In in H as [_ H]. cbn in H. now rewrite String.eqb_refl in H.
Qed.
Lemma erase_other {A} u w (m : list (string * A)) : u <> w -> assoc w (erase u m) = assoc w m.
Proof.
  intro N. induction m as [|[k x] m IH]; cbn; auto. destruct (String.eqb_spec k u) as [->|]; cbn.
  - destruct (String.eqb_spec w u); [congruence|exact IH].
  - destruct (String.eqb w k); auto.
Qed.

(** The context of a document whose last text is [t]. *)
Definition context_of (t : option string) (fc : option file_context) : Prop :=
  match t, fc with
  | None, None => True
  | Some t, Some fc => fc_lines fc = content_lines t /\
      exists p p' ms, env_parse env p t = Ok (p', (ms, fc_macros fc, fc_path_time fc))
  | _, _ => False
  end.

Definition event_text (e : event) (u : string) (t : option string) : option string := last_text [e] u t.

Lemma step_files d v p v' p' out e : step d v p v' p' out -> says d e -> single_change d -> event_plain e ->
  forall u t, context_of t (assoc u (sv_files v)) -> context_of (event_text e u t) (assoc u (sv_files v')).
Proof.
  intros S Y G P u t C.
  assert (PUB : forall u' t' n, publish env v p u' t' = Ok (v', p', n) -> e = Sent u' t' -> context_of (event_text e u t) (assoc u (sv_files v'))).
  { intros u' t' n H ->. apply publish_inv in H as (ms & mm & pt & v1 & er & ds & Hp & -> & Hf & _ & _).
    apply fetch_macros_grown in Hf as [(-> & _) _]. cbn. destruct (String.eqb_spec u' u) as [->|N].
    - rewrite String.eqb_refl. cbn. split; auto. eauto.
    - destruct (String.eqb_spec u u') as [->|_]; [congruence|]. now rewrite erase_other. }
  inv S; (inv Y; try (match goal with X : method d ?a, Z : method d ?b |- _ => pose proof (method_fun _ _ _ X Z); discriminate end)); try contradiction; cbn [event_text last_text]; auto.
  - destruct P as [P1 P2]. rewrite !c_str_plain in H2 by congruence. eapply PUB; eauto. congruence.
  - destruct P as [P1 P2]. destruct (G H) as [c' Q]. rewrite Q in H1, H6. inv H1. 
    assert (cs0 = [] /\ c0 = c) as [-> ->].
    { destruct cs0 as [|x cs0]; inv H6; auto. destruct cs0; discriminate. }
    rewrite !c_str_plain in H3 by congruence. eapply PUB; eauto. congruence.
  - assert (u1 = u0) by congruence. subst. rewrite (c_str_plain u0 P). unfold set_files. cbn [sv_files].
    destruct (String.eqb_spec u0 u) as [->|N]; [now rewrite erase_same|now rewrite erase_other].
  - apply fetch_gcodes_grown in H1 as [(E1 & _) _]. apply fetch_mcodes_grown in H2 as [(E2 & _) _]. now rewrite E2, E1.
  - apply hover_inv in H0 as (? & ? & ? & ? & ? & _ & _ & H0 & _). apply hover_line_grown in H0 as (-> & _). auto.
  - apply lens_inv in H0 as (? & u' & _ & _ & -> & _). now destruct (assoc (c_str u') (sv_files v)).
  - exfalso. eapply H; [exact H0|cbn; tauto].
  - exfalso. eapply H; [exact H0|cbn; tauto].
  - exfalso. eapply H; [exact H0|cbn; tauto].
Qed.

Lemma last_text_cons e es u t : last_text (e :: es) u t = last_text es u (event_text e u t).
Proof. now destruct e. Qed.

Lemma all_files ds : forall v p v' p' outs es, handle_all env (v, p) ds = Ok (v', p', outs) ->
  List.length outs = List.length ds -> Forall2 says ds es -> Forall single_change ds -> Forall event_plain es ->
  forall u t, context_of t (assoc u (sv_files v)) -> context_of (last_text es u t) (assoc u (sv_files v')).
Proof.
  induction ds as [|d ds IH]; intros v p v' p' outs es H L Y G P u t C; cbn in H.
  - inv H. inv Y. auto.
  - bok H. destruct x as [[v1 p1] out]. apply handle_step in E. inv Y. inv G. inv P. rewrite last_text_cons.
    pose proof (step_files _ _ _ _ _ _ _ E H2 H3 H6 u t C) as C1. cbn [fst] in H. destruct (sv_exit v1).
    + inv H. cbn in L. destruct ds; [|discriminate]. inv H4. auto.
    + bok H. destruct x as [[v2 p2] outs']. inv H. cbn in L. eapply IH; eauto.
Qed.

(** ** Sequences *)

Lemma all_replies ds : forall v p v' p' outs, handle_all env (v, p) ds = Ok (v', p', outs) ->
  exists ds1 ds2, ds = (ds1 ++ ds2)%list /\ (ds2 <> [] -> sv_exit v' = true) /\
  Forall2 (fun d out => (forall id, is_request d -> int_at d ["id"] id -> exists r, out = [r] /\ reply_to id r) /\
                        (~ is_request d -> Forall no_reply out)) ds1 outs.
Proof.
  induction ds as [|d ds IH]; intros v p v' p' outs H; cbn in H.
  - inv H. exists [], []. split; [reflexivity|]. split; [congruence|constructor].
  - bok H. destruct x as [[v1 p1] out]. apply handle_step in E. cbn [fst] in H. destruct (sv_exit v1) eqn:X.
    + inv H. exists [d], ds. repeat split; auto. constructor; [|constructor]. split.
      * intros id R B. eapply step_reply; eauto.
      * intro N. eapply step_quiet; eauto.
    + bok H. destruct x as [[v2 p2] outs']. inv H. destruct (IH _ _ _ _ _ E0) as (d1 & d2 & -> & Z & F).
      exists (d :: d1), d2. repeat split; auto. constructor; auto. split.
      * intros id R B. eapply step_reply; eauto.
      * intro N. eapply step_quiet; eauto.
Qed.

(** ** What a running server keeps up *)

Definition label_ready (v : server) (l : string) : Prop :=
  (exists c, l = String "G" c /\ sv_gcodes v <> None) \/ (exists c, l = String "M" c /\ sv_mcodes v <> None) \/
  (exists c md, l = String "#" c /\ sv_macros v = Some md /\ assoc c (md_data md) <> None).

Lemma suggestions_ready v l : sound_tables v -> In l (sv_suggestions v) -> label_ready v l.
Proof.
  intros (_ & _ & _ & P) I. apply (Permutation_in _ P) in I. unfold table_suggestions in I.
  rewrite !in_app_iff in I. unfold label_ready, prefixed in *. destruct I as [I|[I|I]].
  - destruct (sv_gcodes v); [|destruct I]. apply in_map_iff in I as (k & <- & _). left. exists k. split; [reflexivity|congruence].
  - destruct (sv_mcodes v); [|destruct I]. apply in_map_iff in I as (k & <- & _). right. left. exists k. split; [reflexivity|congruence].
  - destruct (sv_macros v) as [md|]; [|destruct I]. destruct (env_macros env) as [[? [|]]|]; try destruct I.
    apply in_map_iff in I as (c & <- & I). right. right. exists c, md. repeat split; auto.
    intro N. apply in_map_iff in I as ((k & x) & <- & I). cbn in N. now apply (proj1 (assoc_none k _) N x).
Qed.

Definition good_state (v : server) : Prop := sound_tables v /\ (sv_files v <> [] -> sv_macros v <> None).

Lemma good_init : good_state server_init.
Proof.
  split; [|cbn; congruence]. repeat split; cbn; try discriminate. unfold table_suggestions. cbn. constructor.
Qed.

Lemma grown_good v v' : grown v v' -> sound_tables v' -> good_state v -> good_state v'.
Proof.
  intros (A1 & _ & _ & _ & _ & _ & A7) S [_ F]. split; auto. rewrite A1. intro N. rewrite A7; auto.
Qed.

Lemma erase_nil {A} u (m : list (string * A)) : erase u m <> [] -> m <> [].
Proof. destruct m; cbn; congruence. Qed.

Lemma step_good d v p v' p' out : step d v p v' p' out -> good_state v ->
  good_state v' /\ (forall l, In l (sv_suggestions v) -> In l (sv_suggestions v')) /\
  (forall r l, In r out -> offers r l -> In l (sv_suggestions v')).
Proof.
  intros S G.
  assert (PUB : forall u t n, publish env v p u t = Ok (v', p', n) ->
     good_state v' /\ (forall l, In l (sv_suggestions v) -> In l (sv_suggestions v')) /\ (forall r l, In r [n] -> offers r l -> In l (sv_suggestions v'))).
  { intros u t n H. apply publish_inv in H as (ms & mm & pt & v1 & e & ds & _ & -> & Hf & _ & ->).
    pose proof (fetch_macros_grown _ _ _ Hf) as [(A1 & _ & _ & A4 & _) A5]. split; [split|split].
    - eapply fetch_macros_sound; eauto. apply set_files_sound. apply G.
    - auto.
    - exact A4.
    - intros r l [<-|[]] (items & i & Q & _). discriminate. }
  assert (NOO : forall id res, (forall items, res <> JArr items) -> forall r l, In r [response id res] -> offers r l -> In l (sv_suggestions v')).
  { intros id res N r l [<-|[]] (items & i & Q & _). cbn in Q. injection Q as Q. now apply N in Q. }
  inv S; try solve [split; [exact G|split; [auto|first [solve [intros r l []]|solve [apply NOO; intros items Q; cbv in Q; discriminate Q]]]]]; eauto.
  - split; [|split; [auto|intros r l []]]. destruct G as [G1 G2]. split; [exact G1|]. intro N. apply G2. exact (erase_nil _ _ N).
  - pose proof (fetch_gcodes_grown _ _ H1) as [A _]. pose proof (fetch_mcodes_grown _ _ H2) as [B _]. pose proof (grown_trans _ _ _ A B) as C.
    split; [|split].
    + eapply grown_good; eauto. eapply fetch_mcodes_sound; eauto. eapply fetch_gcodes_sound; eauto. apply G.
    + apply C.
    + intros r l [<-|[]] (items & i & Q & I & Q2). cbn in Q. injection Q as <-. revert I. generalize 1.
      generalize (sv_suggestions v') as sg. induction sg as [|s sg IH]; intros n I; [destruct I|].
      destruct I as [<-|I]; [|right; eapply IH; eauto]. cbn in Q2. injection Q2 as ->. left. auto.
  - split; [exact G|split; [auto|]]. intros r0 l [<-|[]] (items & i & Q & _). unfold resolve_item in H0.
    bok H0. bok H0. apply bind_ok in H0 as (ps & Ep & H0). destruct ps.
    + bok H0. bok H0. bok H0. bok H0. bok H0. bok H0. inv H0. discriminate.
    + inv H0. discriminate.
  - apply hover_inv in H0 as (id & u & line & ch & res & _ & _ & H0 & _ & _ & ->).
    pose proof (hover_line_grown _ _ _ _ _ _ _ H0) as A. split; [|split].
    + eapply grown_good; eauto. eapply hover_line_sound; eauto. apply G.
    + apply A.
    + apply NOO. intros items ->. unfold hover_line in H0. destruct (search_pattern match_code ch 0 0 _) as [[[? ?] ?]|].
      * bok H0. bok H0. bok H0. discriminate.
      * destruct (snd _) as [[|? ?]|]; [discriminate| |discriminate].
        destruct (search_pattern match_code_macro ch 0 0 _) as [[[? ?] ?]|].
        -- unfold hover_code_macro in H0. bok H0. destruct (macro_lookup _ _ _); [|discriminate]. bok H0. bok H0. bok H0. discriminate.
        -- destruct (search_pattern match_macro ch 0 0 _) as [[[? ?] ?]|]; [|discriminate]. bok H0. inv H0.
           unfold hover_macro in E. bok E. destruct (sv_macros v'); [|discriminate]. bok E. discriminate.
  - apply lens_inv in H0 as (id & u & _ & _ & -> & ->). destruct (assoc (c_str u) (sv_files v)) as [fc|] eqn:A.
    + split; [exact G|split; [auto|]]. destruct (fc_path_time fc) as [|x pt]; [apply NOO; discriminate|].
      intros r l [<-|[]] (items & i & Q & I & Q2). cbn [response at_path find fst String.eqb] in Q. cbn in Q. injection Q as <-.
      exfalso. destruct I as [<-|I]; [discriminate|]. apply in_map_iff in I as (y & <- & _). discriminate.
    + split; [exact G|split; [auto|]]. apply NOO. discriminate.
  - split; [exact G|split; [auto|]]. apply lens_resolve_inv in H0 as (id & range & line & _ & _ & _ & ->).
    apply NOO. intros items. now destruct (find_line line _).
Qed.

Lemma all_good ds : forall v p v' p' outs, handle_all env (v, p) ds = Ok (v', p', outs) -> good_state v ->
  good_state v' /\ (forall l, In l (sv_suggestions v) -> In l (sv_suggestions v')) /\
  (forall out r l, In out outs -> In r out -> offers r l -> In l (sv_suggestions v')).
Proof.
  induction ds as [|d ds IH]; intros v p v' p' outs H G; cbn in H.
  - inv H. split; auto. split; auto. intros out r l [].
  - bok H. destruct x as [[v1 p1] out]. apply handle_step in E. apply step_good in E as (G1 & M1 & O1); auto. cbn [fst] in H.
    destruct (sv_exit v1).
    + inv H. split; auto. split; auto. intros o r l [<-|[]]. eauto.
    + bok H. destruct x as [[v2 p2] outs']. inv H. apply IH in E as (G2 & M2 & O2); auto. split; auto. split; auto.
      intros o r l [<-|I] R Q; eauto.
Qed.
End Handler.
