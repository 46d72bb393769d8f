(** Names of the configuration enumerations. *)
From Verif Require Import Model.Base Model.Attr Model.Rotator Model.UnitConv Model.Enums Spec.EnumSpec
  Proofs.Tactics Proofs.StringFacts Proofs.CalcProofs.

Ltac names_agree :=
  split; [intros []; cbn; tauto|split;
  [ intros s e H; cbn in H; repeat destruct H as [H|H]; try contradiction; injection H as <- <-; reflexivity
  | intros s H; match goal with |- ?f s = _ => unfold f end;
    repeat match goal with |- context [String.eqb s ?n] =>
      destruct (String.eqb_spec s n) as [->|]; [exfalso; apply H; cbn; tauto|] end;
    cbn [orb]; reflexivity ]].

Lemma cnc_type_agree : agree cnc_type_name to_cnc_type cnc_types. Proof. names_agree. Qed.
Lemma parser_type_agree : agree parser_type_name to_parser_type drivers. Proof. names_agree. Qed.
Lemma tool_type_agree : agree tool_type_name to_tool_type tool_types. Proof. names_agree. Qed.
Lemma machine_tool_agree : agree machine_tool_name to_machine_tool machine_tools. Proof. names_agree. Qed.
Lemma language_agree : agree language_name to_language languages. Proof. names_agree. Qed.
Lemma driver_units_agree : agree driver_units_name to_driver_units units. Proof. names_agree. Qed.
Lemma unit_dir_agree : agree unit_dir_name to_unit_dir conversions. Proof. names_agree. Qed.
Lemma rot_option_agree : agree rot_option_name to_rot_option rotations. Proof. names_agree. Qed.
Lemma motion_agree : agree motion_name to_motion motions. Proof. names_agree. Qed.
Lemma work_plane_agree : agree work_plane_name to_work_plane work_planes. Proof. names_agree. Qed.
Lemma programming_agree : agree programming_name to_programming programmings. Proof. names_agree. Qed.
Lemma feed_mode_agree : agree feed_mode_name to_feed_mode feed_modes. Proof. names_agree. Qed.
Lemma depth_agree : agree depth_programming_name to_depth_programming depth_programmings.
Proof. names_agree. Qed.
Lemma drill_return_agree : agree drill_return_name to_drill_return drill_returns. Proof. names_agree. Qed.
Lemma word_type_agree : agree word_type_name to_word_type word_types. Proof. names_agree. Qed.

Lemma rotation_dir_reads :
  (forall s e, In (s, e) rotation_dirs -> to_rotation_dir s = Ok e) /\
  (forall s, ~ In s (map fst rotation_dirs) -> to_rotation_dir s = Exc EInvalidArgument).
Proof.
  split.
  - intros s e H; cbn in H; repeat destruct H as [H|H]; try contradiction; injection H as <- <-; reflexivity.
  - intros s H. unfold to_rotation_dir.
    repeat match goal with |- context [String.eqb s ?n] =>
      destruct (String.eqb_spec s n) as [->|]; [exfalso; apply H; cbn; tauto|] end.
    reflexivity.
Qed.

(** Token extraction. *)
Lemma span_blank : forall ws s, all_chars is_space ws = true ->
  match s with EmptyString => True | String c _ => is_space c = false end ->
  span is_space (ws ++ s) = (ws, s).
Proof.
  induction ws as [|c ws IH]; intros s H H0; cbn in *.
  - destruct s as [|c s]; cbn; [reflexivity|now rewrite H0].
  - apply andb_true_iff in H as [H1 H2]. rewrite H1, IH; auto.
Qed.

Lemma span_token : forall t s, all_chars (fun c => negb (is_space c)) t = true -> ends_token s ->
  span (fun c => negb (is_space c)) (t ++ s) = (t, s).
Proof.
  induction t as [|c t IH]; intros s H H0; cbn in *.
  - destruct s as [|c s]; cbn in *; [reflexivity|now rewrite H0].
  - apply andb_true_iff in H as [H1 H2]. rewrite H1, IH; auto.
Qed.

Definition token (t : string) : bool := all_chars (fun c => negb (is_space c)) t.

Lemma read_token : forall {E} (to_e : string -> res E) ws t rest,
  all_chars is_space ws = true -> token t = true -> ends_token rest -> t <> "" ->
  stream_read to_e (ws ++ t ++ rest) = do e <- to_e t; Ok (e, rest).
Proof.
  intros E to_e ws t rest H H0 H1 H2. unfold stream_read.
  rewrite span_blank; auto.
  - unfold token in H0. rewrite span_token; auto.
  - destruct t as [|c t]; [contradiction|]. cbn in *. apply andb_true_iff in H0 as [H0 _].
    now apply negb_true_iff in H0.
Qed.

Definition tokens {E} (names : list (string * E)) : bool :=
  forallb (fun p => token (fst p) && negb (String.eqb (fst p) "")) names.

Lemma tokens_in : forall {E} (names : list (string * E)) s e, tokens names = true -> In (s, e) names ->
  token s = true /\ s <> "".
Proof.
  intros E names s e H H0. unfold tokens in H. rewrite forallb_forall in H. specialize (H _ H0). cbn in H.
  apply andb_true_iff in H as [H1 H2]. split; auto. apply negb_true_iff, String.eqb_neq in H2. auto.
Qed.

Lemma agree_stream : forall {E} write read (names : list (string * E)),
  agree write read names -> tokens names = true ->
  forall os ws e rest, blank ws -> ends_token rest ->
  stream_read read (ws ++ stream_write write "" e ++ rest) = Ok (e, rest) /\
  stream_write write os e = os ++ write e.
Proof.
  intros E write read names (H & H0 & _) Ht os ws e rest Hw Hr. split; [|reflexivity].
  pose proof (H e) as Hi. destruct (tokens_in _ _ _ Ht Hi) as [Hk Hn].
  unfold stream_write. cbn [append]. rewrite read_token; auto. rewrite (H0 _ _ Hi). reflexivity.
Qed.

Lemma span_parts : forall p s a b, span p s = (a, b) ->
  s = a ++ b /\ all_chars p a = true /\ match b with EmptyString => True | String c _ => p c = false end.
Proof.
  induction s as [|c s IH]; cbn; intros a b H; [injection H as <- <-; auto|].
  destruct (p c) eqn:Hp.
  - destruct (span p s) as [a' b'] eqn:Hs. injection H as <- <-. destruct (IH _ _ eq_refl) as (-> & H & H').
    cbn. rewrite Hp. auto.
  - injection H as <- <-. auto.
Qed.

(** What a configuration setting accepts. *)
Lemma setting_accepts : forall {E} (read : string -> res E) (names : list (string * E)),
  (forall s e, In (s, e) names -> read s = Ok e) ->
  (forall s, ~ In s (map fst names) -> read s = Exc EInvalidArgument) ->
  tokens names = true ->
  forall v e, setting_read read v = Ok e <->
    exists ws1 s ws2, v = ws1 ++ s ++ ws2 /\ blank ws1 /\ blank ws2 /\ In (s, e) names.
Proof.
  intros E read names Hok Hno Ht v e. split.
  - unfold setting_read, stream_read. destruct (span is_space v) as [ws r] eqn:H1.
    destruct (span (fun c => negb (is_space c)) r) as [t rest] eqn:H2.
    apply span_parts in H1 as (-> & Hw & _). apply span_parts in H2 as (-> & Hk & Hr).
    cbn. destruct (read t) as [e'|x] eqn:Hre; cbn; [|discriminate].
    destruct (all_chars is_space rest) eqn:Hb; [|discriminate]. intros H. injection H as ->.
    exists ws, t, rest. do 3 (split; auto).
    destruct (in_dec string_dec t (map fst names)) as [Hi|Hi].
    + apply in_map_iff in Hi as ([t' e'] & <- & Hi). cbn in *. rewrite (Hok _ _ Hi) in Hre.
      injection Hre as ->. auto.
    + rewrite (Hno _ Hi) in Hre. discriminate.
  - intros (ws1 & s & ws2 & -> & Hw1 & Hw2 & Hi). destruct (tokens_in _ _ _ Ht Hi) as [Hk Hn].
    unfold setting_read. rewrite read_token; auto.
    + rewrite (Hok _ _ Hi). cbn. unfold blank in Hw2. rewrite Hw2. reflexivity.
    + destruct ws2 as [|c ws2]; cbn in *; auto. apply andb_true_iff in Hw2. tauto.
Qed.

Lemma agree_setting : forall {E} write (read : string -> res E) names,
  agree write read names -> tokens names = true ->
  forall v e, setting_read read v = Ok e <->
    exists ws1 s ws2, v = ws1 ++ s ++ ws2 /\ blank ws1 /\ blank ws2 /\ In (s, e) names.
Proof. intros E write read names (_ & H & H0) Ht. now apply setting_accepts. Qed.

Lemma rotation_dir_stream : forall ws e rest, blank ws -> ends_token rest ->
  exists left, stream_read to_rotation_dir (ws ++ rotation_dir_name e ++ rest) = Ok (e, left).
Proof.
  intros ws e rest Hw Hr.
  assert (H : exists t u, rotation_dir_name e = t ++ String " " u /\ token t = true /\ t <> "" /\
                          to_rotation_dir t = Ok e).
  { destruct e; [exists "right", "(M03) CLW (clockwise)"|exists "left", "(M04) CCLW (counterclockwise)"
                |exists "stop", "(M05)"]; repeat split; try reflexivity; discriminate. }
  destruct H as (t & u & -> & Hk & Hn & Ht). rewrite string_app_assoc, read_token; auto.
  - rewrite Ht. cbn. eauto.
  - reflexivity.
Qed.
