(** Texts of messages and runs of the server's parser. *)
From Verif Require Import Model.Base Model.Attr Model.Double Model.Macro Model.Verifiers Model.PathCalc Model.Enums.
From Verif Require Import Model.NCText Model.Parser Model.Messages Model.Settings Model.Document.
From Verif Require Import Spec.Text Spec.NCTextSpec Spec.VerifierSpec Spec.SettingsSpec Spec.DocumentSpec.
From Verif Require Import Proofs.Tactics Proofs.StringFacts Proofs.NCTextProofs Proofs.SettingsTables.

Local Open Scope string_scope.
Local Open Scope Z_scope.

(** ** Messages *)

Lemma names_complete l : map fst (texts l) = message_names.
Proof. destruct l; vm_compute; reflexivity. Qed.

Lemma message_names_nodup : NoDup message_names.
Proof. repeat (constructor; [cbn; intuition discriminate|]). constructor. Qed.

Lemma quoted_front args b s : quoted args s -> quoted args (b ++ s).
Proof. intros H. destruct H; [constructor|]. rewrite <- string_app_assoc. now constructor. Qed.

Lemma quoted_concat args : quoted args (String.concat "" args).
Proof.
  induction args as [|a args IH]; [constructor|]. cbn [String.concat]. destruct args as [|b args].
  - replace (quoted [a] a) with (quoted [a] ("" ++ a ++ "")) by (cbn [append]; now rewrite string_app_nil). constructor. constructor.
  - change (quoted (a :: b :: args) ("" ++ a ++ ("" ++ String.concat "" (b :: args)))). constructor. apply quoted_front, IH.
Qed.

Lemma weave_texts parts : forall args, quoted args (weave parts args).
Proof.
  induction parts as [|p parts IH]; intros args; cbn [weave]; [apply quoted_concat|]. destruct args as [|a args]; [constructor|].
  constructor. apply IH.
Qed.

Lemma weave_values args : forall parts, quoted args (weave args parts).
Proof.
  induction args as [|a args IH]; intros parts; cbn [weave]; [constructor|]. destruct parts as [|p parts].
  - change (quoted (a :: args) ("" ++ a ++ weave args [])). constructor. apply IH.
  - change (quoted (a :: args) ("" ++ a ++ (p ++ weave args parts))). constructor. apply quoted_front, IH.
Qed.

Lemma name_found l name : In name message_names -> exists parts, assoc name (texts l) = Some parts.
Proof.
  rewrite <- (names_complete l). intros I. apply in_map_iff in I as ([k v] & <- & I). cbn.
  destruct (assoc k (texts l)) as [p|] eqn:E; [eauto|]. exfalso. revert I E. generalize (texts l) as t.
  induction t as [|[k' v'] t IH]; [intros []|]. cbn. intros [X|X]; [injection X as -> ->; rewrite String.eqb_refl; discriminate|].
  destruct (String.eqb k k'); [discriminate|auto].
Qed.

Lemma values_quoted l name args : In name message_names ->
  quoted args (make_message l name args) /\ quoted args (make_message2 l name args).
Proof.
  intros I. unfold make_message, make_message2. destruct (name_found l name I) as [parts ->].
  split; [apply weave_texts|apply weave_values].
Qed.

Lemma weave_in_turn parts : forall args, (List.length parts = List.length args \/ List.length parts = S (List.length args)) ->
  in_turn parts args (weave parts args).
Proof.
  induction parts as [|p parts IH]; intros [|a args] L; cbn [List.length] in L; try lia.
  - constructor.
  - destruct parts as [|q parts]; [|cbn in L; lia]. cbn. rewrite string_app_nil. constructor.
  - cbn [weave]. constructor. apply IH. lia.
Qed.

Lemma texts_in_turn l name n args : In (name, n) values_shown -> List.length args = n ->
  exists parts, assoc name (texts l) = Some parts /\ in_turn parts args (make_message l name args).
Proof.
  intros I L. unfold make_message. cbn in I.
  repeat (destruct I as [I|I]; [injection I as <- <-; destruct l;
    (eexists; split; [reflexivity|]; apply weave_in_turn; rewrite L; cbn; lia)|]).
  destruct I.
Qed.

Lemma texts_in_turn2 l name n args : In (name, n) values_shown2 -> List.length args = n ->
  exists parts, assoc name (texts l) = Some parts /\ in_turn args parts (make_message2 l name args).
Proof.
  intros I L. unfold make_message2. cbn in I.
  repeat (destruct I as [I|I]; [injection I as <- <-; destruct l;
    (eexists; split; [reflexivity|]; apply weave_in_turn; rewrite L; cbn; lia)|]).
  destruct I.
Qed.

(** ** Reading the files *)

Definition opening (left : settings) (d : disk) : nc_step :=
  nc_then (open_settings left d) (nc_then (open_grammar d) (nc_then (open_gcodes d) (open_mcodes d))).

Lemma opening_ready left d n : ready n -> opening left d n = (n, None).
Proof.
  intros (S & G & C & M). destruct n as [sg pt [st rd] gr gc mc]. cbn in *. unfold opening, nc_then, open_settings, settings_read.
  cbn [nc_settings_given nc_path_time nc_settings nc_grammar nc_gcodes nc_mcodes sr_read sr_settings].
  destruct sg; [rewrite (S eq_refl)|]; unfold open_grammar, open_gcodes, open_mcodes; cbn [nc_grammar nc_gcodes nc_mcodes];
    destruct gr; try contradiction; destruct gc; try contradiction; destruct mc; try contradiction; reflexivity.
Qed.

Lemma open_settings_ok left d n n' : open_settings left d n = (n', None) ->
  (nc_settings_given n' = true -> sr_read (nc_settings n') = true) /\
  nc_settings_given n' = nc_settings_given n /\ nc_path_time n' = nc_path_time n /\
  nc_grammar n' = nc_grammar n /\ nc_gcodes n' = nc_gcodes n /\ nc_mcodes n' = nc_mcodes n.
Proof.
  unfold open_settings. destruct (nc_settings_given n) eqn:G; [|intros E; injection E as <-; rewrite G; auto 8; intuition discriminate].
  unfold settings_read. destruct (sr_read (nc_settings n)) eqn:R.
  - intros E. injection E as <-. cbn. auto 8.
  - destruct (dk_settings d) as [root|]; [|discriminate]. destruct (settings_of root); [|discriminate].
    intros E. injection E as <-. cbn. auto 8.
Qed.

Lemma open_grammar_ok d n n' : open_grammar d n = (n', None) ->
  nc_grammar n' <> None /\ nc_settings_given n' = nc_settings_given n /\ nc_path_time n' = nc_path_time n /\
  nc_settings n' = nc_settings n /\ nc_gcodes n' = nc_gcodes n /\ nc_mcodes n' = nc_mcodes n.
Proof.
  unfold open_grammar. destruct (nc_grammar n) eqn:G; [intros E; injection E as <-; rewrite G; repeat split; discriminate|].
  destruct (conf_file d n "grammar.json") as [f|e]; [|discriminate]. destruct (read_grammar f) as [g ok]. intros E.
  destruct ok; [|discriminate]. injection E as <-. cbn. repeat split. discriminate.
Qed.

Lemma open_gcodes_ok d n n' : open_gcodes d n = (n', None) ->
  nc_gcodes n' <> None /\ nc_settings_given n' = nc_settings_given n /\ nc_path_time n' = nc_path_time n /\
  nc_settings n' = nc_settings n /\ nc_grammar n' = nc_grammar n /\ nc_mcodes n' = nc_mcodes n.
Proof.
  unfold open_gcodes. destruct (nc_gcodes n) eqn:G; [intros E; injection E as <-; rewrite G; repeat split; discriminate|].
  destruct (conf_file d n "gcode_groups.json") as [f|e]; [|discriminate]. destruct (read_groups f) as [g ok]. intros E.
  destruct ok; [|discriminate]. injection E as <-. cbn. repeat split. discriminate.
Qed.

Lemma open_mcodes_ok d n n' : open_mcodes d n = (n', None) ->
  nc_mcodes n' <> None /\ nc_settings_given n' = nc_settings_given n /\ nc_path_time n' = nc_path_time n /\
  nc_settings n' = nc_settings n /\ nc_grammar n' = nc_grammar n /\ nc_gcodes n' = nc_gcodes n.
Proof.
  unfold open_mcodes. destruct (nc_mcodes n) eqn:G; [intros E; injection E as <-; rewrite G; repeat split; discriminate|].
  destruct (conf_file d n "mcode_groups.json") as [f|e]; [|discriminate]. destruct (read_groups f) as [g ok]. intros E.
  destruct ok; [|discriminate]. injection E as <-. cbn. repeat split. discriminate.
Qed.

Lemma opening_steps left d n n' : opening left d n = (n', None) ->
  exists n1 n2 n3, open_settings left d n = (n1, None) /\ open_grammar d n1 = (n2, None) /\ open_gcodes d n2 = (n3, None) /\ open_mcodes d n3 = (n', None).
Proof.
  unfold opening, nc_then. destruct (open_settings left d n) as [n1 [r|]] eqn:E1; [discriminate|].
  destruct (open_grammar d n1) as [n2 [r|]] eqn:E2; [discriminate|]. destruct (open_gcodes d n2) as [n3 [r|]] eqn:E3; [discriminate|].
  intros E4. eauto 7.
Qed.

Lemma opening_makes_ready left d n n' : opening left d n = (n', None) -> ready n'.
Proof.
  intros H. apply opening_steps in H as (n1 & n2 & n3 & E1 & E2 & E3 & E4).
  apply open_settings_ok in E1 as (A1 & A2 & _ & A3 & A4 & A5). apply open_grammar_ok in E2 as (B1 & B2 & _ & B3 & B4 & B5).
  apply open_gcodes_ok in E3 as (C1 & C2 & _ & C3 & C4 & C5). apply open_mcodes_ok in E4 as (D1 & D2 & _ & D3 & D4 & D5).
  split; [|repeat split; congruence]. rewrite D3, C3, B3. rewrite D2, C2, B2. exact A1.
Qed.

(** A parser that has not read anything, as it is made. *)
Definition fresh (n : nc_parser) : Prop := exists sg pt, n = nc_new sg pt.

Lemma opening_configured left d n n' : fresh n -> opening left d n = (n', None) -> configured d n'.
Proof.
  intros (sg & pt & ->) H. apply opening_steps in H as (n1 & n2 & n3 & E1 & E2 & E3 & E4).
  assert (S : (nc_settings_given n1 = true -> exists root, dk_settings d = Some root /\ settings_described root (sr_settings (nc_settings n1))) /\
              (nc_settings_given n1 = false -> sr_settings (nc_settings n1) = default_settings)).
  { revert E1. unfold open_settings, settings_read, nc_new, settings_new. cbn [nc_settings_given nc_settings sr_read]. destruct sg.
    - destruct (dk_settings d) as [root|]; [|discriminate]. destruct (settings_of root) as [s|] eqn:O; [|discriminate].
      intros E. injection E as <-. cbn. split; [|discriminate]. intros _. exists root. split; [reflexivity|]. now apply settings_of_ok.
    - intros E. injection E as <-. cbn. split; [discriminate|reflexivity]. }
  pose proof (open_settings_ok _ _ _ _ E1) as (_ & A2 & A6 & A3 & A4 & A5). pose proof (open_grammar_ok _ _ _ E2) as (_ & B2 & B6 & B3 & B4 & B5).
  pose proof (open_gcodes_ok _ _ _ E3) as (_ & C2 & C6 & C3 & C4 & C5). pose proof (open_mcodes_ok _ _ _ E4) as (_ & D2 & D6 & D3 & D4 & D5).
  cbn in A3, A4, A5. unfold configured. rewrite D3, C3, B3, D2, C2, B2. split; [apply S|]. split; [apply S|].
  unfold open_grammar in E2. rewrite A3 in E2. destruct (conf_file d n1 "grammar.json") as [fg|] eqn:F1; [|discriminate].
  destruct (read_grammar fg) as [[g ops] ok] eqn:R1. destruct ok; [|discriminate]. injection E2 as <-.
  apply read_grammar_exact in R1 as [_ R1]. destruct (R1 eq_refl) as (tg & -> & G). clear R1.
  unfold open_gcodes in E3. cbn [nc_gcodes] in E3. rewrite A4 in E3.
  match type of E3 with context [conf_file d ?n "gcode_groups.json"] => destruct (conf_file d n "gcode_groups.json") as [fc|] eqn:F2; [|discriminate] end.
  destruct (read_groups fc) as [cg ok] eqn:R2. destruct ok; [|discriminate]. injection E3 as <-.
  apply read_groups_exact in R2 as (_ & [R2 _] & L2). destruct (R2 eq_refl) as (tc & -> & GR). specialize (L2 eq_refl). clear R2.
  unfold open_mcodes in E4. cbn [nc_mcodes] in E4. rewrite A5 in E4.
  match type of E4 with context [conf_file d ?n "mcode_groups.json"] => destruct (conf_file d n "mcode_groups.json") as [fm|] eqn:F3; [|discriminate] end.
  destruct (read_groups fm) as [mg ok] eqn:R3. destruct ok; [|discriminate]. injection E4 as <-.
  apply read_groups_exact in R3 as (_ & [R3 _] & L3). destruct (R3 eq_refl) as (tm & -> & MR). specialize (L3 eq_refl). clear R3.
  unfold conf_file, driver in F1, F2, F3. cbn [nc_settings] in F2, F3.
  destruct (dk_conf d _ "grammar.json") eqn:K1; [|discriminate]. injection F1 as ->.
  destruct (dk_conf d _ "gcode_groups.json") eqn:K2; [|discriminate]. injection F2 as ->.
  destruct (dk_conf d _ "mcode_groups.json") eqn:K3; [|discriminate]. injection F3 as ->.
  exists tg, tc, tm, (g, ops), cg, mg. cbn [nc_grammar nc_gcodes nc_mcodes fst snd].
  split; [reflexivity|]. split; [reflexivity|]. split; [exact G|]. split; [reflexivity|]. split; [reflexivity|]. split; [exact GR|].
  split. { intros c x. rewrite L2. split; [intros (r & E & H); injection E as <-; exact H|eauto]. }
  split; [reflexivity|]. split; [reflexivity|]. split; [exact MR|].
  intros c x. rewrite L3. split; [intros (r & E & H); injection E as <-; exact H|eauto].
Qed.

(** *** Failures *)

Lemma settings_unreadable d : ~ settings_readable (dk_settings d) ->
  forall left r, sr_read r = false -> settings_read left (dk_settings d) r = (mkSR left false, false).
Proof.
  intros U left r R. unfold settings_read. rewrite R. destruct (dk_settings d) as [root|]; [|reflexivity].
  destruct (settings_of root) as [s|] eqn:E; [|reflexivity]. exfalso. apply U. exists root, s. split; [reflexivity|]. now apply settings_of_ok.
Qed.

Section Runs.
Variable lit : string -> dbl.
Variable libm : string -> dbl -> dbl.
Variables atan log cabs : dbl -> dbl.
Variable stale : Z.
Variable range_what : string.

Local Notation nc_parse := (nc_parse lit libm atan log cabs stale range_what).
Local Notation run_document := (run_document lit libm atan log cabs stale range_what).

Lemma parse_ready left d n code : ready n -> nc_parse left d code n = (n, run_document code n).
Proof. intros R. unfold Document.nc_parse. fold (opening left d). now rewrite (opening_ready left d n R). Qed.

Lemma settings_failure left d n code : nc_settings_given n = true -> sr_read (nc_settings n) = false ->
  ~ settings_readable (dk_settings d) ->
  exists n', nc_parse left d code n = (n', Ok (["ERROR: Couldn't read .ncsetting file"], [], [])) /\
    nc_settings_given n' = true /\ sr_read (nc_settings n') = false /\
    nc_path_time n' = nc_path_time n /\ nc_grammar n' = nc_grammar n /\ nc_gcodes n' = nc_gcodes n /\ nc_mcodes n' = nc_mcodes n.
Proof.
  intros G R U. unfold Document.nc_parse, nc_then, open_settings. rewrite G, (settings_unreadable d U left _ R).
  eexists. split; [reflexivity|]. cbn. auto 8.
Qed.

Lemma grammar_failure left d n n1 code f : open_settings left d n = (n1, None) -> nc_grammar n = None ->
  dk_conf d (driver n1) "grammar.json" = Some f -> ~ (exists root, f = Some root /\ grammar_readable root) ->
  exists n', nc_parse left d code n = (n', Ok (["ERROR: Couldn't read word grammar settings"], [], [])) /\ nc_grammar n' <> None /\
    nc_settings n' = nc_settings n1 /\ nc_settings_given n' = nc_settings_given n.
Proof.
  intros S G F U. pose proof (open_settings_ok _ _ _ _ S) as (_ & A2 & _ & A3 & _). unfold Document.nc_parse, nc_then. rewrite S.
  unfold open_grammar. rewrite A3, G. unfold conf_file. rewrite F. destruct (read_grammar f) as [[g ops] ok] eqn:R.
  apply read_grammar_exact in R as [R _]. destruct ok; [exfalso; apply U; now apply R|]. eexists. split; [reflexivity|]. cbn. repeat split; [discriminate|exact A2].
Qed.

Lemma gcodes_failure left d n n2 code f : nc_then (open_settings left d) (open_grammar d) n = (n2, None) -> nc_gcodes n = None ->
  dk_conf d (driver n2) "gcode_groups.json" = Some f -> ~ (exists root, f = Some root /\ groups_readable root) ->
  exists n', nc_parse left d code n = (n', Ok (["ERROR: Couldn't read gcode groups settings"], [], [])) /\ nc_gcodes n' <> None.
Proof.
  unfold nc_then at 1. destruct (open_settings left d n) as [n1 [r|]] eqn:S; [discriminate|]. intros E2 G F U.
  pose proof (open_settings_ok _ _ _ _ S) as (_ & A2 & _ & _ & A3 & _). pose proof (open_grammar_ok _ _ _ E2) as (_ & _ & _ & _ & B3 & _).
  unfold Document.nc_parse, nc_then. rewrite S, E2.
  unfold open_gcodes. rewrite B3, A3, G. unfold conf_file. rewrite F. destruct (read_groups f) as [g ok] eqn:R.
  apply read_groups_exact in R as (_ & R & _). destruct ok; [exfalso; apply U; now apply R|]. eexists. split; [reflexivity|]. cbn. discriminate.
Qed.

Lemma mcodes_failure left d n n3 code f :
  nc_then (open_settings left d) (nc_then (open_grammar d) (open_gcodes d)) n = (n3, None) -> nc_mcodes n = None ->
  dk_conf d (driver n3) "mcode_groups.json" = Some f -> ~ (exists root, f = Some root /\ groups_readable root) ->
  exists n', nc_parse left d code n = (n', Ok (["ERROR: Couldn't read mcode groups settings"], [], [])) /\ nc_mcodes n' <> None.
Proof.
  unfold nc_then at 1. destruct (open_settings left d n) as [n1 [r|]] eqn:S; [discriminate|].
  unfold nc_then at 1. destruct (open_grammar d n1) as [n2 [r|]] eqn:E2; [discriminate|]. intros E3 G F U.
  pose proof (open_settings_ok _ _ _ _ S) as (_ & A2 & _ & _ & _ & A3). pose proof (open_grammar_ok _ _ _ E2) as (_ & _ & _ & _ & _ & B3).
  pose proof (open_gcodes_ok _ _ _ E3) as (_ & _ & _ & _ & _ & C3).
  unfold Document.nc_parse, nc_then. rewrite S, E2, E3.
  unfold open_mcodes. rewrite C3, B3, A3, G. unfold conf_file. rewrite F. destruct (read_groups f) as [g ok] eqn:R.
  apply read_groups_exact in R as (_ & R & _). destruct ok; [exfalso; apply U; now apply R|]. eexists. split; [reflexivity|]. cbn. discriminate.
Qed.

Lemma grammar_missing left d n n1 code : open_settings left d n = (n1, None) -> nc_grammar n = None ->
  dk_conf d (driver n1) "grammar.json" = None ->
  nc_parse left d code n = (n1, Exc (EFilesystem ("conf/" ++ driver n1 ++ "/grammar.json"))).
Proof.
  intros S G F. pose proof (open_settings_ok _ _ _ _ S) as (_ & A2 & _ & A3 & _). unfold Document.nc_parse, nc_then. rewrite S.
  unfold open_grammar. rewrite A3, G. unfold conf_file. now rewrite F.
Qed.

(** ** Histories *)

(** The parser after further documents; each finds the disk in another state. *)
Fixpoint after (l : list (settings * disk * string)) (n : nc_parser) : nc_parser :=
  match l with
  | [] => n
  | (old, d, code) :: l' => after l' (fst (nc_parse old d code n))
  end.

Lemma after_ready l : forall n, ready n -> after l n = n.
Proof.
  induction l as [|[[old d] code] l IH]; intros n R; cbn [after]; [reflexivity|]. rewrite (parse_ready old d n code R). cbn. now apply IH.
Qed.

Lemma history_irrelevant l left d left' d' code n : ready n ->
  snd (nc_parse left d code (after l n)) = snd (nc_parse left' d' code n).
Proof. intros R. rewrite (after_ready l n R), !parse_ready by exact R. reflexivity. Qed.

Lemma order_irrelevant left d c0 c n n1 r1 : nc_parse left d c0 n = (n1, r1) -> ready n1 -> opening left d n = (n1, None) ->
  snd (nc_parse left d c n1) = snd (nc_parse left d c n).
Proof.
  intros _ R O. rewrite (parse_ready left d n1 c R). unfold Document.nc_parse. fold (opening left d). now rewrite O.
Qed.

Lemma run_state left d c n : fst (nc_parse left d c n) = fst (opening left d n).
Proof. unfold Document.nc_parse. fold (opening left d). destruct (opening left d n) as [n' [r|]]; reflexivity. Qed.

Lemma first_document_irrelevant left d c0 c n n1 : opening left d n = (n1, None) ->
  snd (nc_parse left d c (fst (nc_parse left d c0 n))) = snd (nc_parse left d c n).
Proof.
  intros O. rewrite run_state, O. cbn [fst]. rewrite (parse_ready left d n1 c (opening_makes_ready _ _ _ _ O)).
  unfold Document.nc_parse. fold (opening left d). now rewrite O.
Qed.

(** ** Text behind a line *)

Lemma split_loop_app a : forall cur b, split_loop cur (a ++ String lf b) = (split_loop cur (a ++ String lf "") ++ split_lines b)%list.
Proof.
  induction a as [|c a IH]; intros cur b; cbn [append split_loop].
  - rewrite Ascii.eqb_refl. reflexivity.
  - destruct (Ascii.eqb c lf); [cbn [app]; f_equal; apply IH|apply IH].
Qed.

Lemma split_lines_app a b : split_lines (a ++ String lf b) = (split_lines (a ++ String lf "") ++ split_lines b)%list.
Proof. apply split_loop_app. Qed.

Lemma doc_loop_app p pt l1 : forall l2 n st a, doc_loop p pt n (l1 ++ l2) st a =
  match doc_loop p pt n l1 st a with
  | Ok (a1, st1) => doc_loop p pt (n + Z.of_nat (List.length l1)) l2 st1 a1
  | Exc e => Exc e
  end.
Proof.
  induction l1 as [|x l1 IH]; intros l2 n st a.
  - cbn. now replace (n + 0) with n by lia.
  - cbn [app doc_loop List.length]. replace (n + Z.of_nat (S (List.length l1))) with (n + 1 + Z.of_nat (List.length l1)) by lia.
    destruct x as [|c x]; [apply IH|]. destruct (lp_parse p st (n + 1) (String c x)) as [[[ret m] st1]|e]; cbn [bind]; [|reflexivity].
    set (a1 := if ret then a else _). destruct (if pt then doc_summary (lp_path p st1) (lp_time p st1) (n + 1) a1 else Ok a1); cbn [bind]; [apply IH|reflexivity].
Qed.

Lemma doc_summary_grows pr tr n a a' : doc_summary pr tr n a = Ok a' ->
  da_messages a' = da_messages a /\ exists more, da_summaries a' = (da_summaries a ++ more)%list /\ Forall (fun s => fst s = n - 1) more.
Proof.
  unfold doc_summary. destruct (dneqb _ _).
  - destruct (format_path_time _ _ _ _ _ _); cbn [bind]; [|discriminate]. intros E. injection E as <-. cbn. split; [reflexivity|].
    eexists. split; [reflexivity|]. repeat constructor.
  - intros E. injection E as <-. split; [reflexivity|]. exists []. split; [now rewrite app_nil_r|constructor].
Qed.

Lemma doc_loop_grows p pt l : forall n st a a' st', doc_loop p pt n l st a = Ok (a', st') ->
  exists ms su, da_messages a' = (da_messages a ++ ms)%list /\ da_summaries a' = (da_summaries a ++ su)%list /\ Forall (fun s => n <= fst s) su.
Proof.
  induction l as [|x l IH]; intros n st a a' st'; cbn [doc_loop].
  - intros E. injection E as <- <-. exists [], []. rewrite !app_nil_r. repeat split. constructor.
  - destruct x as [|c x].
    + intros E. apply IH in E as (ms & su & A & B & C). exists ms, su. repeat split; auto. eapply Forall_impl; [|exact C]. cbn. lia.
    + destruct (lp_parse p st (n + 1) (String c x)) as [[[ret m] st1]|e]; cbn [bind]; [|discriminate].
      set (a1 := if ret then a else _).
      assert (A1 : exists m1, da_messages a1 = (da_messages a ++ m1)%list /\ da_summaries a1 = da_summaries a).
      { unfold a1. destruct ret; [exists []; rewrite app_nil_r; auto|]. eexists. split; reflexivity. }
      destruct A1 as (m1 & M1 & S1). destruct pt.
      * destruct (doc_summary _ _ _ a1) as [a2|e] eqn:D; cbn [bind]; [|discriminate]. intros E.
        apply doc_summary_grows in D as (D1 & more & D2 & D3). apply IH in E as (ms & su & A & B & C).
        exists (m1 ++ ms)%list, (more ++ su)%list. rewrite A, B, D1, D2, M1, S1, !app_assoc. repeat split.
        apply Forall_app. split; [eapply Forall_impl; [|exact D3]; cbn; lia|eapply Forall_impl; [|exact C]; cbn; lia].
      * cbn [bind]. intros E. apply IH in E as (ms & su & A & B & C). exists (m1 ++ ms)%list, su. rewrite A, B, M1, S1, !app_assoc. repeat split.
        eapply Forall_impl; [|exact C]. cbn. lia.
Qed.

(** What stands behind a line does not change what is said about the text up to it. *)
Lemma document_prefix n a b : match run_document (a ++ String lf "") n with
  | Exc e => run_document (a ++ String lf b) n = Exc e
  | Ok (ms, mac, su) => forall ms' mac' su', run_document (a ++ String lf b) n = Ok (ms', mac', su') ->
      exists ms2 su2, ms' = (ms ++ ms2)%list /\ su' = (su ++ su2)%list /\
        Forall (fun s => Z.of_nat (List.length (split_lines (a ++ String lf ""))) <= fst s) su2
  end.
Proof.
  unfold Document.run_document. destruct (document_parser n) as [p|e]; cbn [bind]; [|reflexivity].
  unfold parse_document. rewrite (split_lines_app a b), doc_loop_app. cbn [Z.add].
  match goal with |- context [doc_loop ?q ?t ?k (split_lines (a ++ String lf "")) ?s ?i] =>
    destruct (doc_loop q t k (split_lines (a ++ String lf "")) s i) as [[a1 st1]|e] eqn:D end; cbn [bind]; [|reflexivity].
  intros ms' mac' su'.
  match goal with |- context [doc_loop ?q ?t ?k (split_lines b) ?s ?i] =>
    destruct (doc_loop q t k (split_lines b) s i) as [[a2 st2]|e] eqn:D2 end; cbn [bind]; [|discriminate].
  intros E. injection E as <- <- <-. apply doc_loop_grows in D2 as (ms & su & A & B & C). exists ms, su. auto.
Qed.
End Runs.
