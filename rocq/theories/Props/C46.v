(** C46: hovering shows the word under the cursor. *)
From Verif Require Import Model.Base Model.Double Model.Macro Model.NCText Model.MacrosDesc Model.Server.
From Verif Require Import Spec.Text Spec.NCTextSpec Spec.DescSpec Spec.ServerSpec Spec.HoverSpec.
From Verif Require Import Proofs.NCTextProofs Proofs.ServerProofs Proofs.HoverProofs Proofs.HoverReplyProofs.

(** The server has handled the messages [ds], which say [es] about documents. *)
Definition after (env : server_env) (p0 : env_parser env) (ds : list json) (es : list event) (v : server) (p : env_parser env) : Prop :=
  exists outs, handle_all env (server_init, p0) ds = Ok (v, p, outs) /\ List.length outs = List.length ds /\
    Forall2 says ds es /\ Forall single_change ds /\ Forall event_plain es.

(** [text] is the line [line], counted from zero, of [t]. *)
Definition is_line (t : string) (line : Z) (text : string) : Prop :=
  exists ls, segments t ls /\ 0 <= line /\ nth_error ls (Z.to_nat line) = Some text.

Definition table (gc mc : codes) (c : ascii) : codes := if Ascii.eqb c "G" || Ascii.eqb c "g" then gc else mc.

Lemma after_line env p0 ds es v p u t line text : after env p0 ds es v p -> last_text es u None = Some t -> is_line t line text ->
  exists q q' ms mm pt, env_parse env q t = Ok (q', (ms, mm, pt)) /\ hover_text v u line = (text, Some mm) /\ sv_macros v <> None.
Proof.
  intros (outs & H & L & Y & G & P) T (ls & S & B & N).
  pose proof (all_files env ds _ _ _ _ _ _ H L Y G P u None I) as C. rewrite T in C. unfold context_of in C.
  destruct (assoc u (sv_files v)) as [fc|] eqn:A; [|contradiction]. destruct C as [CL (q & q' & ms & E)].
  exists q, q', ms, (fc_macros fc), (fc_path_time fc). split; auto. split.
  - apply line_of_hover. exists fc. repeat split; auto. rewrite CL. apply segments_unique in S. now rewrite <- S.
  - destruct (all_good env ds _ _ _ _ _ H (good_init env)) as ((_ & GS) & _). apply GS. intro X. rewrite X in A. discriminate.
Qed.

Lemma after_sound env p0 ds es v p : after env p0 ds es v p -> sound_tables env v.
Proof. intros (outs & H & _). destruct (all_good env ds _ _ _ _ _ H (good_init env)) as ((S & _) & _). exact S. Qed.

(** A code: the reply shows it, with title and text of the table when the code
    without leading zeros is in it. *)
Theorem C46_code : forall env gc mc p0 ds es v p d u line ch t pre w suf c num key v' p' out,
  env_gcodes env = Ok gc -> env_mcodes env = Ok mc -> after env p0 ds es v p ->
  hovers d u line ch -> no_zero u -> last_text es u None = Some t -> is_line t line (pre ++ w ++ suf) ->
  code_word w suf c num -> stripped num key -> under ch pre w ->
  handle env (v, p) d = Ok (v', p', out) ->
  exists r, out = [r] /\
    shows r (match assoc key (co_data (table gc mc c)) with Some td => note w td | None => w end)
      line (String.length pre) (String.length pre + String.length w).
Proof.
  intros env gc mc p0 ds es v p d u line ch t pre w suf c num key v' p' out Eg Em A Hv Z T Li W K U H.
  destruct (hover_reply env _ _ _ _ _ _ _ _ _ Hv Z H) as (id & res & -> & E).
  destruct (after_line _ _ _ _ _ _ _ _ _ _ A T Li) as (q & q' & ms & mm & pt & _ & Q & _). rewrite Q in E. cbn [fst snd] in E.
  pose proof (hover_code_reply env v gc mc _ _ _ _ _ _ _ _ _ _ _ (after_sound _ _ _ _ _ _ A) Eg Em W K U E) as ->.
  eexists. split; [reflexivity|]. repeat split.
Qed.
Print Assumptions C46_code.

(** A macro variable that is no argument of a code, in a document that sets some
    macro: its value in force on the line (C01), its description (C38), or
    "undefined" when it has neither. *)
Theorem C46_macro_partial : forall env p0 ds es v p d u line ch t pre w suf n v' p' out,
  after env p0 ds es v p -> hovers d u line ch -> no_zero u -> last_text es u None = Some t ->
  is_line t line (pre ++ w ++ suf) -> macro_word w suf n -> under ch pre w ->
  (forall a c, pre = a ++ String c "" -> ~ code_letter c) ->
  handle env (v, p) d = Ok (v', p', out) ->
  exists q q' ms mm pt, env_parse env q t = Ok (q', (ms, mm, pt)) /\ (mm <> [] ->
  exists md e key td r, env_macros env = Ok (md, e) /\ (exists num, w = "#" ++ num /\ stripped num key) /\
    get_desc (env_logger env) md key = Ok td /\ out = [r] /\
    shows r (match macro_lookup mm n (line + 1) with
             | Some x => let known := w ++ " = " ++ to_string_trunc x in
                 if String.eqb (fst td) "" && String.eqb (snd td) "" then known else note known td
             | None => if String.eqb (fst td) "" && String.eqb (snd td) "" then w ++ " = undefined" else note w td
             end) line (String.length pre) (String.length pre + String.length w)).
Proof.
  intros env p0 ds es v p d u line ch t pre w suf n v' p' out A Hv Z T Li W U P H.
  destruct (hover_reply env _ _ _ _ _ _ _ _ _ Hv Z H) as (id & res & -> & E).
  destruct (after_line _ _ _ _ _ _ _ _ _ _ A T Li) as (q & q' & ms & mm & pt & Pa & Q & M). rewrite Q in E. cbn [fst snd] in E.
  exists q, q', ms, mm, pt. split; auto. intro N. destruct mm as [|m0 mm]; [congruence|].
  destruct (sv_macros v) as [md|] eqn:EM; [|congruence]. pose proof (after_sound _ _ _ _ _ _ A) as (_ & _ & S & _).
  destruct (S md EM) as [e Ee].
  destruct (hover_macro_reply env v md _ _ _ _ _ _ _ _ _ _ EM W U P E) as (td & key & K & D & R). cbv zeta in R.
  exists md, e, key, td. eexists. split; [exact Ee|]. split.
  { destruct W as (num & -> & _). exists num. split; [reflexivity|]. cbn [append] in K. rewrite tail_1 in K. exact K. }
  split; [exact D|]. split; [reflexivity|]. subst res.
  destruct (macro_lookup (m0 :: mm) n (line + 1)), (String.eqb (fst td) "" && String.eqb (snd td) ""); repeat split.
Qed.
Print Assumptions C46_macro_partial.

(** A code whose number is a macro variable with a value: the code it stands for. *)
Theorem C46_code_macro_partial : forall env gc mc p0 ds es v p d u line ch t pre c w suf n v' p' out,
  env_gcodes env = Ok gc -> env_mcodes env = Ok mc -> after env p0 ds es v p ->
  hovers d u line ch -> no_zero u -> last_text es u None = Some t -> is_line t line (pre ++ String c w ++ suf) ->
  code_letter c -> macro_word w suf n -> under ch pre (String c w) ->
  handle env (v, p) d = Ok (v', p', out) ->
  exists q q' ms mm pt r, env_parse env q t = Ok (q', (ms, mm, pt)) /\ out = [r] /\
    forall x, macro_lookup mm n (line + 1) = Some x ->
    let name := String (if Ascii.eqb c "G" || Ascii.eqb c "g" then "G" else "M") (to_string_trunc x) in
    let headline := String c w ++ " (" ++ name ++ ")" in
    shows r (match assoc (to_string_trunc x) (co_data (table gc mc c)) with Some td => note headline td | None => headline end)
      line (String.length pre) (String.length pre + String.length (String c w)).
Proof.
  intros env gc mc p0 ds es v p d u line ch t pre c w suf n v' p' out Eg Em A Hv Z T Li L W U H.
  destruct (hover_reply env _ _ _ _ _ _ _ _ _ Hv Z H) as (id & res & -> & E).
  destruct (after_line _ _ _ _ _ _ _ _ _ _ A T Li) as (q & q' & ms & mm & pt & Pa & Q & _). rewrite Q in E. cbn [fst snd] in E.
  exists q, q', ms, mm, pt. eexists. split; [exact Pa|]. split; [reflexivity|]. intros x X.
  destruct mm as [|m0 mm]; [cbn in X; discriminate|].
  pose proof (hover_code_macro_reply env v gc mc _ _ _ _ _ _ _ _ _ _ _ (after_sound _ _ _ _ _ _ A) Eg Em L W U E) as R.
  rewrite X in R. cbv zeta in R. subst res. repeat split.
Qed.
Print Assumptions C46_code_macro_partial.

(** On nothing of the kind, there is nothing. *)
Theorem C46_nothing : forall env p0 ds es v p d u line ch t text v' p' out,
  after env p0 ds es v p -> hovers d u line ch -> no_zero u -> last_text es u None = Some t -> is_line t line text ->
  (forall pre w suf c num, text = pre ++ w ++ suf -> code_word w suf c num -> ~ under ch pre w) ->
  (forall pre w suf n, text = pre ++ w ++ suf -> macro_word w suf n -> ~ under ch pre w) ->
  (forall pre c w suf n, text = pre ++ String c w ++ suf -> code_letter c -> macro_word w suf n -> ~ under ch pre (String c w)) ->
  handle env (v, p) d = Ok (v', p', out) ->
  exists r, out = [r] /\ at_path r ["result"] = Some JNull.
Proof.
  intros env p0 ds es v p d u line ch t text v' p' out A Hv Z T Li N1 N2 N3 H.
  destruct (hover_reply env _ _ _ _ _ _ _ _ _ Hv Z H) as (id & res & -> & E).
  destruct (after_line _ _ _ _ _ _ _ _ _ _ A T Li) as (q & q' & ms & mm & pt & _ & Q & _). rewrite Q in E. cbn [fst snd] in E.
  rewrite (hover_nothing env v text _ line ch v' res N1 N2 N3 E). eexists. split; reflexivity.
Qed.
Print Assumptions C46_nothing.

(** Small servers. *)
Definition described_env (mm : macro_map dbl) : server_env :=
  mkEnv unit (fun _ s => Ok (tt, ([], mm, []))) (Ok (mkCodes [("1", ("Line", "moves"))] ["1"])) (Ok (mkCodes [] []))
        (Ok (mkMD [("3001", ("Clock", "milliseconds"))] [], None)) (fun _ => JNull) false.
Definition ask (u : string) (line ch : Z) : json :=
  JObj [("id", JInt 1); ("method", JStr "textDocument/hover");
        ("params", JObj [("textDocument", JObj [("uri", JStr u)]); ("position", JObj [("line", JInt line); ("character", JInt ch)])])].
Definition open (u t : string) : json :=
  JObj [("method", JStr "textDocument/didOpen"); ("params", JObj [("textDocument", JObj [("uri", JStr u); ("text", JStr t)])])].

Lemma opened_after mm u t v p : (exists outs, handle_all (described_env mm) (server_init, tt) [open u t] = Ok (v, p, outs) /\ List.length outs = 1%nat) ->
  no_zero u -> no_zero t -> after (described_env mm) tt [open u t] [Sent u t] v p.
Proof.
  intros (outs & H & L) Zu Zt. exists outs. split; auto. split; auto. split; [|split].
  - constructor; [apply says_open; reflexivity|constructor].
  - constructor; [|constructor]. intro M. discriminate M.
  - constructor; [split; auto|constructor].
Qed.
Ltac zeros := intros a b E; repeat (destruct a as [|? a]; [discriminate E|injection E as _ E]); destruct a; discriminate E.

(** A variable with a description shows nothing in a document that sets no macro. *)
Theorem C46_description_refuted : exists v p v' p' r,
  after (described_env []) tt [open "f" "X#3001"] [Sent "f" "X#3001"] v p /\
  hovers (ask "f" 0 3) "f" 0 3 /\ is_line "X#3001" 0 ("X" ++ "#3001" ++ "") /\ macro_word "#3001" "" 3001 /\ under 3 "X" "#3001" /\
  handle (described_env []) (v, p) (ask "f" 0 3) = Ok (v', p', [r]) /\ at_path r ["result"] = Some JNull.
Proof.
  do 5 eexists. split; [apply opened_after; [eexists; split; [vm_compute; reflexivity|reflexivity]|zeros|zeros]|].
  split; [repeat split|]. split.
  { exists ["X#3001"]. split; [|split; [lia|reflexivity]]. apply (content_segments "X#3001"). }
  split. { exists "3001". repeat split; try discriminate; intros a b E; discriminate. }
  split; [unfold under; cbn; lia|]. split; vm_compute; reflexivity.
Qed.
Print Assumptions C46_description_refuted.

(** A code with a macro that has no value: the result is an empty object. *)
Theorem C46_undefined_refuted : exists v p v' p' r,
  after (described_env [(mkKey 1 1, d_of_Z 0)]) tt [open "f" "G#5"] [Sent "f" "G#5"] v p /\
  hovers (ask "f" 0 1) "f" 0 1 /\ is_line "G#5" 0 ("" ++ String "G" "#5" ++ "") /\ macro_word "#5" "" 5 /\ under 1 "" (String "G" "#5") /\
  handle (described_env [(mkKey 1 1, d_of_Z 0)]) (v, p) (ask "f" 0 1) = Ok (v', p', [r]) /\ at_path r ["result"] = Some (JObj []).
Proof.
  do 5 eexists. split; [apply opened_after; [eexists; split; [vm_compute; reflexivity|reflexivity]|zeros|zeros]|].
  split; [repeat split|]. split.
  { exists ["G#5"]. split; [|split; [lia|reflexivity]]. apply (content_segments "G#5"). }
  split. { exists "5". repeat split; try discriminate; intros a b E; discriminate. }
  split; [unfold under; cbn; lia|]. split; vm_compute; reflexivity.
Qed.
Print Assumptions C46_undefined_refuted.

Example C46_ex : exists v p v' p' r v2 p2 r2,
  let env := described_env [(mkKey 5 1, d_of_Z 1)] in
  let t := "G01 X#5" ++ String "010" "G#5" in
  after env tt [open "f" t] [Sent "f" t] v p /\
  hovers (ask "f" 0 2) "f" 0 2 /\ is_line t 0 ("" ++ "G01" ++ " X#5") /\ is_line t 1 ("" ++ String "G" "#5" ++ "") /\
  code_word "G01" " X#5" "G" "01" /\ stripped "01" "1" /\ under 2 "" "G01" /\ macro_word "#5" "" 5 /\
  handle env (v, p) (ask "f" 0 2) = Ok (v', p', [r]) /\ shows r (note "G01" ("Line", "moves")) 0 0 3 /\
  handle env (v', p') (ask "f" 1 2) = Ok (v2, p2, [r2]) /\ shows r2 (note "G#5 (G1)" ("Line", "moves")) 1 0 3.
Proof.
  do 8 eexists. cbv zeta. split; [apply opened_after; [eexists; split; [vm_compute; reflexivity|reflexivity]|zeros|zeros]|].
  split; [repeat split|]. split.
  { exists ["G01 X#5"; "G#5"]. split; [|split; [lia|reflexivity]]. apply (content_segments ("G01 X#5" ++ String "010" "G#5")). }
  split.
  { exists ["G01 X#5"; "G#5"]. split; [|split; [lia|reflexivity]]. apply (content_segments ("G01 X#5" ++ String "010" "G#5")). }
  split. { exists "01", "". repeat split; try discriminate. - unfold code_letter; auto. - left. repeat split; discriminate. }
  split. { exists "0". repeat split; try discriminate; intros r E; discriminate. }
  split; [unfold under; cbn; lia|].
  split. { exists "5". repeat split; try discriminate; intros a b E; discriminate. }
  split; [vm_compute; reflexivity|]. split; [repeat split|]. split; [vm_compute; reflexivity|]. repeat split.
Qed.
