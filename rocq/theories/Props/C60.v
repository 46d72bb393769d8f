(** C60: configuration files that cannot be read. *)
From Verif Require Import Model.Base Model.Attr Model.Double Model.Verifiers Model.PathCalc Model.Enums Model.NCText Model.Parser Model.Settings Model.Document.
From Verif Require Import Spec.VerifierSpec Spec.SettingsSpec Spec.DocumentSpec Proofs.DocumentProofs Proofs.ParserCases Props.C59.
Local Open Scope string_scope.
Local Open Scope Z_scope.
Local Open Scope list_scope.

(** Without a settings file the machine is a mill in millimetres: X and Y from -500 to
    500, Z from 0 to 1000, feeds up to 20000 and speeds up to 10000. *)
Theorem C60_defaults :
  let k := se_kin default_settings in
  se_type default_settings = TT_Mill /\ cs_units (se_cnc default_settings) = Millimeter /\
  ks_axes k = [("X", (d_of_Z (-500), d_of_Z 500)); ("Y", (d_of_Z (-500), d_of_Z 500)); ("Z", (dzero, d_of_Z 1000))] /\
  (ks_work_feed k = d_of_Z 20000 /\ ks_fast_feed k = d_of_Z 20000 /\ ks_spindle k = 10000 /\ ks_warehouse k = 30 /\ ks_exchange_time k = 6) /\
  se_exchange default_settings = [("X", dzero); ("Y", dzero); ("Z", d_of_Z 500)] /\
  (forall w, In w ["X"; "Y"; "I"; "J"; "K"] -> assoc w (se_base default_settings) = Some dzero) /\ assoc "Z" (se_base default_settings) = Some (d_of_Z 500).
Proof.
  do 3 (split; [reflexivity|]). split; [repeat split; reflexivity|]. split; [reflexivity|]. split; [|reflexivity]. intros w I. cbn in I. repeat (destruct I as [<-|I]; [reflexivity|]). contradiction.
Qed.
Print Assumptions C60_defaults.

(** Settings that cannot be read are the only thing reported, for this document
    and, as the reader remains unread, for the next ones; nothing else is read. *)
Theorem C60_settings : forall lit libm atan log cabs stale range_what left d n code,
  nc_settings_given n = true -> sr_read (nc_settings n) = false -> ~ settings_readable (dk_settings d) ->
  exists n', nc_parse lit libm atan log cabs stale range_what left d code n = (n', Ok (["ERROR: Couldn't read .ncsetting file"], [], [])) /\
    nc_settings_given n' = true /\ sr_read (nc_settings n') = false /\
    nc_path_time n' = nc_path_time n /\ nc_grammar n' = nc_grammar n /\ nc_gcodes n' = nc_gcodes n /\ nc_mcodes n' = nc_mcodes n.
Proof. exact settings_failure. Qed.
Print Assumptions C60_settings.

(** The first of the other files that cannot be read is the one reported. *)
Theorem C60_first_grammar : forall lit libm atan log cabs stale range_what left d n n1 code f,
  open_settings left d n = (n1, None) -> nc_grammar n = None ->
  dk_conf d (driver n1) "grammar.json" = Some f -> ~ (exists root, f = Some root /\ grammar_readable root) ->
  exists n', nc_parse lit libm atan log cabs stale range_what left d code n = (n', Ok (["ERROR: Couldn't read word grammar settings"], [], [])) /\
    nc_grammar n' <> None /\ nc_settings n' = nc_settings n1 /\ nc_settings_given n' = nc_settings_given n.
Proof. exact grammar_failure. Qed.
Print Assumptions C60_first_grammar.

Theorem C60_first_gcodes : forall lit libm atan log cabs stale range_what left d n n2 code f,
  nc_then (open_settings left d) (open_grammar d) n = (n2, None) -> nc_gcodes n = None ->
  dk_conf d (driver n2) "gcode_groups.json" = Some f -> ~ (exists root, f = Some root /\ groups_readable root) ->
  exists n', nc_parse lit libm atan log cabs stale range_what left d code n = (n', Ok (["ERROR: Couldn't read gcode groups settings"], [], [])) /\
    nc_gcodes n' <> None.
Proof. exact gcodes_failure. Qed.
Print Assumptions C60_first_gcodes.

Theorem C60_first_mcodes : forall lit libm atan log cabs stale range_what left d n n3 code f,
  nc_then (open_settings left d) (nc_then (open_grammar d) (open_gcodes d)) n = (n3, None) -> nc_mcodes n = None ->
  dk_conf d (driver n3) "mcode_groups.json" = Some f -> ~ (exists root, f = Some root /\ groups_readable root) ->
  exists n', nc_parse lit libm atan log cabs stale range_what left d code n = (n', Ok (["ERROR: Couldn't read mcode groups settings"], [], [])) /\
    nc_mcodes n' <> None.
Proof. exact mcodes_failure. Qed.
Print Assumptions C60_first_mcodes.

(** A file that is not there ends the call with an exception; the reader is still
    to be made then. *)
Theorem C60_missing : forall lit libm atan log cabs stale range_what left d n n1 code,
  open_settings left d n = (n1, None) -> nc_grammar n = None -> dk_conf d (driver n1) "grammar.json" = None ->
  nc_parse lit libm atan log cabs stale range_what left d code n =
    (n1, Exc (EFilesystem ("conf/" ++ driver n1 ++ "/grammar.json"))).
Proof. exact grammar_missing. Qed.
Print Assumptions C60_missing.

(** When nothing fails the parser works with what the files of the driver of the
    settings say. *)
Theorem C60_configured : forall left d n n', fresh n -> opening left d n = (n', None) -> configured d n' /\ ready n'.
Proof. intros left d n n' F O. exact (conj (opening_configured left d n n' F O) (opening_makes_ready left d n n' O)). Qed.
Print Assumptions C60_configured.

(** What was read is what the parser of a document uses, and the drivers of Haas
    are parsed as Haas. *)
Theorem C60_used : forall n g o gc mc, nc_grammar n = Some (g, o) -> nc_gcodes n = Some gc -> nc_mcodes n = Some mc ->
  let cf := config_of n in
  cf_grammar cf = g /\ cf_ops cf = o /\ cf_gcodes cf = gc /\ cf_mcodes cf = mc /\
  (cf_haas cf = true <-> driver n = "haas_lathe" \/ driver n = "haas_mill").
Proof.
  intros n g o gc mc G A B. cbv zeta. unfold config_of, driver. rewrite G, A, B. cbn. repeat (split; [reflexivity|]).
  destruct (se_driver (sr_settings (nc_settings n))); cbn; intuition discriminate.
Qed.
Print Assumptions C60_used.

(** *** Cases *)

Definition C60_group : ptree := node [("groups", node [("motion", node [("", node [("code", leaf "1"); ("rest", leaf "0")])])])].
Definition C60_conf (dir name : string) : option (option ptree) :=
  if String.eqb dir "haas_lathe" then
    if String.eqb name "grammar.json" then Some (Some C59_words)
    else if String.eqb name "gcode_groups.json" then Some (Some C59_codes)
    else if String.eqb name "mcode_groups.json" then Some (Some C60_group)
    else None
  else None.
Definition C60_good : disk := mkDisk (Some C59_tree) C60_conf.
Definition C60_no_grammar : disk :=
  mkDisk (Some C59_tree) (fun dir name => if String.eqb name "grammar.json" then Some None else C60_conf dir name).
Definition C60_parse : disk -> string -> nc_parser -> nc_parser * res nc_result :=
  nc_parse ex_lit (fun _ => ex_id) ex_id ex_id ex_id 90 "range" default_settings.

(** A grammar that could not be read is not tried again: the next document is
    parsed with an empty one, and goes on so when the file has been repaired. *)
Theorem C60_refuted : ~ (forall d n n' code code' t,
  C60_parse d code n = (n', Ok ([t], [], [])) -> t = "ERROR: Couldn't read word grammar settings" ->
  ~ (exists root, dk_conf d (driver n') "grammar.json" = Some (Some root) /\ grammar_readable root) ->
  snd (C60_parse d code' n') = Ok ([t], [], [])).
Proof.
  intros H. specialize (H C60_no_grammar (nc_new true false) (fst (C60_parse C60_no_grammar "" (nc_new true false))) "" ("X1" ++ String lf "")%string
    "ERROR: Couldn't read word grammar settings").
  assert (E : C60_parse C60_no_grammar "" (nc_new true false) =
    (fst (C60_parse C60_no_grammar "" (nc_new true false)), Ok (["ERROR: Couldn't read word grammar settings"], [], [])))
    by (vm_compute; reflexivity).
  specialize (H E eq_refl). assert (U : ~ (exists root, dk_conf C60_no_grammar (driver (fst (C60_parse C60_no_grammar "" (nc_new true false)))) "grammar.json" =
    Some (Some root) /\ grammar_readable root)) by (intros (r & X & _); discriminate X).
  specialize (H U). clear E U. vm_compute in H. discriminate H.
Qed.
Print Assumptions C60_refuted.


Lemma C60_no_settings_unreadable : ~ settings_readable None.
Proof. intros (r & s & E & _). discriminate E. Qed.

Example C60_ex :
  let no_settings := mkDisk None C60_conf in
  let doc := ("X1" ++ String lf "Y1")%string in
  let first := C60_parse no_settings doc (nc_new true false) in
  snd first = Ok (["ERROR: Couldn't read .ncsetting file"], [], []) /\ ~ settings_readable (dk_settings no_settings) /\
  (* once the file is there it is used *)
  (exists m, snd (C60_parse C60_good doc (fst first)) = Ok (["1: Missing value for Y"; "2: 'Y1'"], m, [])) /\
  (exists n', opening default_settings C60_good (nc_new true false) = (n', None) /\ sr_settings (nc_settings n') = C59_expected) /\
  snd (C60_parse C60_no_grammar doc (nc_new true false)) = Ok (["ERROR: Couldn't read word grammar settings"], [], []) /\
  (* the second time no error is reported, nor is the repaired file read *)
  (exists m, snd (C60_parse C60_good doc (fst (C60_parse C60_no_grammar doc (nc_new true false)))) = Ok (["1: 'X1'"; "2: 'Y1'"], m, [])) /\
  snd (C60_parse C60_good doc (nc_new false false)) = Exc (EFilesystem "conf/fanuc_mill/grammar.json").
Proof.
  split; [vm_compute; reflexivity|]. split; [exact C60_no_settings_unreadable|].
  split; [eexists; vm_compute; reflexivity|]. split; [eexists; vm_compute; split; reflexivity|].
  split; [vm_compute; reflexivity|]. split; [eexists; vm_compute; reflexivity|]. vm_compute; reflexivity.
Qed.
