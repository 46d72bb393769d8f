(** One run of the server's parser on a document: NCParser::parse.
    Source: nclangsrv/NCParser.cpp 259-520. *)
From Verif Require Import Model.Base Model.Attr Model.Double Model.Macro Model.Verifiers Model.PathCalc Model.Enums.
From Verif Require Import Model.NCText Model.Parser Model.Messages Model.Settings.

(** The files: the settings of the user, and those below "conf" by directory and
    name, if they exist. *)
Record disk : Type := mkDisk {
  dk_settings : option ptree;
  dk_conf : string -> string -> option (option ptree)
}.

(** NCParser.h 27-45: the members that matter. The readers are null until the
    first call and are never asked to read again. [nc_settings_given]: the path
    of the settings is not empty; [nc_path_time] is calculate_path_time. *)
Record nc_parser : Type := mkNC {
  nc_settings_given : bool;
  nc_path_time : bool;
  nc_settings : settings_reader;
  nc_grammar : option (fanuc_grammar * list string);
  nc_gcodes : option code_groups;
  nc_mcodes : option code_groups
}.

Definition nc_new (settings_given path_time : bool) : nc_parser :=
  mkNC settings_given path_time settings_new None None None.

Definition nc_result : Type := list string * macro_map dbl * list (Z * string).

(** A step goes on or ends the call with an answer or an exception. *)
Definition nc_step : Type := nc_parser -> nc_parser * option (res nc_result).

Definition nc_then (a b : nc_step) : nc_step :=
  fun n => match a n with (n', None) => b n' | r => r end.

Definition nc_error (m : string) : option (res nc_result) := Some (Ok ([m], [], [])).

Section Document.
Variable lit : string -> dbl.
Variable libm : string -> dbl -> dbl.
Variables atan log cabs : dbl -> dbl.
Variable stale : Z.
Variable range_what : string.
(** What a failing [NCSettingsReader::read] leaves, see Model/Settings.v. *)
Variable left : settings.
Variable d : disk.

(** 261-262. *)
Definition open_settings : nc_step := fun n =>
  if nc_settings_given n then
    let '(r, ok) := settings_read left (dk_settings d) (nc_settings n) in
    (mkNC (nc_settings_given n) (nc_path_time n) r (nc_grammar n) (nc_gcodes n) (nc_mcodes n),
     if ok then None else nc_error "ERROR: Couldn't read .ncsetting file")
  else (n, None).

Definition driver (n : nc_parser) : string := parser_type_name (se_driver (sr_settings (nc_settings n))).

(** [fs::canonical] throws when the file does not exist. *)
Definition conf_file (n : nc_parser) (name : string) : res (option ptree) :=
  match dk_conf d (driver n) name with
  | Some f => Ok f
  | None => Exc (EFilesystem ("conf/" ++ driver n ++ "/" ++ name))
  end.

(** 268-281. *)
Definition open_grammar : nc_step := fun n =>
  match nc_grammar n with
  | Some _ => (n, None)
  | None =>
      match conf_file n "grammar.json" with
      | Exc e => (n, Some (Exc e))
      | Ok f =>
          let '(g, ok) := read_grammar f in
          (mkNC (nc_settings_given n) (nc_path_time n) (nc_settings n) (Some g) (nc_gcodes n) (nc_mcodes n),
           if ok then None else nc_error "ERROR: Couldn't read word grammar settings")
      end
  end.

(** 283-297. *)
Definition open_gcodes : nc_step := fun n =>
  match nc_gcodes n with
  | Some _ => (n, None)
  | None =>
      match conf_file n "gcode_groups.json" with
      | Exc e => (n, Some (Exc e))
      | Ok f =>
          let '(g, ok) := read_groups f in
          (mkNC (nc_settings_given n) (nc_path_time n) (nc_settings n) (nc_grammar n) (Some g) (nc_mcodes n),
           if ok then None else nc_error "ERROR: Couldn't read gcode groups settings")
      end
  end.

(** 299-313. *)
Definition open_mcodes : nc_step := fun n =>
  match nc_mcodes n with
  | Some _ => (n, None)
  | None =>
      match conf_file n "mcode_groups.json" with
      | Exc e => (n, Some (Exc e))
      | Ok f =>
          let '(g, ok) := read_groups f in
          (mkNC (nc_settings_given n) (nc_path_time n) (nc_settings n) (nc_grammar n) (nc_gcodes n) (Some g),
           if ok then None else nc_error "ERROR: Couldn't read mcode groups settings")
      end
  end.

(** 325-329. *)
Definition server_settings : parser_settings := mkPS true true true true true.

(** 331-353: no parser type leads to Heidenhain. AllAttributesParser.cpp 257. *)
Definition is_haas (t : parser_type) : bool :=
  match t with PT_HaasLathe | PT_HaasMill => true | _ => false end.

Definition config_of (n : nc_parser) : config :=
  mkConfig (match nc_grammar n with Some g => fst g | None => mkFG [] [] end)
           (match nc_grammar n with Some g => snd g | None => [] end)
           (match nc_gcodes n with Some g => g | None => [] end)
           (match nc_mcodes n with Some g => g | None => [] end)
           (is_haas (se_driver (sr_settings (nc_settings n)))).

(** 425-438 and 483-484. The line number is cast to int, which is exact below
    2^31 lines. The parser is made without path results only in a state that
    [set_ncsettings] never leaves. *)
Definition fanuc_line_parser (cf : config) : line_parser :=
  mkLP parser
    (fun p line data =>
       match parse lit libm atan log cabs stale cf server_settings line data p with
       | (p', _, Answer ret m) => Ok (ret, message_text range_what English m, p')
       | (_, _, Escapes e) => Exc e
       end)
    (fun p => match pr_calc p with
              | Some c => let r := c_path (cl_calc c) in mkPR (p_total r) (p_work r) (p_fast r) (p_tool_total r) (p_tool_id r)
              | None => mkPR dzero dzero dzero dzero ""
              end)
    (fun p => match pr_calc p with
              | Some c => let r := c_time (cl_calc c) in mkTR (t_total r) (t_work r) (t_fast r) (t_tool_total r) (t_tool_id r)
              | None => mkTR dzero dzero dzero dzero ""
              end).

(** 355-388: a parser is made for each document. *)
Definition document_parser (n : nc_parser) : res parser :=
  let s := sr_settings (nc_settings n) in
  match set_ncsettings (config_of n) (machine_of s) (kinematics_of s) (se_zero s)
          (reset_macro_values true (parser_new (config_of n) false)) with
  | (p, None) => Ok p
  | (_, Some e) => Exc e
  end.

(** 390-519. *)
Definition run_document (code : string) (n : nc_parser) : res nc_result :=
  do p <- document_parser n;
  do r <- parse_document (fanuc_line_parser (config_of n)) (nc_path_time n) p code;
  let '(ms, summaries, p') := r in
  Ok (ms, pr_macros p', summaries).

(** 259-520. *)
Definition nc_parse (code : string) (n : nc_parser) : nc_parser * res nc_result :=
  match nc_then open_settings (nc_then open_grammar (nc_then open_gcodes open_mcodes)) n with
  | (n', Some r) => (n', r)
  | (n', None) => (n', run_document code n')
  end.

End Document.
