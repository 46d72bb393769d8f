(** The extension of the editor (vscode-client/src/extension.ts, package.json) and
    the options of the server it starts (nclangsrv/nclangsrv.cpp 39-70).
    The editor is modelled by its documented behaviour: a setting has a value of
    the workspace, else one of the user, else its default; an update of a setting
    raises an event if it changes a value.  Texts shown to the user and the log
    are left out, except for the request to reload. *)
From Verif Require Import Model.Base.
Local Open Scope string_scope.
Local Open Scope list_scope.

(** ** Settings *)

Inductive setting : Type := SLog | SNcsetting | SPathTime | SMacros.
Inductive sval : Type := SText (s : string) | SBool (b : bool).
Inductive layer : Type := User | Workspace.

Definition setting_eqb (a b : setting) : bool :=
  match a, b with SLog, SLog | SNcsetting, SNcsetting | SPathTime, SPathTime | SMacros, SMacros => true | _, _ => false end.
Definition layer_eqb (a b : layer) : bool := match a, b with User, User | Workspace, Workspace => true | _, _ => false end.
Definition sval_eqb (a b : sval) : bool :=
  match a, b with SText s, SText t => String.eqb s t | SBool b, SBool c => Bool.eqb b c | _, _ => false end.
Definition osval_eqb (a b : option sval) : bool :=
  match a, b with Some x, Some y => sval_eqb x y | None, None => true | _, _ => false end.

Definition config : Type := layer -> setting -> option sval.

Definition set_config (l : layer) (k : setting) (v : option sval) (c : config) : config :=
  fun l' k' => if layer_eqb l l' && setting_eqb k k' then v else c l' k'.

(** package.json 40-56: the declared settings and their defaults. *)
Definition declared (k : setting) : bool := match k with SMacros => false | _ => true end.
Definition default (k : setting) : option sval :=
  match k with SLog | SNcsetting => Some (SText "") | SPathTime => Some (SBool true) | SMacros => None end.

(** [config.get]. *)
Definition get (c : config) (k : setting) : option sval :=
  match c Workspace k with
  | Some v => Some v
  | None => match c User k with Some v => Some v | None => default k end
  end.

(** A value as a condition. *)
Definition truthy (v : option sval) : bool :=
  match v with None => false | Some (SText s) => negb (String.eqb s "") | Some (SBool b) => b end.

Definition text_of_val (v : option sval) : string :=
  match v with Some (SText s) => s | Some (SBool true) => "true" | Some (SBool false) => "false" | None => "undefined" end.

(** extension.ts 93-112. *)
Definition server_args (c : config) : list string :=
  let opt name k := if truthy (get c k) then [name; text_of_val (get c k)] else [] in
  opt "--ncsetting-path" SNcsetting ++ opt "--log-path" SLog ++ opt "--calculate-path" SPathTime ++ opt "--macro-desc-path" SMacros.

(** ** The options of the server *)

(** nclangsrv.cpp 53-62: the long name, the short one, whether it has a value. *)
Definition known_options : list (string * option ascii * bool) :=
  [("help", Some "h"%char, false); ("single-line-output", Some "s"%char, true); ("convert-length", None, true); ("calculate-path", None, true);
   ("rotate", None, true); ("rotate-option", None, true); ("ncsetting-path", Some "n"%char, true); ("macro-desc-path", Some "m"%char, true);
   ("log-path", Some "l"%char, true)].

Fixpoint upto_equals (s : string) : string :=
  match s with EmptyString => EmptyString | String c r => if Ascii.eqb c "=" then EmptyString else String c (upto_equals r) end.

(** A token that boost takes for one of the options: a long name or the beginning
    of one, a short name and what follows it. *)
Definition looks_known (t : string) : bool :=
  match t with
  | String "-" (String "-" (String c r)) =>
      existsb (fun o => prefix (upto_equals (String c r)) (fst (fst o))) known_options
  | String "-" (String c _) =>
      negb (Ascii.eqb c "-") && existsb (fun o => match snd (fst o) with Some x => Ascii.eqb c x | None => false end) known_options
  | _ => false
  end.

Definition long_name (t : string) : option string :=
  match t with String "-" (String "-" n) => Some n | _ => None end.

(** [po::command_line_parser(...).run()] for long options with their values in
    the next token, the form the extension uses; anything else is an exception,
    which nothing catches, and so is a missing value.  [po::store] allows each
    option once. *)
Fixpoint read_options (args : list string) (seen : list (string * string)) : res (list (string * string)) :=
  match args with
  | [] => Ok seen
  | t :: args' =>
      match long_name t with
      | None => Exc EInvalidArgument
      | Some n =>
          if negb (existsb (fun o => String.eqb n (fst (fst o)) && snd o) known_options) then Exc EInvalidArgument
          else match args' with
               | [] => Exc EInvalidArgument
               | v :: args'' =>
                   if looks_known v then Exc EInvalidArgument
                   else match assoc n seen with
                        | Some _ => Exc EInvalidArgument
                        | None => read_options args'' ((n, v) :: seen)
                        end
               end
      end
  end.

(** [validate] for [bool]; the words in lower case. *)
Definition read_bool (s : string) : res bool :=
  if existsb (String.eqb s) [""; "on"; "yes"; "1"; "true"] then Ok true
  else if existsb (String.eqb s) ["off"; "no"; "0"; "false"] then Ok false
  else Exc EInvalidArgument.

Record options : Type := mkOptions { op_ncsetting : string; op_log : string; op_macros : string; op_path : bool }.

(** nclangsrv.cpp 39-70. *)
Definition server_options (args : list string) : res options :=
  do o <- read_options args [];
  do p <- match assoc "calculate-path" o with Some v => read_bool v | None => Ok false end;
  let text n := match assoc n o with Some v => v | None => "" end in
  Ok (mkOptions (text "ncsetting-path") (text "log-path") (text "macro-desc-path") p).

(** ** The extension at work *)

Record client : Type := mkClient {
  cl_config : config;
  cl_ignore : bool;        (* ignoreNextConfigurationChange *)
  cl_running : bool;       (* cmtConfigRunning *)
  cl_windows : bool;       (* process.platform == "win32" *)
  cl_args : list string;   (* of the running server *)
  cl_watched : option string }.

Inductive event : Type :=
| Edited (l : layer) (k : setting) (v : option sval)            (* the user edits a setting *)
| Unrelated                                                     (* some setting that is not of the extension changes *)
| Toggle                                                        (* ncproj.togglePathTimeCalculation *)
| Select (k : setting) (where_ : option layer) (file : option string)  (* ncproj.ncsettingSelect, macroDescriptionsSelect *)
| Create                                                        (* ncproj.ncsettingCreate *)
| ToolEnds
| FileChanged (f : string).

Inductive action : Type :=
| AskReload
| StartTool
| SayNotSupported
| SayRunning
| RestartServer
| ShowStatus (f : string).

Definition heeding (s : client) : client :=
  mkClient (cl_config s) false (cl_running s) (cl_windows s) (cl_args s) (cl_watched s).

(** extension.ts 181-197, for a change of setting [k]; all four are in the list. *)
Definition on_change (k : setting) (s : client) : client * list action :=
  if cl_ignore s then (heeding s, [])
  else (s, [AskReload]).

(** The editor stores a value and raises the event if it is another one. *)
Definition store_value (l : layer) (k : setting) (v : option sval) (s : client) : client * list action :=
  if osval_eqb (cl_config s l k) v then (s, [])
  else on_change k (mkClient (set_config l k v (cl_config s)) (cl_ignore s) (cl_running s) (cl_windows s) (cl_args s) (cl_watched s)).

(** [config.update]: a setting that is not declared is refused. *)
Definition update (l : layer) (k : setting) (v : sval) (s : client) : client * list action :=
  if declared k then store_value l k (Some v) s else (s, []).

Definition ignoring (s : client) : client :=
  mkClient (cl_config s) true (cl_running s) (cl_windows s) (cl_args s) (cl_watched s).

Definition with_running (b : bool) (s : client) : client :=
  mkClient (cl_config s) (cl_ignore s) b (cl_windows s) (cl_args s) (cl_watched s).

Definition step (e : event) (s : client) : client * list action :=
  match e with
  | Edited l k v => store_value l k v s
  | Unrelated => (if cl_ignore s then heeding s else s, [])     (* 181-197 *)
  | Toggle =>                                                   (* 365-372 *)
      let '(s', a) := update User SPathTime (SBool (negb (truthy (get (cl_config s) SPathTime)))) (ignoring s) in
      (s', a ++ [AskReload])
  | Select k (Some l) (Some f) =>                               (* 249-274 *)
      let '(s', a) := update l k (SText f) (ignoring s) in (s', a ++ [AskReload])
  | Select _ _ _ => (s, [])
  | Create =>                                                   (* 348-359 *)
      let say := if cl_windows s then [] else [SayNotSupported] in
      if cl_running s then (s, say ++ [SayRunning]) else (with_running true s, say ++ [StartTool])
  | ToolEnds => (with_running false s, [])                      (* 51-52 *)
  | FileChanged f =>                                            (* 215-222 *)
      match cl_watched s with
      | Some w => if String.eqb f w then (s, [RestartServer; ShowStatus f]) else (s, [])
      | None => (s, [])
      end
  end.

Fixpoint run (es : list event) (s : client) : client * list action :=
  match es with
  | [] => (s, [])
  | e :: es' => let '(s1, a) := step e s in let '(s2, b) := run es' s1 in (s2, a ++ b)
  end.

(** extension.ts 277-293, 93-125 and 199-201. *)
Definition activate (windows : bool) (c : config) : client :=
  mkClient c false false windows (server_args c)
    (if truthy (get c SNcsetting) then Some (text_of_val (get c SNcsetting)) else None).

(** ** The status bar *)

(** [path.extname] of a file name: from its last dot, if that is not the first
    character. *)
Fixpoint last_dot (s : string) (i : nat) (found : option nat) : option nat :=
  match s with EmptyString => found | String c r => last_dot r (S i) (if Ascii.eqb c "." then Some i else found) end.

Definition extname (s : string) : string :=
  if String.eqb s ".." then "" else
  match last_dot s 0 None with
  | Some (S i) => substring (S i) (String.length s - S i) s
  | _ => ""
  end.

(** [path.basename]: after the last slash; paths are in normal form. *)
Fixpoint basename (s acc : string) : string :=
  match s with EmptyString => acc | String c r => if Ascii.eqb c "/" then basename r "" else basename r (acc ++ String c "") end.

(** [text.replace(what, "")]: the first occurrence only. *)
Fixpoint remove_first (what s : string) : string :=
  if prefix what s then substring (String.length what) (String.length s - String.length what) s
  else match s with EmptyString => EmptyString | String c r => String c (remove_first what r) end.

(** extension.ts 170-175. *)
Definition stem (path : string) : string := let f := basename path "" in remove_first (extname f) f.

(** [trim]. *)
Definition js_space (c : ascii) : bool :=
  let n := nat_of_ascii c in (Nat.eqb n 32 || (Nat.leb 9 n && Nat.leb n 13))%bool.
Fixpoint trim_left (s : string) : string :=
  match s with EmptyString => EmptyString | String c r => if js_space c then trim_left r else s end.
Fixpoint trim_right (s : string) : string :=
  match s with
  | EmptyString => EmptyString
  | String c r => match trim_right r with EmptyString => if js_space c then EmptyString else String c EmptyString | r' => String c r' end
  end.
Definition js_trim (s : string) : string := trim_right (trim_left s).

(** The file as JSON, as far as the member machine_tool_id: not readable or no
    JSON, no such member (or not an object), a text, or something else. *)
Inductive id_member : Type := NoFile | NoMember | IdText (s : string) | IdOther (truth : bool).

(** extension.ts 145-168. *)
Definition status_text (path : string) (m : id_member) : string :=
  match m with
  | IdText s => if String.eqb s "" then stem path else if String.eqb (js_trim s) "" then stem path else js_trim s
  | NoFile | NoMember | IdOther _ => stem path
  end.
