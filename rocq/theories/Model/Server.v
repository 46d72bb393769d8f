(** The language server's message handler (nclangsrv/JsonMessageHandler.cpp) on
    parsed JSON documents. *)
From Verif Require Import Model.Base Model.Double Model.Macro Model.NCText Model.MacrosDesc.

(** ** JSON as rapidjson presents it *)

(** Numbers: those for which [IsInt] may hold, and others with their text. *)
Inductive json : Type :=
| JNull | JBool (b : bool) | JInt (n : Z) | JNum (text : string) | JStr (s : string)
| JArr (l : list json) | JObj (l : list (string * json)).

(** [HasMember]/[operator[]]: the first member with the name. Asking a value
    that is no object, for a missing member or for a value of another type is an
    assertion, hence undefined without assertions. *)
Definition member (j : json) (k : string) : res (option json) :=
  match j with
  | JObj l => Ok (assoc k l)
  | _ => Exc (EUB "member of a value that is no object")
  end.

Definition get (j : json) (k : string) : res json :=
  do m <- member j k;
  match m with Some v => Ok v | None => Exc (EUB "missing member") end.

Definition is_int (n : Z) : bool := (int_min <=? n) && (n <=? int_max).

Definition get_int (j : json) : res Z :=
  match j with
  | JInt n => if is_int n then Ok n else Exc (EUB "no int")
  | _ => Exc (EUB "no int")
  end.

Definition get_string (j : json) : res string :=
  match j with JStr s => Ok s | _ => Exc (EUB "no string") end.

(** A [std::string] made from [GetString()] alone ends at the first zero. *)
Definition c_str (s : string) : string := fst (span (fun c => negb (Ascii.eqb c "000")) s).

Definition get_c_string (j : json) : res string := do s <- get_string j; Ok (c_str s).

Definition first_of (j : json) : res json :=
  match j with
  | JArr (x :: _) => Ok x
  | _ => Exc (EUB "no first element")
  end.

Definition dec_or_empty (s : string) : json := match s with EmptyString => JNull | _ => JStr s end.

(** ** Text searches of hover *)

(** JsonMessageHandler.cpp 636: "[GgMm]\d+\.?\d?", 666: "[GgMm]#\d+", 712:
    "#\d+"; the length of the match at the beginning. *)
Definition is_gm (c : ascii) : bool :=
  Ascii.eqb c "G" || Ascii.eqb c "g" || Ascii.eqb c "M" || Ascii.eqb c "m".

Definition match_code (s : string) : option nat :=
  match s with
  | String c s' =>
      if is_gm c then
        match some_digits s' with
        | None => None
        | Some (ds, r) =>
            let n := S (String.length ds) in
            let '(n, r) := match r with String d r' => if Ascii.eqb d "." then (S n, r') else (n, r) | _ => (n, r) end in
            Some (match r with String d _ => if is_digit d then S n else n | _ => n end)
        end
      else None
  | EmptyString => None
  end.

Definition match_macro (s : string) : option nat :=
  match s with
  | String c s' =>
      if Ascii.eqb c "#" then option_map (fun r => S (String.length (fst r))) (some_digits s') else None
  | EmptyString => None
  end.

Definition match_code_macro (s : string) : option nat :=
  match s with
  | String c s' => if is_gm c then option_map S (match_macro s') else None
  | EmptyString => None
  end.

(** JsonMessageHandler.cpp 114-133: the match (leftmost, then on behind it) that
    covers the character [ch]; [skip] counts the rest of a match that does not.
    Positions are compared as int (no overflow for lines shorter than 2^31). *)
Fixpoint search_pattern (m : string -> option nat) (ch : Z) (skip : nat) (pos : Z) (s : string)
  : option (string * Z * Z) :=
  match s with
  | EmptyString => None
  | String _ s' =>
      match skip with
      | S k => search_pattern m ch k (pos + 1) s'
      | O =>
          match m s with
          | None => search_pattern m ch O (pos + 1) s'
          | Some n =>
              if (pos <=? ch) && (ch <? pos + Z.of_nat n)
              then Some (substring 0 n s, pos, pos + Z.of_nat n)
              else search_pattern m ch (pred n) (pos + 1) s'
          end
      end
  end.

(** JsonMessageHandler.cpp 135-141. *)
Fixpoint extract_code (s : string) : string :=
  match s with
  | String c (String _ _ as r) => if Ascii.eqb c "0" then extract_code r else s
  | _ => s
  end.

(** JsonMessageHandler.cpp 143-154 with "\n" and "\n\n". *)
Fixpoint double_lf (s : string) : string :=
  match s with
  | EmptyString => EmptyString
  | String c s' => if Ascii.eqb c lf then String lf (String lf (double_lf s')) else String c (double_lf s')
  end.

(** JsonMessageHandler.cpp 156-159. *)
Definition markdown (contents : string) (td : string * string) : string :=
  "**" ++ contents ++ ": " ++ fst td ++ "** " ++ String lf (String lf "---") ++ String lf (String lf (double_lf (snd td))).

(** ** State and environment *)

(** JsonMessageHandler.h 49-54. *)
Record file_context : Type := mkFC { fc_lines : list string; fc_macros : macro_map dbl; fc_path_time : list (Z * string) }.

(** Things outside the model: the NC parser (its state and one run on a
    document, NCParser::parse), the description files, which may be missing or
    faulty, and the text of a faulty user file as a diagnostic
    (JsonMessageHandler.cpp 51-103). *)
Record server_env : Type := mkEnv {
  env_parser : Type;
  env_parse : env_parser -> string -> res (env_parser * (list string * macro_map dbl * list (Z * string)));
  env_gcodes : res codes;
  env_mcodes : res codes;
  env_macros : res (macros_desc * option string);
  env_macro_error : string -> json;
  env_logger : bool }.

Record server : Type := mkSrv {
  sv_files : list (string * file_context);
  sv_suggestions : list string;
  sv_gcodes : option codes;
  sv_mcodes : option codes;
  sv_macros : option macros_desc;
  sv_uri : string;
  sv_exit : bool }.

Definition server_init : server := mkSrv [] [] None None None "" false.

Section Handler.
Variable env : server_env.

Definition set_files (v : server) f := mkSrv f (sv_suggestions v) (sv_gcodes v) (sv_mcodes v) (sv_macros v) (sv_uri v) (sv_exit v).
Definition set_uri (v : server) u := mkSrv (sv_files v) (sv_suggestions v) (sv_gcodes v) (sv_mcodes v) (sv_macros v) u (sv_exit v).
Definition set_exit (v : server) := mkSrv (sv_files v) (sv_suggestions v) (sv_gcodes v) (sv_mcodes v) (sv_macros v) (sv_uri v) true.

Definition prefixed (p : string) (l : list string) : list string := map (fun c => p ++ c) l.

(** JsonMessageHandler.cpp 396-411. *)
Definition fetch_gcodes (v : server) : res server :=
  match sv_gcodes v with
  | Some _ => Ok v
  | None =>
      do c <- env_gcodes env;
      Ok (mkSrv (sv_files v) (sv_suggestions v ++ prefixed "G" (co_codes c))%list (Some c) (sv_mcodes v) (sv_macros v) (sv_uri v) (sv_exit v))
  end.

(** JsonMessageHandler.cpp 413-428. *)
Definition fetch_mcodes (v : server) : res server :=
  match sv_mcodes v with
  | Some _ => Ok v
  | None =>
      do c <- env_mcodes env;
      Ok (mkSrv (sv_files v) (sv_suggestions v ++ prefixed "M" (co_codes c))%list (sv_gcodes v) (Some c) (sv_macros v) (sv_uri v) (sv_exit v))
  end.

(** JsonMessageHandler.cpp 430-445 and 1018-1026. When reading fails the reader
    stays, with what it has read, and no suggestion is added. The suggestions
    come from an unordered set; the model takes the order of the data. *)
Definition fetch_macros (v : server) : res (server * option string) :=
  match sv_macros v with
  | Some _ => Ok (v, None)
  | None =>
      do m <- env_macros env;
      let '(md, err) := m in
      let sg := match err with None => prefixed "#" (map fst (md_data md)) | Some _ => [] end in
      Ok (mkSrv (sv_files v) (sv_suggestions v ++ sg)%list (sv_gcodes v) (sv_mcodes v) (Some md) (sv_uri v) (sv_exit v), err)
  end.

(** JsonMessageHandler.cpp 34-49. *)
Definition make_range (line from to : Z) : json :=
  let at_ c := JObj [("line", JInt line); ("character", JInt c)] in
  JObj [("start", at_ from); ("end", at_ to)].

Definition response (id : Z) (result : json) : json :=
  JObj [("jsonrpc", JStr "2.0"); ("id", JInt id); ("result", result)].

(** JsonMessageHandler.cpp 305-361. *)
Definition capabilities : json :=
  JObj [("capabilities",
    JObj [("textDocumentSync", JObj [("openClose", JBool true); ("change", JInt 1)]);
          ("completionProvider", JObj [("resolveProvider", JBool true)]);
          ("hoverProvider", JBool true);
          ("codeLensProvider", JObj [("resolveProvider", JBool true)])])].

(** JsonMessageHandler.cpp 1090-1106. *)
Definition diagnostic_json (d : diagnostic) : json :=
  JObj [("severity", JInt 1); ("range", make_range (dg_line d) (dg_char d) (dg_char d)); ("message", JStr (dg_text d))].

Definition erase {A} (k : string) (m : list (string * A)) : list (string * A) :=
  filter (fun e => negb (String.eqb (fst e) k)) m.

(** JsonMessageHandler.cpp 1004-1129: the notification sent. *)
Definition publish (v : server) (p : env_parser env) (uri content : string) : res (server * env_parser env * json) :=
  do r <- env_parse env p content;
  let '(p, (messages, macros, path_time)) := r in
  let v := set_files v ((uri, mkFC (content_lines content) macros path_time) :: erase uri (sv_files v)) in
  do vm <- fetch_macros v;
  let '(v, err) := vm in
  do ds <- diagnostics messages;
  let first := match err with Some EmptyString => [] | Some e => [env_macro_error env e] | None => [] end in
  Ok (v, p, JObj [("jsonrpc", JStr "2.0"); ("method", JStr "textDocument/publishDiagnostics");
                  ("params", JObj [("uri", JStr uri); ("diagnostics", JArr (first ++ map diagnostic_json ds)%list)])]).

(** JsonMessageHandler.cpp 447-491. *)
Fixpoint completion_items (n : Z) (l : list string) : list json :=
  match l with
  | [] => []
  | s :: r => JObj [("label", JStr s); ("kind", JInt 15); ("insertTextFormat", JInt 2); ("data", JInt n)] :: completion_items (n + 1) r
  end.

(** Description of a code in a table that must have been loaded; using an empty
    pointer is undefined. *)
Definition code_desc (c : option codes) (code : string) : res (option (string * string)) :=
  match c with
  | None => Exc (EUB "codes not loaded")
  | Some c => Ok (assoc code (co_data c))
  end.

(** JsonMessageHandler.cpp 510-575. *)
Definition label_desc (v : server) (label : string) : res (string * string) :=
  match label with
  | EmptyString => Ok ("", "")
  | String c code =>
      if Ascii.eqb c "G" || Ascii.eqb c "g" then
        do d <- code_desc (sv_gcodes v) code; Ok (match d with Some td => td | None => ("", "") end)
      else if Ascii.eqb c "M" || Ascii.eqb c "m" then
        do d <- code_desc (sv_mcodes v) code; Ok (match d with Some td => td | None => ("", "") end)
      else if Ascii.eqb c "#" then
        match sv_macros v with
        | None => Exc (EUB "macro descriptions not loaded")
        | Some m => get_desc (env_logger env) m code
        end
      else Ok ("", "")
  end.

Definition copied (params : json) (k : string) : res (list (string * json)) :=
  do m <- member params k; Ok (match m with Some x => [(k, x)] | None => [] end).

Definition resolve_item (v : server) (request : json) : res json :=
  do id <- get request "id";
  do id <- get_int id;
  do ps <- member request "params";
  match ps with
  | None => Ok (response id (JObj []))
  | Some params =>
      do lab <- get params "label";
      do f <- copied params "insertTextFormat";
      do k <- copied params "kind";
      do d <- copied params "data";
      do label <- get_string lab;
      do td <- label_desc v label;
      Ok (response id (JObj ([("label", lab)] ++ f ++ k ++ d ++
                             [("detail", dec_or_empty (fst td)); ("documentation", dec_or_empty (snd td))])%list))
  end.

(** JsonMessageHandler.cpp 105-112. *)
Definition hover_result (contents : string) (line from to : Z) : json :=
  JObj [("contents", JStr contents); ("range", make_range line from to)].

Definition tail_from (n : nat) (s : string) : string := substring n (String.length s - n) s.

(** JsonMessageHandler.cpp 640-661: [contents] is not empty. *)
Definition hover_code (v : server) (contents : string) : res string :=
  let code := extract_code (tail_from 1 contents) in
  let g := match contents with String c _ => Ascii.eqb c "G" || Ascii.eqb c "g" | _ => false end in
  do d <- code_desc (if g then sv_gcodes v else sv_mcodes v) code;
  Ok (match d with Some td => markdown contents td | None => contents end).

(** JsonMessageHandler.cpp 668-709. *)
Definition hover_code_macro (v : server) (mm : macro_map dbl) (contents : string) (line from to : Z)
  : res (server * json) :=
  do n <- stoi (extract_code (tail_from 2 contents));
  match macro_lookup mm (to_u32 n) (line + 1) with
  | None => Ok (v, JObj [])
  | Some x =>
      do v <- fetch_gcodes v;
      do v <- fetch_mcodes v;
      let gmcode := to_string_trunc x in
      let g := match contents with String c _ => Ascii.eqb c "G" || Ascii.eqb c "g" | _ => false end in
      let contents := contents ++ (if g then " (G" else " (M") ++ gmcode ++ ")" in
      do d <- code_desc (if g then sv_gcodes v else sv_mcodes v) gmcode;
      Ok (v, hover_result (match d with Some td => markdown contents td | None => contents end) line from to)
  end.

(** JsonMessageHandler.cpp 712-751. *)
Definition hover_macro (v : server) (mm : macro_map dbl) (contents : string) (line from to : Z) : res json :=
  let code := extract_code (tail_from 1 contents) in
  do n <- stoi code;
  let value := macro_lookup mm (to_u32 n) (line + 1) in
  let contents1 := match value with Some x => contents ++ " = " ++ to_string_trunc x | None => contents end in
  match sv_macros v with
  | None => Exc (EUB "macro descriptions not loaded")
  | Some md =>
      do td <- get_desc (env_logger env) md code;
      let described := negb (String.eqb (fst td) "") || negb (String.eqb (snd td) "") in
      let contents2 := if described then markdown contents1 td else contents1 in
      let contents3 := if is_some value || described then contents2 else contents2 ++ " = undefined" in
      Ok (hover_result contents3 line from to)
  end.

(** JsonMessageHandler.cpp 632-770: the result for a line of text. *)
Definition hover_line (v : server) (text : string) (mm : option (macro_map dbl)) (line ch : Z) : res (server * json) :=
  match search_pattern match_code ch 0 0 text with
  | Some (contents, from, to) =>
      do v <- fetch_gcodes v;
      do v <- fetch_mcodes v;
      do c <- hover_code v contents;
      Ok (v, hover_result c line from to)
  | None =>
      match mm with
      | None | Some [] => Ok (v, JNull)
      | Some mm =>
          match search_pattern match_code_macro ch 0 0 text with
          | Some (contents, from, to) => hover_code_macro v mm contents line from to
          | None =>
              match search_pattern match_macro ch 0 0 text with
              | Some (contents, from, to) => do r <- hover_macro v mm contents line from to; Ok (v, r)
              | None => Ok (v, JNull)
              end
          end
      end
  end.

(** JsonMessageHandler.cpp 602-791. A negative line is larger than any size. *)
Definition hover (v : server) (request : json) : res (server * json) :=
  do params <- get request "params";
  do position <- get params "position";
  do line <- get position "line"; do line <- get_int line;
  do ch <- get position "character"; do ch <- get_int ch;
  do doc <- get params "textDocument";
  do uri <- get doc "uri"; do uri <- get_c_string uri;
  let '(text, mm) :=
    match assoc uri (sv_files v) with
    | None => ("", None)
    | Some fc => if (line <? 0) || (Z.of_nat (List.length (fc_lines fc)) <=? line) then ("", None)
                 else (nth (Z.to_nat line) (fc_lines fc) "", Some (fc_macros fc))
    end in
  do id <- get request "id"; do id <- get_int id;
  do r <- hover_line v text mm line ch;
  let '(v, result) := r in
  Ok (v, response id result).

(** JsonMessageHandler.cpp 793-879. *)
Definition lens (l : Z * string) : json :=
  JObj [("range", make_range (fst l) 0 0); ("command", JObj [("title", JStr (snd l)); ("command", JNull)])].

Definition code_lens (v : server) (request : json) : res (server * json) :=
  do params <- get request "params";
  do doc <- get params "textDocument";
  do uri <- get doc "uri"; do uri <- get_c_string uri;
  let '(v, pt) := match assoc uri (sv_files v) with
                  | None => (v, [])
                  | Some fc => (set_uri v uri, fc_path_time fc)
                  end in
  do id <- get request "id"; do id <- get_int id;
  Ok (v, response id (match pt with [] => JNull | _ => JArr (map lens pt) end)).

Fixpoint find_line (n : Z) (l : list (Z * string)) : option string :=
  match l with
  | [] => None
  | (k, s) :: r => if k =? n then Some s else find_line n r
  end.

(** JsonMessageHandler.cpp 881-963. A negative line is no key of the map. *)
Definition resolve_lens (v : server) (request : json) : res json :=
  do params <- get request "params";
  do range <- get params "range";
  do start <- get range "start";
  do line <- get start "line"; do line <- get_int line;
  let pt := match assoc (sv_uri v) (sv_files v) with None => [] | Some fc => fc_path_time fc end in
  do id <- get request "id"; do id <- get_int id;
  Ok (response id (match find_line line pt with
                   | None => JNull
                   | Some s => JObj [("range", range); ("command", JObj [("title", JStr s); ("command", JNull)])]
                   end)).

(** JsonMessageHandler.cpp 218-224. *)
Definition request_id (d : json) : res Z :=
  do i <- member d "id";
  match i with
  | Some (JInt n) => Ok (if is_int n then n else 0)
  | Some (JStr s) => atoi (c_str s)
  | _ => Ok 0
  end.

(** JsonMessageHandler.cpp 203-303. The document is null when the text is no
    JSON. Replies and notifications sent, in order. *)
Definition handle (vp : server * env_parser env) (d : json) : res (server * env_parser env * list json) :=
  let '(v, p) := vp in
  do id <- request_id d;
  do m <- member d "method";
  do method <- match m with Some x => get_string x | None => Ok "" end;
  if String.eqb method "initialize" then Ok (v, p, [response id capabilities])
  else if String.eqb method "textDocument/didOpen" then
    do params <- get d "params"; do doc <- get params "textDocument";
    do uri <- get doc "uri"; do uri <- get_c_string uri;
    do text <- get doc "text"; do text <- get_c_string text;
    do r <- publish v p uri text; let '(v, p, n) := r in Ok (v, p, [n])
  else if String.eqb method "textDocument/didChange" then
    do params <- get d "params"; do doc <- get params "textDocument";
    do changes <- get params "contentChanges";
    do uri <- get doc "uri"; do uri <- get_c_string uri;
    do change <- first_of changes;
    do text <- get change "text"; do text <- get_c_string text;
    do r <- publish v p uri text; let '(v, p, n) := r in Ok (v, p, [n])
  else if String.eqb method "textDocument/didClose" then
    do params <- get d "params"; do doc <- get params "textDocument";
    do uri <- get doc "uri"; do uri <- get_c_string uri;
    Ok (set_files v (erase uri (sv_files v)), p, [])
  else if String.eqb method "textDocument/completion" then
    do v <- fetch_gcodes v; do v <- fetch_mcodes v;
    Ok (v, p, [response id (JArr (completion_items 1 (sv_suggestions v)))])
  else if String.eqb method "completionItem/resolve" then
    do r <- resolve_item v d; Ok (v, p, [r])
  else if String.eqb method "textDocument/hover" then
    do r <- hover v d; let '(v, r) := r in Ok (v, p, [r])
  else if String.eqb method "textDocument/codeLens" then
    do r <- code_lens v d; let '(v, r) := r in Ok (v, p, [r])
  else if String.eqb method "codeLens/resolve" then
    do r <- resolve_lens v d; Ok (v, p, [r])
  else if String.eqb method "shutdown" then Ok (set_exit v, p, [response id JNull])
  else if String.eqb method "exit" then Ok (set_exit v, p, [])
  else Ok (v, p, []).

(** A sequence of messages, until the server exits or fails. *)
Fixpoint handle_all (vp : server * env_parser env) (ds : list json) : res (server * env_parser env * list (list json)) :=
  match ds with
  | [] => Ok (vp, [])
  | d :: r =>
      do x <- handle vp d;
      let '(vp', out) := x in
      if sv_exit (fst vp') then Ok (vp', [out])
      else do y <- handle_all vp' r; let '(vp'', outs) := y in Ok (vp'', out :: outs)
  end.

End Handler.
