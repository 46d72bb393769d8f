(** Text handling of the language server: nclangsrv/NCParser.cpp (splitting a
    document into lines, numbering of messages, summaries) and the diagnostics
    of nclangsrv/JsonMessageHandler.cpp. *)
From Verif Require Import Model.Base Model.Double Model.Calc.

Definition lf : ascii := "010".

(** NCParser.cpp 205-213. Carriage return is white space already. The call of
    [std::isspace] with a negative char is undefined in the standard; as in
    glibc such characters are taken not to be white space. *)
Fixpoint rtrim (s : string) : string :=
  match s with
  | EmptyString => EmptyString
  | String c s' =>
      match rtrim s' with
      | EmptyString => if is_space c then EmptyString else String c EmptyString
      | t => String c t
      end
  end.

(** NCParser.cpp 215-238: [cur] is the text from [start] to [end], [s] the text
    from [end] on; [start < code.size()] after the loop says [cur] is not
    empty. *)
Fixpoint split_loop (cur s : string) : list string :=
  match s with
  | EmptyString => match cur with EmptyString => [] | _ => [rtrim cur] end
  | String c s' =>
      if Ascii.eqb c lf then rtrim cur :: split_loop EmptyString s'
      else split_loop (cur ++ String c EmptyString) s'
  end.

Definition split_lines (code : string) : list string := split_loop EmptyString code.

(** [printf("%0wd")] of a number that is not negative. *)
Definition padded (w : nat) (n : Z) : string :=
  let s := nat_to_string n in zero_pad (w - String.length s) ++ s.

(** NCParser.cpp 124-151. [static_cast<int64_t>] and [std::abs] are undefined
    outside their ranges. The text has at most 24 characters, so the buffer of
    32 is never too small. *)
Definition format_time (seconds : dbl) : res string :=
  match d_trunc (d_round (dmul seconds (d_of_Z 1000))) with
  | None => Exc (EUB "double to int64 out of range")
  | Some ms =>
      if (- 2 ^ 63 <? ms) && (ms <? 2 ^ 63) then
        let a := Z.abs ms in
        let hours := a / (1000 * 60 * 60) in
        let minutes := (a / (1000 * 60)) mod 60 in
        let secondsx := (a / 1000) mod 60 in
        let milliseconds := a mod 1000 in
        let sign := if ms <? 0 then "-" else "" in
        if 0 <? hours then
          Ok (sign ++ nat_to_string hours ++ ":" ++ padded 2 minutes ++ ":" ++ padded 2 secondsx ++ "."
              ++ padded 3 milliseconds)
        else
          Ok (sign ++ nat_to_string minutes ++ ":" ++ padded 2 secondsx ++ "." ++ padded 3 milliseconds)
      else Exc (EUB "double to int64 out of range")
  end.

(** GeneralParserDefines.h 270-288, the members used here. *)
Record path_result : Type := mkPR { pr_total : dbl; pr_work : dbl; pr_fast : dbl; pr_tool_total : dbl; pr_tool : string }.
Record time_result : Type := mkTR { tr_total : dbl; tr_work : dbl; tr_fast : dbl; tr_tool_total : dbl; tr_tool : string }.

(** NCParser.cpp 122. *)
Definition tolerance : dbl := d_of_ratio false 1 100.

(** NCParser.cpp 164-165 and the other [snprintf]/[append] pairs: the text is
    written to a buffer of 256 characters, [written] is the full length. When
    the text does not fit the append takes the terminating zero (length 256) or
    reads behind the buffer. *)
Definition snprintf_append (result text : string) : res string :=
  if (String.length text <? 256)%nat then Ok (result ++ text)
  else Exc (EUB "read behind the snprintf buffer").

(** NCParser.cpp 153-203. *)
Definition format_path_time (pr : path_result) (tr : time_result)
    (work_path work_time fast_path fast_time : dbl) : res string :=
  do r <- (if dgeb (pr_total pr) tolerance
           then snprintf_append "" (" | Total path = " ++ d_to_fixed 2 (pr_total pr)) else Ok "");
  do r <- (if dgeb (tr_total tr) tolerance
           then do t <- format_time (tr_total tr); snprintf_append r (" | Total time = " ++ t) else Ok r);
  do r <- (if dgeb (pr_tool_total pr) tolerance && dgeb (dsub (pr_total pr) (pr_tool_total pr)) tolerance
           then snprintf_append r (" | T" ++ pr_tool pr ++ " total path = " ++ d_to_fixed 2 (pr_tool_total pr))
           else Ok r);
  do r <- (if dgeb (pr_fast pr) tolerance
           then snprintf_append r (" | Total rapid path = " ++ d_to_fixed 2 fast_path) else Ok r);
  do r <- (if dgeb (tr_fast tr) tolerance
           then do t <- format_time fast_time; snprintf_append r (" | Total rapid time = " ++ t) else Ok r);
  do r <- (if dgeb (pr_work pr) tolerance
           then snprintf_append r (" | Total cut path = " ++ d_to_fixed 2 work_path) else Ok r);
  (if dgeb (tr_work tr) tolerance
   then do t <- format_time work_time; snprintf_append r (" | Total cut time = " ++ t) else Ok r).

(** [std::string::find] followed by [replace]: the first occurrence of [p] in
    [s] replaced by [q], or nothing when there is none. *)
Fixpoint replace_first (p q s : string) : option string :=
  if prefix p s then Some (q ++ substring (String.length p) (String.length s - String.length p) s)
  else match s with
       | EmptyString => None
       | String c s' => option_map (String c) (replace_first p q s')
       end.

(** NCParser.cpp 441-466: the message of line [n] with text [data] that the
    parser rejected with [m]. *)
Definition relabel (n : Z) (data m : string) : string :=
  match replace_first "line 1" ("line " ++ nat_to_string n) m with
  | Some m' => m'
  | None =>
      match m with
      | EmptyString => nat_to_string n ++ ": '" ++ data ++ "'"
      | String c m' => if Ascii.eqb c "1" then nat_to_string n ++ m' else nat_to_string n ++ ": " ++ m
      end
  end.

(** What the document loop takes from the line parser [ap] (NCParser.cpp
    425-438): a state, the verdict and message for a line (or an exception that
    leaves [parse]), and the path and time results after it. The server never converts or rotates (the flags set in
    240-251 are constant), so the remaining branches are not modelled. *)
Record line_parser : Type := mkLP {
  lp_state : Type;
  lp_parse : lp_state -> Z -> string -> res (bool * string * lp_state);
  lp_path : lp_state -> path_result;
  lp_time : lp_state -> time_result }.

(** The local variables of the loop (NCParser.cpp 391-400). *)
Record doc_acc : Type := mkDA {
  da_prev : dbl; da_work_path : dbl; da_work_time : dbl; da_fast_path : dbl; da_fast_time : dbl;
  da_messages : list string; da_summaries : list (Z * string) }.

Definition doc_init : doc_acc := mkDA dzero dzero dzero dzero dzero [] [].

Definition dneqb (x y : dbl) : bool := negb (deqb x y).
Definition add_nonzero (total x : dbl) : dbl := if dneqb x dzero then dadd total x else total.

(** NCParser.cpp 481-502. *)
Definition doc_summary (pr : path_result) (tr : time_result) (line : Z) (a : doc_acc) : res doc_acc :=
  if dneqb (tr_total tr) (da_prev a) then
    let fp := add_nonzero (da_fast_path a) (pr_fast pr) in
    let ft := add_nonzero (da_fast_time a) (tr_fast tr) in
    let wp := add_nonzero (da_work_path a) (pr_work pr) in
    let wt := add_nonzero (da_work_time a) (tr_work tr) in
    do s <- format_path_time pr tr wp wt fp ft;
    Ok (mkDA (tr_total tr) wp wt fp ft (da_messages a) (da_summaries a ++ [(line - 1, s)]))
  else Ok a.

(** NCParser.cpp 402-504. *)
Fixpoint doc_loop (p : line_parser) (path_time : bool) (line : Z) (lines : list string) (st : lp_state p)
    (a : doc_acc) : res (doc_acc * lp_state p) :=
  match lines with
  | [] => Ok (a, st)
  | data :: rest =>
      let line := line + 1 in
      match data with
      | EmptyString => doc_loop p path_time line rest st a
      | _ =>
          do r <- lp_parse p st line data;
          let '(ret, message, st) := r in
          let a := if ret then a
                   else mkDA (da_prev a) (da_work_path a) (da_work_time a) (da_fast_path a) (da_fast_time a)
                             (da_messages a ++ [relabel line data message]) (da_summaries a) in
          do a <- (if path_time then doc_summary (lp_path p st) (lp_time p st) line a else Ok a);
          doc_loop p path_time line rest st a
      end
  end.

(** NCParser.cpp 400-504: messages and summaries of a document, and the state
    of the parser at its end. *)
Definition parse_document (p : line_parser) (path_time : bool) (st : lp_state p) (code : string)
  : res (list string * list (Z * string) * lp_state p) :=
  do r <- doc_loop p path_time 0 (split_lines code) st doc_init;
  let '(a, st) := r in
  Ok (da_messages a, da_summaries a, st).

(** [std::getline(ss, data, d)] until it fails: pieces between delimiters, no
    empty piece after the last delimiter. *)
Fixpoint pieces (d : ascii) (cur s : string) : list string :=
  match s with
  | EmptyString => match cur with EmptyString => [] | _ => [cur] end
  | String c s' =>
      if Ascii.eqb c d then cur :: pieces d EmptyString s'
      else pieces d (cur ++ String c EmptyString) s'
  end.

(** JsonMessageHandler.cpp 1006-1011: the lines kept for hover and code lenses. *)
Definition content_lines (content : string) : list string := pieces lf EmptyString content.

(** [boost::algorithm::trim]. *)
Definition trim (s : string) : string := rtrim (snd (span is_space s)).

(** [atoi]: white space, sign, digits; undefined when the value is no int. *)
Definition atoi (s : string) : res Z :=
  let s1 := snd (span is_space s) in
  let '(neg, s2) :=
    match s1 with
    | String c r => if Ascii.eqb c "-" then (true, r) else if Ascii.eqb c "+" then (false, r) else (false, s1)
    | EmptyString => (false, s1)
    end in
  let n := digits_val (fst (span is_digit s2)) in
  let n := if neg : bool then - n else n in
  if (int_min <=? n) && (n <=? int_max) then Ok n else Exc (EUB "atoi out of range").

(** A published diagnostic: zero-based line and character, text. *)
Record diagnostic : Type := mkDiag { dg_line : Z; dg_char : Z; dg_text : string }.

Definition decrement (n : Z) : Z := if 0 <? n then n - 1 else n.

(** JsonMessageHandler.cpp 1053-1107, one message. Element 1 of a vector with
    one element is undefined behaviour. *)
Definition diagnostic_of (m : string) : res (option diagnostic) :=
  let tokens := map trim (pieces ":" EmptyString m) in
  do d <- match tokens with
          | [] => Ok (mkDiag 0 0 m)
          | t0 :: rest =>
              do line <- atoi t0;
              let line := decrement line in
              match rest with
              | t1 :: t2 :: _ =>
                  do ch <- atoi t1;
                  Ok (mkDiag line (decrement ch) t2)
              | [t1] => Ok (mkDiag line 0 t1)
              | [] => Exc (EUB "tokens[1] of one token")
              end
          end;
  Ok (if negb (dg_line d =? 0) || negb (dg_char d =? 0) || negb (String.eqb (dg_text d) "")
      then Some d else None).

(** JsonMessageHandler.cpp 1051-1108. *)
Fixpoint diagnostics (messages : list string) : res (list diagnostic) :=
  match messages with
  | [] => Ok []
  | m :: rest =>
      do d <- diagnostic_of m;
      do ds <- diagnostics rest;
      Ok (match d with Some d => d :: ds | None => ds end)
  end.
