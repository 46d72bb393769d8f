(** The .NET side of the parser library: reading what the calls of the C
    interface hand out and giving it back.
    Source: parser_net/AllAttributesParser.cs, parser_net/FanucAllAttributesParser.cs
    and parser_net/CodeGroups.cs.
    Texts are bytes: decoding them as UTF-8 (messages) or by the code page of the
    system (words) is left out.  Variables of the runtime start as null. *)
From Verif Require Import Model.Base Model.Attr Model.Double Model.Macro Model.Verifiers Model.Grammar.
From Verif Require Import Model.PathCalc Model.Renumberer Model.Parser Model.Wrapper.
Local Open Scope string_scope.
Local Open Scope list_scope.
Local Open Scope Z_scope.

(** ** Reading *)

(** AllAttributesParser.cs 1157-1160: the bytes in front of the first zero. *)
Fixpoint c_text (s : string) : res string :=
  match s with
  | EmptyString => Exc (EUB "read behind an array")
  | String c r => if Ascii.eqb c zero then Ok EmptyString else do t <- c_text r; Ok (String c t)
  end.

(** AllAttributesParser.cs 1156-1163, and what the marshaller does for a field
    with [UnmanagedType.LPStr] and in [PtrToStringAnsi].  A null pointer would
    give a null text there; none is ever handed out, see [C71_words]. *)
Definition read_text (p : ptr) (h : heap) : res string :=
  do c <- load p h;
  match c with CChars s => c_text s | _ => Exc (EUB "no text") end.

(** AllAttributesParser.cs 1173-1182 and its copies. *)
Definition net_message (p : ptr) (h : heap) : res (string * heap) :=
  match p with
  | PNull => Ok (EmptyString, h)
  | _ => do t <- read_text p h; do h <- dispose_chars p h; Ok (t, h)
  end.

(** AllAttributesParser.cs 617-623 and the other imports: [bool] stands for four
    bytes, the library sets one.  [junk] tells whether another byte of the
    register is not zero. *)
Definition net_bool (junk r : bool) : bool := r || junk.

(** [Marshal.PtrToStructure] of a WordValueWrapper, AllAttributesParser.cs 205-212. *)
Definition read_word (p : ptr * ptr) (h : heap) : res (string * string) :=
  do w <- read_text (fst p) h;
  do v <- read_text (snd p) h;
  Ok (w, v).

Fixpoint read_all {A B} (f : A -> heap -> res B) (l : list A) (h : heap) : res (list B) :=
  match l with
  | [] => Ok []
  | x :: l' => do y <- f x h; do ys <- read_all f l' h; Ok (y :: ys)
  end.

(** AllAttributesParser.cs 1216-1221. *)
Definition read_words (p : ptr) (length : Z) (h : heap) : res (list (string * string)) :=
  do c <- load p h;
  do l <- as_words c;
  do l <- first_n length l;
  read_all read_word l h.

(** ** The calls *)

Section Calls.
Variable text : message -> string.
Variable junk : bool.

(** AllAttributesParser.cs 1165-1185: the call without words. *)
Definition net_parse (op : parser -> parser * block * answer) (p : parser) (h : heap)
  : parser * heap * res (bool * string) :=
  match op p with
  | (p', _, Escapes e) => (p', h, Exc e)
  | (p', _, Answer r m) =>
      let '(msg, h1) := fill_message (text m) PNull h in
      match net_message msg h1 with
      | Ok (t, h2) => (p', h2, Ok (net_bool junk r, t))
      | Exc e => (p', h1, Exc e)
      end
  end.

(** AllAttributesParser.cs 1200-1224, after the library returned. *)
Definition take_words (o : outs) (h : heap) : res (list (string * string) * string * heap) :=
  do x <- net_message (o_message o) h;
  let '(t, h) := x in
  if o_length o =? 0 then Ok ([], t, h)
  else
    do ws <- read_words (o_value o) (o_length o) h;
    do h <- dispose_words (o_value o) (o_length o) h;
    Ok (ws, t, h).

(** AllAttributesParser.cs 1187-1225, 1315-1353, 1355-1392, 1394-1432, 1444-1478,
    1654-1691 and 1693-1730: the same text with another call of the library. *)
Definition net_words (op : parser -> parser * block * answer) (p : parser) (h : heap)
  : parser * heap * res (bool * list (string * string) * string) :=
  match words_call text op (mkOuts PNull 0 PNull) p h with
  | (p', h', o, Exc e) => (p', h', Exc e)
  | (p', h', o, Ok r) =>
      match take_words o h' with
      | Ok (ws, t, h2) => (p', h2, Ok (net_bool junk r, ws, t))
      | Exc e => (p', h', Exc e)
      end
  end.

(** *** Split files *)

(** The three nested loops of AllAttributesParser.cs 1591-1602: the blocks and
    pieces are cut off the front of the words. *)
Fixpoint cut {A} (ns : list Z) (l : list A) : res (list (list A)) :=
  match ns with
  | [] => Ok []
  | n :: ns' =>
      do x <- first_n n l;
      do xs <- cut ns' (skipn (Z.to_nat n) l);
      Ok (x :: xs)
  end.

(** AllAttributesParser.cs 1566-1606, after the library returned. *)
Definition take_split (o : split_outs) (h : heap) : res (list (list (list (string * string))) * string * heap) :=
  do c <- load (so_piece_lengths o) h; do ns <- as_ints (so_length o) c;
  do c <- load (so_block_lengths o) h; do ms <- as_ints (sum ns) c;
  do x <- net_message (so_message o) h;
  let '(t, h) := x in
  if so_length o =? 0 then Ok ([], t, h)
  else
    do ws <- read_words (so_value o) (sum ms) h;
    do blocks <- cut ms ws;
    do pieces <- cut ns blocks;
    do h <- dispose_split (so_value o) (so_block_lengths o) (so_piece_lengths o) (so_length o) h;
    Ok (pieces, t, h).

(** AllAttributesParser.cs 1549-1608. *)
Definition net_split (op : parser -> split_result) (p : parser) (h : heap)
  : parser * heap * res (bool * list (list (list (string * string))) * string) :=
  match split_call text op (mkSO PNull PNull PNull 0 PNull) p h with
  | (p', h', o, Exc e) => (p', h', Exc e)
  | (p', h', o, Ok r) =>
      match take_split o h' with
      | Ok (ps, t, h2) => (p', h2, Ok (net_bool junk r, ps, t))
      | Exc e => (p', h', Exc e)
      end
  end.

(** AllAttributesParser.cs 1627-1651, after the library returned. *)
Definition take_texts (o : outs) (h : heap) : res (list string * string * heap) :=
  do files <- (if o_length o =? 0 then Ok []
               else do c <- load (o_value o) h; do l <- as_ptrs c; do l <- first_n (o_length o) l; read_all read_text l h);
  do x <- net_message (o_message o) h;
  let '(t, h) := x in
  do h <- dispose_texts (o_value o) (o_length o) h;
  Ok (files, t, h).

(** AllAttributesParser.cs 1610-1652. *)
Definition net_texts (op : parser -> split_result) (p : parser) (h : heap)
  : parser * heap * res (bool * list string * string) :=
  match split_texts_call text op (mkOuts PNull 0 PNull) p h with
  | (p', h', o, Exc e) => (p', h', Exc e)
  | (p', h', o, Ok r) =>
      match take_texts o h' with
      | Ok (fs, t, h2) => (p', h2, Ok (net_bool junk r, fs, t))
      | Exc e => (p', h', Exc e)
      end
  end.

End Calls.

(** ** Macros, path and time *)

(** [Dictionary<MacroValuesKey, double>], AllAttributesParser.cs 172-177: keys
    are equal when both numbers are. *)
Definition net_key : Type := (Z * Z)%type.

Fixpoint net_assign (k : net_key) (v : dbl) (m : list (net_key * dbl)) : list (net_key * dbl) :=
  match m with
  | [] => [(k, v)]
  | (k', v') :: m' =>
      if (fst k =? fst k') && (snd k =? snd k') then (k', v) :: m' else (k', v') :: net_assign k v m'
  end.

(** The loops of AllAttributesParser.cs 1246-1247 and 1270-1271. *)
Definition net_assign_all (kvs : list (net_key * dbl)) (m : list (net_key * dbl)) : list (net_key * dbl) :=
  fold_left (fun m e => net_assign (fst e) (snd e) m) kvs m.

(** AllAttributesParser.cs 1227-1252. *)
Definition net_macros (mv : macro_map dbl) (h : heap) : res (list (net_key * dbl) * heap) :=
  let '(o, h) := get_macro_values mv (mkMO PNull PNull PNull 0) h in
  if mo_length o =? 0 then Ok ([], h)
  else
    do c <- load (mo_ids o) h; do ids <- as_ints (mo_length o) c;
    do c <- load (mo_lines o) h; do lines <- as_ints (mo_length o) c;
    do c <- load (mo_values o) h; do vs <- as_dbls (mo_length o) c;
    let d := net_assign_all (combine (combine ids lines) vs) [] in
    do h <- dispose_macros o h;
    Ok (d, h).

(** AllAttributesParser.cs 1254-1276; no lines are handed out. *)
Definition net_line_macros (mv : macro_map dbl) (line : Z) (d : list (net_key * dbl)) (h : heap)
  : res (Z * list (net_key * dbl) * heap) :=
  let '(o, h) := get_line_macro_values mv line (mkMO PNull PNull PNull 0) h in
  if mo_length o =? 0 then Ok (0, d, h)
  else
    do c <- load (mo_ids o) h; do ids <- as_ints (mo_length o) c;
    do c <- load (mo_values o) h; do vs <- as_dbls (mo_length o) c;
    let d := net_assign_all (combine (map (fun i => (i, line)) ids) vs) d in
    do h <- dispose_macros o h;
    Ok (mo_length o, d, h).

(** AllAttributesParser.cs 80-100. *)
Record net_result : Type := mkNR { nr_total : dbl; nr_work : dbl; nr_fast : dbl; nr_tool_total : dbl; nr_tool : string }.

(** AllAttributesParser.cs 1291-1292; the null case gives a fresh object and is
    left out: nothing hands out null. *)
Definition read_result (p : ptr) (h : heap) : res net_result :=
  do c <- load p h;
  match c with
  | CResult a b c d t => do s <- read_text t h; Ok (mkNR a b c d s)
  | _ => Exc (EUB "no result")
  end.

Definition read_range (r : ptr * (dbl * dbl * dbl)) (h : heap) : res (string * (dbl * dbl * dbl)) :=
  do w <- read_text (fst r) h; Ok (w, snd r).

Definition read_ranges (p : ptr) (length : Z) (h : heap) : res (list (string * (dbl * dbl * dbl))) :=
  do c <- load p h; do l <- as_ranges c; do l <- first_n length l; read_all read_range l h.

(** AllAttributesParser.cs 1283-1310: both branches give everything back. *)
Definition net_path (metric : bool) (c : calc) (h : heap)
  : res (net_result * net_result * list (string * (dbl * dbl * dbl)) * Z * heap) :=
  let '(o, h) := get_path_values metric c h in
  do pr <- read_result (po_path o) h;
  do tr <- read_result (po_time o) h;
  do rs <- (if po_length o =? 0 then Ok [] else read_ranges (po_ranges o) (po_length o) h);
  do h <- dispose_path_values o h;
  Ok (pr, tr, rs, po_unit o, h).

(** ** Making a parser *)

(** FanucAllAttributesParser.cs 24-32 and 34-42: the codes of all groups behind
    each other, and how many each group has. *)
Definition net_group_arrays (d : list (string * list cgv)) : list string * list cgv * list Z :=
  (map fst d, flat_map snd d, map (fun e => Z.of_nat (List.length (snd e))) d).

(** FanucAllAttributesParser.cs 55-58 and 59-62 into the library. *)
Definition net_groups (d : list (string * list cgv)) : res code_groups :=
  let '(keys, values, lengths) := net_group_arrays d in
  build_groups keys values (Z.of_nat (List.length d)) lengths.

(** FanucAllAttributesParser.cs 47-52. *)
Definition net_grammar (d : list (string * word_grammar)) : res word_map :=
  build_grammar_map (map fst d) (map snd d) (Z.of_nat (List.length d)).
