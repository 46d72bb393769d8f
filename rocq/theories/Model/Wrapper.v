(** The C interface of the parser: what callers get and give back.
    Source: parser/AllAttributesParserWrapperBase.cpp, .h and
    parser/fanuc/AllAttributesParserWrapper.cpp. *)
From Verif Require Import Model.Base Model.Attr Model.Double Model.Macro Model.Verifiers Model.Grammar.
From Verif Require Import Model.PathCalc Model.Renumberer Model.Parser.

(** ** Memory *)

(** A pointer: null, never set, or to the n-th allocation. *)
Inductive ptr : Type := PNull | PWild | PAt (n : nat).

(** What [new] made.  Elements of a number array that are never written are
    [None].  Structures: AllAttributesParserWrapperBase.h 92-118. *)
Inductive cell : Type :=
| CChars (s : string)
| CWords (l : list (ptr * ptr))
| CPtrs (l : list ptr)
| CInts (l : list (option Z))
| CDbls (l : list (option dbl))
| CResult (total work fast tool_total : dbl) (tool_id : ptr)
| CRanges (l : list (ptr * (dbl * dbl * dbl))).

(** Allocations in order; [None] is one that was released. *)
Definition heap : Type := list (option cell).

(** An array is made when its contents are known, after the strings it points
    to: the addresses cannot be told apart.  Running out of memory is left out. *)
Definition new (c : cell) (h : heap) : ptr * heap := (PAt (List.length h), (h ++ [Some c])%list).

Fixpoint release (n : nat) (h : heap) : option (cell * heap) :=
  match h, n with
  | [], _ => None
  | None :: _, O => None
  | Some c :: h', O => Some (c, None :: h')
  | x :: h', S n' => match release n' h' with Some (c, r) => Some (c, x :: r) | None => None end
  end.

(** [delete] of what [p] points to; anything but a live allocation is undefined. *)
Definition delete (p : ptr) (h : heap) : res (cell * heap) :=
  match p with
  | PAt n => match release n h with Some r => Ok r | None => Exc (EUB "delete of no live allocation") end
  | PNull => Exc (EUB "delete of null")
  | PWild => Exc (EUB "delete through an uninitialised pointer")
  end.

(** [if (p) delete[] p;] *)
Definition delete_if (p : ptr) (h : heap) : res heap :=
  match p with
  | PNull => Ok h
  | _ => do r <- delete p h; Ok (snd r)
  end.

Definition load (p : ptr) (h : heap) : res cell :=
  match p with
  | PAt n => match nth_error h n with Some (Some c) => Ok c | _ => Exc (EUB "use of no live allocation") end
  | _ => Exc (EUB "use of an invalid pointer")
  end.

(** ** Words *)

(** A zero-terminated copy: [new char[size + 1]], [memcpy], the zero. *)
Definition terminated (s : string) : string := s ++ String zero "".

(** AllAttributesParserWrapper.cpp 94-141: Attributes2WordValueWrapperVisitor. *)
Definition value_text (a : attr) : string :=
  match a with
  | ADec d => opt_chr (d_assign d) ++ opt_chr (d_sign d) ++ opt_str (d_open d) ++ opt_str (d_macro d)
              ++ opt_str (d_value d) ++ opt_chr (d_dot d) ++ opt_str (d_value2 d) ++ opt_str (d_close d)
  | AStr w v => v ++ (if String.eqb w "(" then ")" else "")
  | AChr _ c => String c ""
  end.

Definition attr_word (a : attr) : string :=
  match a with ADec d => d_word d | AStr w _ => w | AChr w _ => w end.

Definition new_word (a : attr) (h : heap) : (ptr * ptr) * heap :=
  let '(w, h) := new (CChars (terminated (attr_word a))) h in
  let '(v, h) := new (CChars (terminated (value_text a))) h in
  ((w, v), h).

Fixpoint new_words (b : block) (h : heap) : list (ptr * ptr) * heap :=
  match b with
  | [] => ([], h)
  | a :: b' =>
      let '(x, h) := new_word a h in
      let '(xs, h) := new_words b' h in
      (x :: xs, h)
  end.

(** The variables of the caller behind [value], [length] and [message]. *)
Record outs : Type := mkOuts { o_value : ptr; o_length : Z; o_message : ptr }.

(** AllAttributesParserWrapper.cpp 156-164. *)
Definition fill_message (msg : string) (message : ptr) (h : heap) : ptr * heap :=
  match msg with
  | EmptyString => (message, h)
  | _ => new (CChars (terminated msg)) h
  end.

(** AllAttributesParserWrapper.cpp 166-182. *)
Definition fill_parsed (msg : string) (v : block) (o : outs) (h : heap) : outs * heap :=
  let '(value, length, h) :=
    match v with
    | [] => (o_value o, o_length o, h)
    | _ => let '(ws, h) := new_words v h in
           let '(p, h) := new (CWords ws) h in
           (p, Z.of_nat (List.length v), h)
    end in
  let '(m, h) := fill_message msg (o_message o) h in
  (mkOuts value length m, h).

(** ** Split files *)

(** The variables behind [value], [value_value_length], [value_length],
    [length] and [message]. *)
Record split_outs : Type := mkSO {
  so_value : ptr; so_block_lengths : ptr; so_piece_lengths : ptr; so_length : Z; so_message : ptr }.

Definition sizes {A} (l : list (list A)) : list (option Z) := map (fun x => Some (Z.of_nat (List.length x))) l.

(** AllAttributesParserWrapper.cpp 364-390. *)
Definition export_split (pieces : list (list block)) (msg : string) (o : split_outs) (h : heap) : split_outs * heap :=
  let blocks := List.concat pieces in
  let '(ws, h) := new_words (List.concat blocks) h in
  let '(value, h) := new (CWords ws) h in
  let '(pl, h) := new (CInts (sizes pieces)) h in
  let '(bl, h) := new (CInts (sizes blocks)) h in
  let '(m, h) := fill_message msg (so_message o) h in
  (mkSO value bl pl (Z.of_nat (List.length pieces)) m, h).

Definition crlf : string := String "013" (String "010" "").

(** AllAttributesParserWrapper.cpp 465-475; [block_text] is 468-473. *)
Fixpoint piece_text (p : list block) : string :=
  match p with
  | [] => ""
  | b :: p' => block_text b ++ crlf ++ piece_text p'
  end.

(** AllAttributesParserWrapper.cpp 463-478: [new char*[n]] sets nothing, and
    [fill_message] does not touch the element of an empty text. *)
Fixpoint new_texts (pieces : list (list block)) (h : heap) : list ptr * heap :=
  match pieces with
  | [] => ([], h)
  | p :: ps =>
      let '(x, h) := fill_message (piece_text p) PWild h in
      let '(xs, h) := new_texts ps h in
      (x :: xs, h)
  end.

(** AllAttributesParserWrapper.cpp 460-480. *)
Definition export_texts (pieces : list (list block)) (msg : string) (o : outs) (h : heap) : outs * heap :=
  let '(ts, h) := new_texts pieces h in
  let '(value, h) := new (CPtrs ts) h in
  let '(m, h) := fill_message msg (o_message o) h in
  (mkOuts value (Z.of_nat (List.length pieces)) m, h).

(** ** Macros, path and time *)

Definition to_i32 (n : Z) : Z := (n + 2147483648) mod 4294967296 - 2147483648.

(** The variables behind [macro_ids], [macro_lines], [macro_values], [length]. *)
Record macro_outs : Type := mkMO { mo_ids : ptr; mo_lines : ptr; mo_values : ptr; mo_length : Z }.

(** AllAttributesParserWrapper.cpp 200-219. *)
Definition get_macro_values (mv : macro_map dbl) (o : macro_outs) (h : heap) : macro_outs * heap :=
  match mv with
  | [] => (mkMO (mo_ids o) (mo_lines o) (mo_values o) 0, h)
  | _ =>
      let '(ids, h) := new (CInts (map (fun e => Some (to_i32 (k_id (fst e)))) mv)) h in
      let '(lines, h) := new (CInts (map (fun e => Some (k_line (fst e))) mv)) h in
      let '(values, h) := new (CDbls (map (fun e => Some (snd e)) mv)) h in
      (mkMO ids lines values (Z.of_nat (List.length mv)), h)
  end.

Definition padded_to {A} (n : nat) (l : list A) : list (option A) :=
  (map Some l ++ repeat None (n - List.length l))%list.

(** AllAttributesParserWrapper.cpp 228-233: the entries of the line, put into a
    new table in the order they are met. *)
Definition line_macros (mv : macro_map dbl) (line : Z) : macro_map dbl :=
  fold_left (fun m e => emplace m (fst e) (snd e)) (filter (fun e => k_line (fst e) =? line) mv) [].

(** AllAttributesParserWrapper.cpp 221-249: the arrays are as long as the whole
    table. *)
Definition get_line_macro_values (mv : macro_map dbl) (line : Z) (o : macro_outs) (h : heap) : macro_outs * heap :=
  let o := mkMO (mo_ids o) (mo_lines o) (mo_values o) 0 in
  match mv with
  | [] => (o, h)
  | _ =>
      match line_macros mv line with
      | [] => (o, h)
      | lm =>
          let n := List.length mv in
          let '(ids, h) := new (CInts (padded_to n (map (fun e => to_i32 (k_id (fst e))) lm))) h in
          let '(values, h) := new (CDbls (padded_to n (map snd lm))) h in
          (mkMO ids (mo_lines o) values (Z.of_nat (List.length lm)), h)
      end
  end.

(** AllAttributesParserWrapper.cpp 256-269. *)
Definition new_result (total work fast tool_total : dbl) (tool : string) (h : heap) : ptr * heap :=
  let '(t, h) := new (CChars (terminated tool)) h in
  new (CResult total work fast tool_total t) h.

Fixpoint new_ranges (l : word_range_map) (h : heap) : list (ptr * (dbl * dbl * dbl)) * heap :=
  match l with
  | [] => ([], h)
  | (w, r) :: l' =>
      let '(p, h) := new (CChars (terminated w)) h in
      let '(xs, h) := new_ranges l' h in
      ((p, r) :: xs, h)
  end.

(** The variables behind [path_result], [time_result], [word_result_range],
    [length] and [unit_system]. *)
Record path_outs : Type := mkPO { po_path : ptr; po_time : ptr; po_ranges : ptr; po_length : Z; po_unit : Z }.

(** AllAttributesParserWrapper.cpp 271-298; AllAttributesParser.cpp 78-81 for
    the unit system (GeneralParserDefines.h 166-170). *)
Definition get_path_values (metric : bool) (c : calc) (h : heap) : path_outs * heap :=
  let p := c_path c in
  let t := c_time c in
  let '(pr, h) := new_result (p_total p) (p_work p) (p_fast p) (p_tool_total p) (p_tool_id p) h in
  let '(tr, h) := new_result (t_total t) (t_work t) (t_fast t) (t_tool_total t) (t_tool_id t) h in
  let '(rs, h) := new_ranges (c_range c) h in
  let '(ranges, h) := new (CRanges rs) h in
  (mkPO pr tr ranges (Z.of_nat (List.length (c_range c))) (if metric then 0 else 1), h).

(** ** Giving memory back *)

(** The first [n] elements of an array; reading behind it is undefined. *)
Definition first_n {A} (n : Z) (l : list A) : res (list A) :=
  if n <=? Z.of_nat (List.length l) then Ok (firstn (Z.to_nat n) l) else Exc (EUB "read behind an array").

Fixpoint delete_words (l : list (ptr * ptr)) (h : heap) : res heap :=
  match l with
  | [] => Ok h
  | (w, v) :: l' => do h <- delete_if w h; do h <- delete_if v h; delete_words l' h
  end.

Definition as_words (c : cell) : res (list (ptr * ptr)) :=
  match c with CWords l => Ok l | _ => Exc (EUB "no array of words") end.
Definition as_ptrs (c : cell) : res (list ptr) :=
  match c with CPtrs l => Ok l | _ => Exc (EUB "no array of texts") end.
Definition as_ranges (c : cell) : res (list (ptr * (dbl * dbl * dbl))) :=
  match c with CRanges l => Ok l | _ => Exc (EUB "no array of ranges") end.

(** An int that was never set cannot be used. *)
Fixpoint all_set {A} (l : list (option A)) : res (list A) :=
  match l with
  | [] => Ok []
  | None :: _ => Exc (EUB "use of an uninitialised number")
  | Some x :: l' => do r <- all_set l'; Ok (x :: r)
  end.

Definition as_ints (n : Z) (c : cell) : res (list Z) :=
  match c with CInts l => do l <- first_n n l; all_set l | _ => Exc (EUB "no array of numbers") end.

Definition as_dbls (n : Z) (c : cell) : res (list dbl) :=
  match c with CDbls l => do l <- first_n n l; all_set l | _ => Exc (EUB "no array of numbers") end.

(** AllAttributesParserWrapperBase.cpp 66-79. *)
Definition dispose_words (p : ptr) (length : Z) (h : heap) : res heap :=
  match p with
  | PNull => Ok h
  | _ =>
      do c <- load p h;
      do l <- as_words c;
      do l <- first_n length l;
      do h <- delete_words l h;
      delete_if p h
  end.

(** AllAttributesParserWrapperBase.cpp 43-47. *)
Definition dispose_chars (p : ptr) (h : heap) : res heap := delete_if p h.

(** AllAttributesParserWrapperBase.cpp 93-101. *)
Definition dispose_macros (o : macro_outs) (h : heap) : res heap :=
  do h <- delete_if (mo_ids o) h; do h <- delete_if (mo_lines o) h; delete_if (mo_values o) h.

(** AllAttributesParserWrapperBase.cpp 117-131. *)
Definition dispose_result (p : ptr) (h : heap) : res heap :=
  match p with
  | PNull => Ok h
  | _ =>
      do c <- load p h;
      match c with
      | CResult _ _ _ _ t => do h <- delete_if t h; delete_if p h
      | _ => Exc (EUB "no result")
      end
  end.

Fixpoint delete_all (l : list ptr) (h : heap) : res heap :=
  match l with
  | [] => Ok h
  | p :: l' => do h <- delete_if p h; delete_all l' h
  end.

(** AllAttributesParserWrapperBase.cpp 114-138. *)
Definition dispose_path_values (o : path_outs) (h : heap) : res heap :=
  do h <- dispose_result (po_path o) h;
  do h <- dispose_result (po_time o) h;
  match po_ranges o with
  | PNull => Ok h
  | p =>
      do c <- load p h;
      do l <- as_ranges c;
      do l <- first_n (po_length o) l;
      do h <- delete_all (map fst l) h;
      delete_if p h
  end.

(** The total of the blocks and of the words that the loops of
    AllAttributesParserWrapperBase.cpp 240-252 visit. *)
Definition sum (l : list Z) : Z := fold_right (fun n s => Z.max 0 n + s) 0 l.

(** AllAttributesParserWrapperBase.cpp 234-259. *)
Definition dispose_split (value bl pl : ptr) (length : Z) (h : heap) : res heap :=
  do h <- match value with
          | PNull => Ok h
          | _ =>
              do c <- load pl h; do ns <- as_ints length c;
              do c <- load bl h; do ms <- as_ints (sum ns) c;
              do c <- load value h; do l <- as_words c;
              do l <- first_n (sum ms) l;
              do h <- delete_words l h;
              delete_if value h
          end;
  do h <- delete_if bl h;
  delete_if pl h.

(** AllAttributesParserWrapperBase.cpp 270-281. *)
Definition dispose_texts (value : ptr) (length : Z) (h : heap) : res heap :=
  match value with
  | PNull => Ok h
  | _ =>
      do c <- load value h; do l <- as_ptrs c;
      do l <- first_n length l;
      do h <- delete_all l h;
      delete_if value h
  end.

(** ** Making a parser from arrays *)

(** Element [x] of an array of the caller. *)
Definition at_ {A} (l : list A) (x : nat) : res A :=
  match nth_error l x with Some a => Ok a | None => Exc (EUB "read behind an array") end.

(** [m[k] = v] of an unordered map. *)
Fixpoint assign {A} (k : string) (v : A) (m : list (string * A)) : list (string * A) :=
  match m with
  | [] => [(k, v)]
  | (k', v') :: m' => if String.eqb k k' then (k, v) :: m' else (k', v') :: assign k v m'
  end.

(** AllAttributesParserWrapper.cpp 11-22. *)
Fixpoint build_grammar_from (keys : list string) (values : list word_grammar) (n x : nat) (wm : word_map) : res word_map :=
  match n with
  | O => Ok wm
  | S n' =>
      do v <- at_ values x;
      do k <- at_ keys x;
      build_grammar_from keys values n' (S x) (assign k v wm)
  end.

Definition build_grammar_map (keys : list string) (values : list word_grammar) (length : Z) : res word_map :=
  build_grammar_from keys values (Z.to_nat length) 0 [].

(** [std::set<std::string>::insert]. *)
Fixpoint set_insert (g : string) (l : list string) : list string :=
  match l with
  | [] => [g]
  | x :: l' => if String.eqb g x then l else if String.ltb g x then g :: l else x :: set_insert g l'
  end.

(** [m[c].insert(g)]. *)
Fixpoint add_group (c : cgv) (g : string) (m : code_groups) : code_groups :=
  match m with
  | [] => [(c, [g])]
  | (c', gs) :: m' => if cgv_eqb c c' then (c', set_insert g gs) :: m' else (c', gs) :: add_group c g m'
  end.

(** AllAttributesParserWrapper.cpp 61-62 and 71-72. *)
Fixpoint add_codes (values : list cgv) (key : string) (total : Z) (n y : nat) (m : code_groups) : res code_groups :=
  match n with
  | O => Ok m
  | S n' =>
      if total + Z.of_nat y <? 0 then Exc (EUB "read in front of an array")
      else do c <- at_ values (Z.to_nat (total + Z.of_nat y));
           add_codes values key total n' (S y) (add_group c key m)
  end.

(** AllAttributesParserWrapper.cpp 56-64 and 66-74. *)
Fixpoint build_groups_from (keys : list string) (values : list cgv) (lengths : list Z) (n x : nat) (total : Z)
    (m : code_groups) : res code_groups :=
  match n with
  | O => Ok m
  | S n' =>
      do key <- at_ keys x;
      do len <- at_ lengths x;
      do m <- add_codes values key total (Z.to_nat len) 0 m;
      build_groups_from keys values lengths n' (S x) (total + len) m
  end.

Definition build_groups (keys : list string) (values : list cgv) (length : Z) (lengths : list Z) : res code_groups :=
  build_groups_from keys values lengths (Z.to_nat length) 0 0 [].

(** ** The calls *)

(** [text]: the text of a message; see [Model.Parser]. *)
Section Calls.
Variable text : message -> string.

(** AllAttributesParserWrapper.cpp 189-198 and the calls that are like it
    (300-344, 485-507), for the call [op] of the parser.  An exception leaves
    before anything is handed out. *)
Definition words_call (op : parser -> parser * block * answer) (o : outs) (p : parser) (h : heap)
  : parser * heap * outs * res bool :=
  match op p with
  | (p', _, Escapes e) => (p', h, o, Exc e)
  | (p', v, Answer r m) => let '(o', h') := fill_parsed (text m) v o h in (p', h', o', Ok r)
  end.

(** AllAttributesParserWrapper.cpp 346-393. *)
Definition split_call (op : parser -> split_result) (o : split_outs) (p : parser) (h : heap)
  : parser * heap * split_outs * res bool :=
  match op p with
  | (p', _, Escapes e) => (p', h, o, Exc e)
  | (p', v, Answer r m) => let '(o', h') := export_split v (text m) o h in (p', h', o', Ok r)
  end.

(** AllAttributesParserWrapper.cpp 444-483. *)
Definition split_texts_call (op : parser -> split_result) (o : outs) (p : parser) (h : heap)
  : parser * heap * outs * res bool :=
  match op p with
  | (p', _, Escapes e) => (p', h, o, Exc e)
  | (p', v, Answer r m) => let '(o', h') := export_texts v (text m) o h in (p', h', o', Ok r)
  end.

End Calls.
