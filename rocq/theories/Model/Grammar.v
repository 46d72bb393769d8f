(** The line grammar of the Fanuc parser.
    Source: parser/fanuc/AllAttributesParserGrammar.h, AllAttributesParserGrammar.cpp
    and AllAttributesParser.cpp 165-195.

    Boost.Spirit.Qi is modelled by what it does for these rules:
    - a rule with the skipper [qi::blank] skips spaces and tabs in front of every
      primitive parser, also in front of one that then fails; a rule without a
      skipper skips once in front of its first character, and not at all inside
      [no_skip];
    - [a > b]: when [b] fails after [a] matched, [expectation_failure] is thrown
      with the position where [b] was tried;
    - [qi::symbols] matches the longest symbol that is a prefix of the input;
    - a failed alternative leaves no trace in the result, but what its semantic
      action wrote to [message] and [status] stays. *)
From Verif Require Import Model.Base Model.Attr.

(** AllAttributesParserGrammar.h 62-68.  The counters are unbounded here. *)
Record status : Type := mkSt {
  was_macro : bool;
  was_macro_equal : bool;
  open_cnt : Z;
  close_cnt : Z
}.

(** AllAttributesParserGrammar.h 487: [status st{}]. *)
Definition status_init : status := mkSt false false 0 0.

(** The text [message] is kept as the list of what was appended to it: the name
    of the message and its arguments, or the text of a [std::exception]. *)
Definition messages := list (list string).

(** What the grammar object keeps between lines: AllAttributesParserGrammar.h 486-487. *)
Record gstate : Type := mkGS { gs_status : status; gs_message : messages }.

Definition gstate_init : gstate := mkGS status_init [].

Definition add_message (m : list string) (g : gstate) : gstate :=
  mkGS (gs_status g) (gs_message g ++ [m])%list.

Definition set_status (s : status) (g : gstate) : gstate := mkGS s (gs_message g).

(** AllAttributesParserGrammar.h 77-97. *)
Definition verify_int (wm : word_map) (w : string) (v : Z) : option (list string) :=
  match assoc w wm with
  | None => None
  | Some g => if (v <? g_from g) || (g_to g <? v)
              then Some ["ValueNotInRange"; z_to_string v; z_to_string (g_from g); z_to_string (g_to g); g_word g]
              else None
  end.

(** AllAttributesParserGrammar.cpp 18-32. *)
Definition verify_string (wm : word_map) (w v : string) : option (list string) :=
  match stoi v with
  | Ok n => verify_int wm w n
  | Exc _ => Some ["stoi"]
  end.

(** Outcome of the semantic action. *)
Inductive vres : Type := VTrue | VFalse | VExc (e : exn).

Definition calc_word (w : string) : bool := mem_str w ["+"; "-"; "*"; "/"].

Definition str_len (o : option string) : Z := match o with Some s => Z.of_nat (String.length s) | None => 0 end.

(** AllAttributesParserGrammar.h 246-256. *)
Definition verify_decimals (g : word_grammar) (d : decimal) (s : gstate) : gstate * vres :=
  match d_dot d with
  | Some "."%char =>
      match stoi (opt_str (d_value2 d)) with
      | Exc e => (s, VExc e)
      | Ok n =>
          let v2 := to_u32 n in
          if (v2 <? g_dfrom g) || (g_dto g <? v2)
          then (add_message ["ValueAfterDecimalSeparatorNotInRange"; opt_str (d_value2 d); z_to_string (g_dfrom g);
                             z_to_string (g_dto g); g_word g] s, VFalse)
          else (s, VTrue)
      end
  | _ => (add_message ["DecimalSeparatorMissing"; g_word g] s, VFalse)
  end.

(** AllAttributesParserGrammar.h 213-219 and 226-232. *)
Definition verify_missing (g : word_grammar) (d : decimal) (s : gstate) : gstate * vres :=
  if negb (open_cnt (gs_status s) =? 0) || String.eqb (d_word d) "=" || calc_word (d_word d)
  then (s, VTrue)
  else (add_message ["ValueMissing"; g_word g] s, VFalse).

(** AllAttributesParserGrammar.h 222-256; line 235-239 cannot be reached with
    [decimal_to == 0] because of 204-220. *)
Definition verify_rest (g : word_grammar) (d : decimal) (s : gstate) : gstate * vres :=
  if (0 <? g_dto g) && negb (is_some (d_value2 d))
  then if negb (is_some (d_value d)) then verify_missing g d s else (s, VTrue)
  else verify_decimals g d s.

(** AllAttributesParserGrammar.h 140-171: an optional block. *)
Definition verify_optional (d : decimal) (s : gstate) : gstate * vres :=
  let forbidden := is_some (d_sign d) || is_some (d_dot d) || is_some (d_macro d) || is_some (d_value2 d) in
  let extra := if forbidden then (add_message ["ForbiddenCharsInOptionalBlock"] s, VFalse) else (s, VTrue) in
  match d_value d with
  | Some v =>
      match stoi v with
      | Exc e => (s, VExc e)
      | Ok n => let val := to_u32 n in
                if (val <? 1) || (9 <? val)
                then (add_message ["ValueNotInRangeForOptionalBlock"; z_to_string val] s, VFalse)
                else extra
      end
  | None => extra
  end.

(** AllAttributesParserGrammar.h 173-220. *)
Definition verify_value (g : word_grammar) (d : decimal) (s : gstate) : gstate * vres :=
  match d_value d with
  | Some v =>
      match stoi v with
      | Exc e => (s, VExc e)
      | Ok n =>
          let val := match d_sign d with Some "-"%char => - n | _ => n end in
          if (val <? g_from g) || (g_to g <? val)
          then (add_message ["ValueNotInRange"; z_to_string val; z_to_string (g_from g); z_to_string (g_to g); g_word g] s, VFalse)
          else if calc_word (d_word d) && (0 <? open_cnt (gs_status s)) then
            let st := gs_status s in
            (set_status (mkSt (was_macro st) (was_macro_equal st) (open_cnt st - str_len (d_close d))
                              (close_cnt st - str_len (d_close d))) s, VTrue)
          else if calc_word (d_word d) && (negb (was_macro (gs_status s)) || negb (was_macro_equal (gs_status s)))
          then (s, VFalse)
          else if g_dto g =? 0 then
            if is_some (d_dot d) then (add_message ["ExpectedInteger"; g_word g] s, VFalse) else (s, VTrue)
          else verify_rest g d s
      end
  | None => if g_dto g =? 0 then verify_missing g d s else verify_rest g d s
  end.

(** AllAttributesParserGrammar.h 103-257. *)
Definition verify (wm : word_map) (d : decimal) (s : gstate) : gstate * vres :=
  let st := gs_status s in
  let st := mkSt (was_macro st) (was_macro_equal st) (open_cnt st + str_len (d_open d)) (close_cnt st) in
  let s := set_status st s in
  match assoc (d_word d) wm with
  | None => (s, VTrue)
  | Some g =>
      let is_hash := String.eqb (d_word d) "#" in
      let st := mkSt (was_macro st || is_hash)
                     (was_macro_equal st || (negb is_hash && was_macro st && String.eqb (d_word d) "="))
                     (open_cnt st) (close_cnt st + str_len (d_close d)) in
      let s := set_status st s in
      if is_some (d_close d) && (open_cnt st - close_cnt st <? 0)
      then (add_message ["NonMatchingCloseBracket"] s, VFalse)
      else
        match d_macro d with
        | Some m =>
            match d_value d with
            | None => (add_message ["ValueMissingForHash"] s, VFalse)
            | Some v => match verify_string wm m v with
                        | None => (s, VTrue)
                        | Some e => (add_message e s, VFalse)
                        end
            end
        | None =>
            if String.eqb (d_word d) "/" && negb (was_macro st) then verify_optional d s
            else verify_value g d s
        end
  end.

(** ** Lexical parts *)

Definition skip (s : string) : string := snd (span is_blank s).

Definition in_set (cs : string) (c : ascii) : bool := contains (String c "") cs.

(** An optional character out of a set at the very start. *)
Definition opt_char (cs : string) (s : string) : option ascii * string :=
  match s with
  | String c r => if in_set cs c then (Some c, r) else (None, s)
  | EmptyString => (None, s)
  end.

(** An optional non-empty run of characters at the very start. *)
Definition opt_run (p : ascii -> bool) (s : string) : option string * string :=
  match span p s with
  | (EmptyString, _) => (None, s)
  | (r, s') => (Some r, s')
  end.

(** [qi::symbols]: the longest symbol in front. *)
Fixpoint sym_match (syms : list string) (s : string) : option string :=
  match syms with
  | [] => None
  | w :: syms' =>
      match sym_match syms' s with
      | Some b => if prefix w s && Nat.ltb (String.length b) (String.length w) then Some w else Some b
      | None => if prefix w s then Some w else None
      end
  end.

Definition drop (n : nat) (s : string) : string := substring n (String.length s - n) s.

(** The common tail of the number rules: AllAttributesParserGrammar.h 338-340
    (without opening brackets), 369-371, 402-404, 437-439.  [-digits] inside
    [lexeme] skips blanks first, the dot and the digits behind it follow without
    blanks. *)
Definition number_tail (with_open : bool) (w : string) (asg : option ascii) (s : string) : decimal * string :=
  let '(sign, s) := opt_char "-+" (skip s) in
  let '(opn, s) := if with_open then opt_run (Ascii.eqb "[") (skip s) else (None, s) in
  let '(mac, s) := opt_char "#" (skip s) in
  let '(v, s) := opt_run is_digit (skip s) in
  let '(dot, s) := opt_char "." s in
  let '(v2, s) := opt_run is_digit s in
  let '(cl, s) := opt_run (Ascii.eqb "]") (skip s) in
  (mkDec w asg sign opn (match mac with Some _ => Some "#" | None => None end) v dot v2 cl, s).

(** ** Rules *)

(** [RThrow rest]: expectation failure at [rest]; [RExc]: another exception. *)
Inductive rule_result : Type :=
| RFail
| ROk (a : attr) (rest : string)
| RThrow (rest : string)
| RExc (e : exn).

Section Rules.
Variable wm : word_map.
Variables decimal_sym assignable_sym : list string.

(** [start %= rule[_pass = verify_range]]. *)
Definition checked (d : decimal) (rest : string) (s : gstate) : gstate * rule_result :=
  match verify wm d s with
  | (s', VTrue) => (s', ROk (ADec d) rest)
  | (s', VFalse) => (s', RFail)
  | (s', VExc e) => (s', RExc e)
  end.

(** AllAttributesParserGrammar.h 259-272, inside [no_skip] (472); the only
    symbol is "," (AllAttributesParser.cpp 171). *)
Definition char_rule (t : string) : rule_result :=
  match t with
  | String "," r => match span is_blank r with
                    | (EmptyString, _) => RFail
                    | (_, r') => ROk (AChr "," zero) r'
                    end
  | _ => RFail
  end.

(** [assignable_symbols >> qi::lit('=')] *)
Definition assign_ahead (t : string) : bool :=
  match sym_match assignable_sym t with
  | Some w => match skip (drop (String.length w) t) with String "=" _ => true | _ => false end
  | None => false
  end.

(** AllAttributesParserGrammar.h 421-455. *)
Definition decimal_rule (t : string) (s : gstate) : gstate * rule_result :=
  let t := skip t in
  if assign_ahead t then (s, RFail)
  else match sym_match decimal_sym t with
       | Some w => let '(d, r) := number_tail true w None (drop (String.length w) t) in checked d r s
       | None => (s, RFail)
       end.

(** AllAttributesParserGrammar.h 353-384 (with opening brackets) and 321-351
    (without). *)
Definition slash_rule (with_open : bool) (t : string) (s : gstate) : gstate * rule_result :=
  match skip t with
  | String "/" r =>
      match skip r with
      | String "/" _ => (s, RThrow r)
      | _ => let '(d, r') := number_tail with_open "/" None r in checked d r' s
      end
  | _ => (s, RFail)
  end.

(** AllAttributesParserGrammar.h 386-419. *)
Definition assignable_rule (t : string) (s : gstate) : gstate * rule_result :=
  let t := skip t in
  match sym_match assignable_sym t with
  | Some w =>
      let r := drop (String.length w) t in
      match skip r with
      | String "=" r' => let '(d, r'') := number_tail true w (Some "="%char) r' in checked d r'' s
      | r' => (s, RThrow r')
      end
  | None => (s, RFail)
  end.

(** AllAttributesParserGrammar.h 290-304. *)
Definition comment_rule (t : string) : rule_result :=
  match skip t with
  | String "(" r =>
      match span (fun c => negb (Ascii.eqb c ")")) r with
      | (v, String _ r') => ROk (AStr "(" v) r'
      | (_, EmptyString) => RThrow ""
      end
  | _ => RFail
  end.

Definition is_upper (c : ascii) : bool := (65 <=? code c) && (code c <=? 90).
Definition is_lower (c : ascii) : bool := (97 <=? code c) && (code c <=? 122).
Definition is_alpha (c : ascii) : bool := is_upper c || is_lower c.
Definition is_name_char (c : ascii) : bool := is_alpha c || is_digit c || Ascii.eqb c "_".

(** AllAttributesParserGrammar.h 306-319. *)
Definition program_name_rule (t : string) : rule_result :=
  match skip t with
  | String "O" r =>
      match span is_name_char r with
      | (EmptyString, _) => RThrow r
      | (v, r') => ROk (AStr "O" v) (snd (span is_alpha (snd (span is_blank r'))))
      end
  | _ => RFail
  end.

(** AllAttributesParserGrammar.h 274-288. *)
Definition start_program_rule (t : string) : rule_result :=
  match skip t with
  | String "%" r => match skip r with EmptyString => ROk (AChr "%" zero) "" | _ => RFail end
  | _ => RFail
  end.

Definition orelse (r : gstate * rule_result) (f : gstate -> gstate * rule_result) : gstate * rule_result :=
  match r with
  | (s, RFail) => f s
  | _ => r
  end.

(** AllAttributesParserGrammar.h 472-473. *)
Definition line_attribute (t : string) (s : gstate) : gstate * rule_result :=
  orelse (s, char_rule t) (fun s =>
  orelse (decimal_rule t s) (fun s =>
  orelse (slash_rule true t s) (fun s =>
  orelse (assignable_rule t s) (fun s =>
  orelse (slash_rule false t s) (fun s =>
  orelse (s, comment_rule t) (fun s =>
  orelse (s, start_program_rule t) (fun s =>
  (s, program_name_rule t)))))))).

(** What [qi::phrase_parse] does: returns, or throws; [value] is filled with
    what was parsed until then. *)
Inductive parse_result : Type :=
| PTrue
| PFalse
| PThrow (rest : string)
| PExc (e : exn).

(** AllAttributesParserGrammar.h 474: [+line_attribute > qi::eoi].  Every
    attribute consumes at least one character, so the length of the text is
    fuel enough. *)
Fixpoint line_attributes (fuel : nat) (t : string) (v : block) (s : gstate) : gstate * block * parse_result :=
  match fuel with
  | O => (s, v, PExc (EUB "fuel"))
  | S f =>
      match line_attribute t s with
      | (s', ROk a r) => line_attributes f r (v ++ [a])%list s'
      | (s', RFail) =>
          match v with
          | [] => (s', v, PFalse)
          | _ => match skip t with EmptyString => (s', v, PTrue) | r => (s', v, PThrow r) end
          end
      | (s', RThrow r) => (s', v, PThrow r)
      | (s', RExc e) => (s', v, PExc e)
      end
  end.

(** [phrase_parse(iter, end, grammar, qi::blank, value)] with an empty [value]. *)
Definition phrase_parse (t : string) (s : gstate) : gstate * block * parse_result :=
  line_attributes (S (String.length t)) t [] s.

End Rules.

(** AllAttributesParser.cpp 165-195, called once, from the constructor (61), with
    the metric grammar. *)
Definition skip_symbols : list string := ["%"; "O"; "/"].

Definition assignable_symbols (wm : word_map) : list string :=
  map fst (filter (fun x => word_type_eqb (g_type (snd x)) WTassignable) wm).

Definition decimal_symbols (wm : word_map) (ops : list string) : list string :=
  (map fst (filter (fun x => negb (word_type_eqb (g_type (snd x)) WTassignable)
                             && negb (mem_str (fst x) skip_symbols)) wm)
   ++ filter (fun o => negb (mem_str o skip_symbols)) ops)%list.

(** AllAttributesParser.cpp 65-69 and 161-162: the grammar object of a parser
    for [fg] checks with the map that is active when it is made. *)
Record line_grammar : Type := mkLG { lg_map : word_map; lg_decimal : list string; lg_assignable : list string }.

Definition make_grammar (fg : fanuc_grammar) (ops : list string) (active : word_map) : line_grammar :=
  mkLG active (decimal_symbols (metric fg) ops) (assignable_symbols (metric fg)).

(** AllAttributesParser.cpp 213-214, 344-345: [clear_message] and [phrase_parse]. *)
Definition grammar_parse (lg : line_grammar) (t : string) (s : gstate) : gstate * block * parse_result :=
  phrase_parse (lg_map lg) (lg_decimal lg) (lg_assignable lg) t (mkGS (gs_status s) []).

(** AllAttributesParserWrapper.cpp 397-446: Attributes2StringVisitor. *)
Definition decimal_text (d : decimal) : string :=
  d_word d ++ opt_chr (d_assign d) ++ opt_chr (d_sign d) ++ opt_str (d_open d) ++ opt_str (d_macro d)
  ++ opt_str (d_value d) ++ opt_chr (d_dot d) ++ opt_str (d_value2 d) ++ opt_str (d_close d).

Definition attr_text (a : attr) : string :=
  match a with
  | ADec d => decimal_text d
  | AStr w v => w ++ v ++ (if String.eqb w "(" then ")" else "")
  | AChr w c => w ++ (if Ascii.eqb c zero then "" else String c "")
  end.

(** AllAttributesParserWrapper.cpp 470-478: the words of a block with a blank
    between them. *)
Definition block_text (b : block) : string := String.concat " " (map attr_text b).
