(** The Heidenhain parser.
    Source: parser/heidenhain/AllAttributesParserGrammar.h,
    AllAttributesParserDefines.h, AllAttributesParser.h and .cpp,
    AllAttributesParserWrapper.cpp.

    Boost.Spirit.Qi is modelled as in [Grammar]: the rules of the words have no
    skipper, so blanks are skipped once in front of a word and not inside it;
    [a > b] throws at the place where [b] was tried; [>>] binds tighter than [>].
    Two things depend on the version of Boost and are arguments here: what
    [qi::int_] makes of a sign and digits when the result goes into a [uint32_t]
    ([read_id]), and whether a failed [+rule] has moved past the blanks in front
    of it ([plus_skips]). *)
From Verif Require Import Model.Base Model.Attr Model.Enums Model.Grammar Model.Parser Model.Messages.

(** AllAttributesParserDefines.h 18-36. *)
Inductive begin_end : Type := BEbegin | BEend.
Inductive program_unit : Type := Umm | Uinch.

(** AllAttributesParserDefines.h 38-94: [AttributeVariant]. *)
Inductive hattr : Type :=
| HNumber (value : Z)
| HComment (semicolon : ascii) (value : string) (tilde : ascii)
| HProgram (be : begin_end) (name : string) (u : program_unit)
| HGeneral (word : string) (sign name : option ascii) (value : option string) (dot : option ascii)
           (value2 : option string) (tilde : option ascii)
| HCycle (word1 word2 : string) (value : option string) (dot : option ascii) (value2 : option string)
| HParam (name : string) (id : Z) (assign : ascii) (sign : option ascii) (value : string) (dot : option ascii)
         (value2 : option string).

(** A parser fails, succeeds with the rest, or throws [expectation_failure]. *)
Inductive hres (A : Type) : Type :=
| HFail
| HOk (a : A) (rest : string)
| HThrow (rest : string).
Arguments HFail {A}.
Arguments HOk {A}.
Arguments HThrow {A}.

Definition andthen {A B} (r : hres A) (f : A -> string -> hres B) : hres B :=
  match r with
  | HFail => HFail
  | HOk a t => f a t
  | HThrow t => HThrow t
  end.

(** [> p]. *)
Definition must {A B} (p : string -> hres A) (t : string) (f : A -> string -> hres B) : hres B :=
  match p t with
  | HFail => HThrow t
  | HOk a r => f a r
  | HThrow r => HThrow r
  end.

(** [qi::lit], [qi::string]. *)
Definition lit (w t : string) : hres string :=
  if prefix w t then HOk w (drop (String.length w) t) else HFail.

(** [+qi::char_(set)]. *)
Definition run1 (p : ascii -> bool) (t : string) : hres string :=
  match opt_run p t with
  | (Some r, t') => HOk r t'
  | (None, _) => HFail
  end.

Definition either {A} (p q : string -> hres A) (t : string) : hres A :=
  match p t with
  | HFail => q t
  | r => r
  end.

Definition is_alnum (c : ascii) : bool := is_alpha c || is_digit c.
Definition is_word_char (c : ascii) : bool := is_alpha c || in_set ".:/" c.

(** AllAttributesParserGrammar.h 97-109; [BEGIN] and [END] are symbols, and so
    are [MM] and [INCH]. *)
Definition begin_word (t : string) : hres begin_end :=
  match sym_match ["BEGIN"; "END"] t with
  | Some "BEGIN" => HOk BEbegin (drop 5 t)
  | Some _ => HOk BEend (drop 3 t)
  | None => HFail
  end.

Definition unit_word (t : string) : hres program_unit :=
  match sym_match ["MM"; "INCH"] t with
  | Some "MM" => HOk Umm (drop 2 t)
  | Some _ => HOk Uinch (drop 4 t)
  | None => HFail
  end.

Definition eoi (t : string) : hres string :=
  match t with
  | EmptyString => HOk "" ""
  | _ => HFail
  end.

Definition not_char (p : ascii -> bool) (t : string) : hres string :=
  match t with
  | String c _ => if p c then HFail else HOk "" t
  | EmptyString => HOk "" t
  end.

Definition program_rule (t : string) : hres hattr :=
  andthen (begin_word t) (fun be t =>
  must (run1 is_blank) t (fun _ t =>
  must (lit "PGM") t (fun _ t =>
  must (run1 is_blank) t (fun _ t =>
  let '(name, t) := span is_name_char t in
  must (run1 is_blank) t (fun _ t =>
  must unit_word t (fun u t =>
  must (either (run1 is_space) eoi) t (fun _ t =>
  must (not_char is_name_char) t (fun _ t => HOk (HProgram be name u) t)))))))).

(** AllAttributesParser.h 148-151. *)
Definition operations : list string :=
  ["K1X"; "K1Y"; "K1Z"; "K2X"; "K2Y"; "K2Z"; "K3X"; "K3Y"; "K3Z";
   "P01"; "P02"; "P03"; "P04"; "P05"; "P06"; "P07"; "P1X"; "P1Y"].

(** AllAttributesParserGrammar.h 126. *)
Definition quoted (t : string) : hres string :=
  andthen (lit """" t) (fun _ t =>
  must (run1 is_alnum) t (fun v t =>
  must (lit """") t (fun _ t => HOk ("""" ++ v ++ """")%string t))).

(** AllAttributesParserGrammar.h 127-128. *)
Definition general_word (t : string) : hres string :=
  match sym_match operations t with
  | Some w => HOk w (drop (String.length w) t)
  | None => either (run1 is_word_char) (either (lit "#") (either (lit "=") quoted)) t
  end.

(** The optional parts cannot fail. AllAttributesParserGrammar.h 116-133. *)
Definition general_rule (t : string) : hres hattr :=
  andthen (general_word t) (fun w t =>
  let '(sign, t) := opt_char "-+" (skip t) in
  let '(name, t) := opt_char "Q" t in
  let '(v, t) := opt_run is_digit t in
  let '(dot, t) := opt_char "." t in
  let '(v2, t) := opt_run is_digit t in
  let '(tilde, t) := opt_char "~" t in
  HOk (HGeneral w sign name v dot v2 tilde) t).

(** AllAttributesParserGrammar.h 142-150. *)
Definition hcomment_rule (t : string) : hres hattr :=
  andthen (lit ";" t) (fun _ t =>
  match span (fun c => negb (Ascii.eqb c "~")) t with
  | (v, EmptyString) => HOk (HComment ";" v zero) ""
  | (v, String _ EmptyString) => HOk (HComment ";" v "~") ""
  | (_, t) => HThrow t
  end).

(** [std::numeric_limits<uint32_t>::max()]. *)
Definition u32_max : Z := 2 ^ 32 - 1.

(** AllAttributesParserGrammar.h 156-164: [uint_ > blank]; [uint_] fails on a
    number that does not fit. *)
Definition number_rule (t : string) : hres Z :=
  match opt_run is_digit t with
  | (None, _) => HFail
  | (Some ds, t) =>
      if digits_val ds <=? u32_max
      then match t with
           | String c r => if is_blank c then HOk (digits_val ds) r else HThrow t
           | EmptyString => HThrow t
           end
      else HFail
  end.

(** AllAttributesParserGrammar.h 172-184; the last element sets
    [was_cycle_def]. *)
Definition cycle_rule (t : string) : hres hattr :=
  andthen (lit "CYCL" t) (fun _ t =>
  must (run1 is_blank) t (fun _ t =>
  must (either (lit "DEF") (lit "CALL")) t (fun w t =>
  let '(v, t) := opt_run is_digit (skip t) in
  let '(dot, t) := opt_char "." t in
  let '(v2, t) := opt_run is_digit t in
  HOk (HCycle "CYCL" w v dot v2) t))).

Section Line.
Variable read_id : option ascii -> string -> option Z.
Variable plus_skips : bool.

(** [qi::int_]. *)
Definition int_rule (t : string) : hres Z :=
  let '(sign, r) := opt_char "-+" t in
  match opt_run is_digit r with
  | (None, _) => HFail
  | (Some ds, r) => match read_id sign ds with Some n => HOk n r | None => HFail end
  end.

(** AllAttributesParserGrammar.h 196-206; an absent [value] stays empty. *)
Definition param_rule (t : string) : hres hattr :=
  andthen (lit "Q" t) (fun _ t =>
  must int_rule t (fun id t =>
  must (lit "=") (skip t) (fun _ t =>
  let '(sign, t) := opt_char "-+" (skip t) in
  let '(v, t) := opt_run is_digit t in
  let '(dot, t) := opt_char "." t in
  let '(v2, t) := opt_run is_digit t in
  HOk (HParam "Q" id "=" sign (opt_str v) dot v2) t))).

(** AllAttributesParserGrammar.h 227-228. The state is [was_cycle_def] (255):
    it is written (183) and never read. *)
Definition word_rule (t : string) (was : bool) : bool * hres hattr :=
  let t := skip t in
  match cycle_rule t with
  | HOk a r => (true, HOk a r)
  | HThrow r => (was, HThrow r)
  | HFail => (was, either param_rule (either hcomment_rule (either program_rule general_rule)) t)
  end.

(** What [qi::phrase_parse] does: it returns [true] or throws. *)
Inductive hparse : Type := HTrue | HThrown (rest : string).

(** [+line_attribute > qi::eoi]; every word has at least one character. *)
Fixpoint words (fuel : nat) (first : bool) (t : string) (v : list hattr) (was : bool)
  : bool * list hattr * hparse :=
  match fuel with
  | O => (was, v, HThrown t)
  | S f =>
      match word_rule t was with
      | (was', HOk a r) => words f false r (v ++ [a])%list was'
      | (was', HThrow r) => (was', v, HThrown r)
      | (was', HFail) =>
          if first then (was', v, HThrown (if plus_skips then skip t else t))
          else match skip t with
               | EmptyString => (was', v, HTrue)
               | r => (was', v, HThrown r)
               end
      end
  end.

(** AllAttributesParserGrammar.h 229: [-line_number_rule > +line_attribute >
    qi::eoi]; the blanks in front are skipped whether there is a number or not. *)
Definition line_rule (t : string) (was : bool) : bool * list hattr * hparse :=
  let t := skip t in
  match number_rule t with
  | HOk n r => words (S (String.length r)) true r [HNumber n] was
  | HFail => words (S (String.length t)) true t [] was
  | HThrow r => (was, [], HThrown r)
  end.

(** AllAttributesParser.cpp 88-118 with the [message] of the grammar (255), which
    nothing writes; [message] is left as it is when nothing is thrown. [Exc]: no
    grammar has been made yet (AllAttributesParser.h 155). *)
Definition hh_parse (grammar : option bool) (data message : string)
  : res (option bool * (bool * list hattr * string)) :=
  match grammar with
  | None => Exc (EUB "all_attr_grammar is null")
  | Some was =>
      match line_rule data was with
      | (was', v, HTrue) => Ok (Some was', (true, v, message))
      | (was', v, HThrown r) =>
          Ok (Some was', (false, v, expectation_text English (text_before data r) r []))
      end
  end.

(** AllAttributesParserWrapper.cpp 92-117, 124-133: the message is handed out
    when there is one, words never are: [value] and [length] are not written. *)
Definition hh_parse_value (grammar : option bool) (data : string)
  : res (option bool * (bool * option string)) :=
  do x <- hh_parse grammar data "";
  let '(g, (ok, _, m)) := x in
  Ok (g, (ok, if String.eqb m "" then None else Some m)).

End Line.
