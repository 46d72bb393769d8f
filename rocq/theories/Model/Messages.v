(** Texts of the messages in both languages, and the text [parse] leaves.
    Source: parser/fanuc/MessageText.h, MessageTextImpl.h, MessageText_en.cpp,
    MessageText_pl.cpp; AllAttributesParser.cpp 276-326. The Polish texts are in
    UTF-8 (the literals are u8). *)
From Verif Require Import Model.Base Model.Enums Model.Grammar Model.Parser.

Definition message_table := list (string * list string).

(** MessageText_en.cpp 8-44. *)
Definition message_text_en : message_table :=
  [("ValueNotInRange", ["Value ["; "] not in range ["; ", "; "] for address ["; "]"]);
   ("ValueMissingForHash", ["Value missing for parameter #"]);
   ("ValueNotInRangeForOptionalBlock", ["Value ["; "] not in range [1,9] for character /"]);
   ("ForbiddenCharsInOptionalBlock", ["Forbidden characters in optional block value"]);
   ("ExpectedInteger", ["Expected integer number for address ["; "]"]);
   ("ValueMissing", ["Value missing for address ["; "]"]);
   ("DecimalSeparatorMissing", ["Missing decimal separator (dot) for address ["; "]"]);
   ("ValueAfterDecimalSeparatorNotInRange", ["Value after dot ["; "] not in range ["; ", "; "] for address ["; "]"]);
   ("ParseError", ["Parse error at line "]);
   ("TNotWithG", ["Address T can not appear in the block together with address G"]);
   ("MissingValue", ["Missing value for "]);
   ("MissingPreviousValue", ["Missing previous value for "]);
   ("MissingPreviousValueForEither", ["Missing previous values for either R or "; " and "]);
   ("ValueNotSet", ["Value "; " not set"]);
   ("ValueNotSetForEither", ["Not set values for either R or "; " and "]);
   ("ValueNotSetForEitherEither", ["Not set values for either R or "; " and "; " and "]);
   ("MissingInCodeGroups", [" is missing in Code Groups"]);
   ("InSameCodeGroup", [" and "; " are in the same Code Group = "]);
   ("CannotSplitFileNumberOfBlocks", ["Cannot split the file for number of blocks = 0"]);
   ("CannotSplitFileToolPathLength", ["Cannot split the file for tool path length = 0"]);
   ("CannotSplitFileToolTime", ["Cannot split the file for tool time = 0"]);
   ("WrongMacroDefinition", ["Wrong #"; " variable definition"]);
   ("ValueHigherThanAllowed", ["Value "; " ["; "] higher than max allowed value "]);
   ("ValueOutOfRange", ["Value "; " ["; "] out of range ["; ", "; "]"]);
   ("CodeNotUnique", ["Code "; " must be unique within a block"]);
   ("UnsupportedOperation", ["Unsupported operation: "]);
   ("UnsupportedBinaryOperation", ["Unsupported binary operation: ["; "]"]);
   ("UnsupportedUnaryOperation", ["Unsupported unary operation: ["; "]"]);
   ("UnsupportedFunction", ["Unsupported function: ["; "]"]);
   ("DuplicateAddress", ["Same address ["; "] in block not allowed"]);
   ("SNotAllowedWhenOperatorTurnsRotation", ["Address S not allowed when Operator turns on rotation"]);
   ("M3M4NotAllowedWhenOperatorTurnsRotation", ["M3/M4 not allowed when Operator turns on rotation"]);
   ("NonMatchingCloseBracket", ["Non matching close bracket"])].

(** MessageText_pl.cpp 15-52. *)
Definition message_text_pl : message_table :=
  [("ValueNotInRange", ["Wartość ["; "] nie mieści się w zakresie ["; ", "; "] dla adresu ["; "]"]);
   ("ValueMissingForHash", ["Brak wartości dla parametru #"]);
   ("ValueNotInRangeForOptionalBlock", ["Wartość ["; "] nie mieści się w zakresie [1,9] dla znaku /"]);
   ("ForbiddenCharsInOptionalBlock", ["Niedozwolone znaki w opcjonalnej wartości bloku"]);
   ("ExpectedInteger", ["Oczekiwana liczba całkowita dla adresu ["; "]"]);
   ("ValueMissing", ["Brak wartości dla adresu ["; "]"]);
   ("DecimalSeparatorMissing", ["Brak separatora dziesiętnego (kropki) dla adresu ["; "]"]);
   ("ValueAfterDecimalSeparatorNotInRange", ["Wartość po kropce ["; "] nie mieści się w zakresie ["; ", "; "] dla adresu ["; "]"]);
   ("ParseError", ["Błąd parsowania w linii "]);
   ("TNotWithG", ["Adres T nie może wystąpić w bloku razem z adresem G"]);
   ("MissingValue", ["Brak wartości dla "]);
   ("MissingPreviousValue", ["Brak poprzedniej wartości dla "]);
   ("MissingPreviousValueForEither", ["Brak poprzedniej wartości dla R lub "; " i "]);
   ("ValueNotSet", ["Wartość "; " nie ustawiona"]);
   ("ValueNotSetForEither", ["Nie ustawione wartości dla R lub "; " i "]);
   ("ValueNotSetForEitherEither", ["Nie ustawione wartości dla R lub "; " i "; " i "]);
   ("MissingInCodeGroups", [" nie występuje w Grupie Kodów"]);
   ("InSameCodeGroup", [" i "; " są w tej samej Grupie Kodów = "]);
   ("CannotSplitFileNumberOfBlocks", ["Nie można podzielić pliku dla liczby bloków = 0"]);
   ("CannotSplitFileToolPathLength", ["Nie można podzielić pliku dla drogi narzędzia = 0"]);
   ("CannotSplitFileToolTime", ["Nie można podzielić pliku dla czasu narzędzia = 0"]);
   ("WrongMacroDefinition", ["Błędna definicja zmiennej #"]);
   ("ValueHigherThanAllowed", ["Wartość "; " ["; "] wyższa niż maksymalna dozwolona wartość "]);
   ("ValueOutOfRange", ["Wartość "; " ["; "] poza zakresem ["; ", "; "]"]);
   ("CodeNotUnique", ["Kod "; " musi być unikalny w obrębie bloku"]);
   ("UnsupportedOperation", ["Nieobsługiwana operacja: "]);
   ("UnsupportedBinaryOperation", ["Nieobsługiwana operacja dwuargumentowa: ["; "]"]);
   ("UnsupportedUnaryOperation", ["Nieobsługiwana operacja jednoargumentowa: ["; "]"]);
   ("UnsupportedFunction", ["Nieobsługiwana funkcja: ["; "]"]);
   ("DuplicateAddress", ["Kolejny adres ["; "] niedozwolony w bloku"]);
   ("SNotAllowedWhenOperatorTurnsRotation", ["Niedozwolony adres S gdy obroty włącza Operator"]);
   ("M3M4NotAllowedWhenOperatorTurnsRotation", ["Niedozwolony M3/M4 gdy obroty włącza Operator"]);
   ("NonMatchingCloseBracket", ["Niedopasowany nawias zamykający"])].

(** MessageTextImpl.h 43-57. *)
Definition texts (l : language) : message_table :=
  match l with English => message_text_en | Polish => message_text_pl end.

(** MessageTextImpl.h 26-38: one of the first list, one of the second, and so on
    until both are used up. With the lists exchanged this is 70-82. *)
Fixpoint weave (a b : list string) : string :=
  match a with
  | [] => String.concat "" b
  | x :: a' => x ++ match b with
                    | [] => weave a' []
                    | y :: b' => y ++ weave a' b'
                    end
  end.

(** MessageTextImpl.h 16-40 and MessageText.cpp 15-31; [find_if] finds every
    name of the enumeration (proved as [C61_complete]). *)
Definition make_message (l : language) (name : string) (args : list string) : string :=
  match assoc name (texts l) with
  | Some parts => weave parts args
  | None => ""
  end.

(** MessageTextImpl.h 60-84. *)
Definition make_message2 (l : language) (name : string) (args : list string) : string :=
  match assoc name (texts l) with
  | Some parts => weave args parts
  | None => ""
  end.

(** The text of one appended message. The model keeps the name and the
    arguments; a name that is in no table is the text of a [std::exception]. *)
Definition item_text (l : language) (m : list string) : string :=
  match m with
  | [] => ""
  | name :: args =>
      match assoc name (texts l) with
      | Some parts => weave parts args
      | None => name
      end
  end.

(** [message += ...] for each. *)
Fixpoint grammar_text (l : language) (ms : messages) : string :=
  match ms with
  | [] => ""
  | m :: r => item_text l m ++ grammar_text l r
  end.

(** [e.what()] of the exceptions [parse] catches: UniqueCode.cpp 36,
    SameWordInBlockVerifier.cpp 27, MacroEvaluatedCodeVerifier.cpp 54,
    CodeGroupsVerifier.cpp 44, 72, 93, RangeVerifier.cpp 28-50 (three
    arguments) and 105 (four), RotationVerifier.cpp, AttributesPathCalculator.cpp.
    The text of [std::out_of_range] is up to the library: [range_what]. *)
Definition what (range_what : string) (l : language) (e : exn) : string :=
  match e with
  | EUniqueCode w => make_message l "CodeNotUnique" [w]
  | ESameWord w => make_message l "DuplicateAddress" [w]
  | EMacroEvaluatedCode t => make_message l "MissingValue" [t]
  | ECodeGroups (name :: args) =>
      if String.eqb name "MissingValue" then make_message l name args else make_message2 l name args
  | ERangeVerifier args =>
      make_message l (if (List.length args =? 3)%nat then "ValueHigherThanAllowed" else "ValueOutOfRange") args
  | ERotation m | EPathCalc m => item_text l m
  | EOutOfRange => range_what
  | _ => ""
  end.

(** ** Line and column of an expectation failure *)

Definition is_line_end (c : ascii) : bool := Ascii.eqb c "010" || Ascii.eqb c "013".

(** boost/spirit/home/support/iterators/line_pos_iterator.hpp, [increment]: a
    line feed after a carriage return, or the other way round, does not count. *)
Fixpoint count_lines (prev : option ascii) (s : string) : Z :=
  match s with
  | EmptyString => 1
  | String c s' =>
      let pair := match prev with
                  | Some p => (Ascii.eqb c "010" && Ascii.eqb p "013") || (Ascii.eqb c "013" && Ascii.eqb p "010")
                  | None => false
                  end in
      (if is_line_end c && negb pair then 1 else 0) + count_lines (Some c) s'
  end.

(** The same header, [get_line_start]: what stands behind the last line end. *)
Fixpoint last_line (cur s : string) : string :=
  match s with
  | EmptyString => cur
  | String c s' => if is_line_end c then last_line "" s' else last_line (cur ++ String c "") s'
  end.

(** The same header, [get_column], tabulators of four. *)
Fixpoint columns (col : Z) (s : string) : Z :=
  match s with
  | EmptyString => col
  | String c s' => columns (if Ascii.eqb c "009" then col + (4 - (col - 1) mod 4) else col + 1) s'
  end.

Definition column (before : string) : Z := columns 1 (last_line "" before).

(** AllAttributesParser.cpp 276-286: [before] is the text in front of the place. *)
Definition expectation_text (l : language) (before rest : string) (ms : messages) : string :=
  let g := grammar_text l ms in
  nat_to_string (count_lines None before) ++ ":" ++ nat_to_string (column before) ++ ": " ++ rest
  ++ (if String.eqb g "" then "" else " <- " ++ g).

(** The text the caller sees; it hands in an empty one. *)
Definition message_text (range_what : string) (l : language) (m : message) : string :=
  match m with
  | MNone => ""
  | MGrammar ms => grammar_text l ms
  | MExpect before rest ms => expectation_text l before rest ms
  | MExn e => what range_what l e
  end.
