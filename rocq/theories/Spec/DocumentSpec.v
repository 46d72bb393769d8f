(** Messages as their readers see them, and runs of the server's parser. *)
From Verif Require Import Model.Base Model.Attr Model.Double Model.Macro Model.Enums Model.Grammar Model.NCText Model.Parser Model.Messages Model.Settings Model.Document.
From Verif Require Import Spec.Text Spec.NCTextSpec Spec.VerifierSpec Spec.SettingsSpec.
Local Open Scope string_scope.
Local Open Scope Z_scope.

(** ** Messages *)

(** MessageText.h 14-51. *)
Definition message_names : list string :=
  ["ValueNotInRange"; "ValueMissingForHash"; "ValueNotInRangeForOptionalBlock"; "ForbiddenCharsInOptionalBlock"; "ExpectedInteger";
   "ValueMissing"; "DecimalSeparatorMissing"; "ValueAfterDecimalSeparatorNotInRange"; "ParseError"; "TNotWithG"; "MissingValue";
   "MissingPreviousValue"; "MissingPreviousValueForEither"; "ValueNotSet"; "ValueNotSetForEither"; "ValueNotSetForEitherEither";
   "MissingInCodeGroups"; "InSameCodeGroup"; "CannotSplitFileNumberOfBlocks"; "CannotSplitFileToolPathLength"; "CannotSplitFileToolTime";
   "WrongMacroDefinition"; "ValueHigherThanAllowed"; "ValueOutOfRange"; "CodeNotUnique"; "UnsupportedOperation";
   "UnsupportedBinaryOperation"; "UnsupportedUnaryOperation"; "UnsupportedFunction"; "DuplicateAddress";
   "SNotAllowedWhenOperatorTurnsRotation"; "M3M4NotAllowedWhenOperatorTurnsRotation"; "NonMatchingCloseBracket"].

(** How many values a message is made of where it is used ([make_message]). *)
Definition values_shown : list (string * nat) :=
  [("ValueNotInRange", 4); ("ValueMissingForHash", 0); ("ValueNotInRangeForOptionalBlock", 1); ("ForbiddenCharsInOptionalBlock", 0);
   ("ExpectedInteger", 1); ("ValueMissing", 1); ("DecimalSeparatorMissing", 1); ("ValueAfterDecimalSeparatorNotInRange", 4);
   ("TNotWithG", 1); ("MissingValue", 1); ("MissingPreviousValue", 1); ("ValueNotSet", 1); ("ValueNotSetForEither", 2);
   ("ValueNotSetForEitherEither", 3); ("CannotSplitFileNumberOfBlocks", 0); ("CannotSplitFileToolPathLength", 0);
   ("CannotSplitFileToolTime", 0); ("WrongMacroDefinition", 1); ("ValueHigherThanAllowed", 3); ("ValueOutOfRange", 4);
   ("CodeNotUnique", 1); ("UnsupportedOperation", 1); ("UnsupportedBinaryOperation", 1); ("UnsupportedUnaryOperation", 1);
   ("UnsupportedFunction", 1); ("DuplicateAddress", 1); ("SNotAllowedWhenOperatorTurnsRotation", 0);
   ("M3M4NotAllowedWhenOperatorTurnsRotation", 0); ("NonMatchingCloseBracket", 0)]%nat.

(** The same for messages that start with a value ([make_message2]). *)
Definition values_shown2 : list (string * nat) := [("MissingInCodeGroups", 1); ("InSameCodeGroup", 3)]%nat.

(** A message as the model keeps it, name and values: one of the tables with the
    number of values that belongs to it; the text of a failing [std::stoi] in a
    macro number is appended as it is (AllAttributesParserGrammar.cpp 27-31). *)
Definition shown (m : list string) : Prop :=
  match m with name :: args => In (name, List.length args) values_shown | [] => False end.

Definition shown_exn (e : exn) : Prop :=
  match e with
  | EPathCalc m | ERotation m => shown m
  | ECodeGroups m =>
      match m with
      | name :: args => (name = "MissingValue" /\ List.length args = 1%nat) \/
          (In (name, List.length args) values_shown2 /\ exists w r more, (w = "G" \/ w = "M") /\ args = (w ++ r)%string :: more)
      | [] => False
      end
  | ERangeVerifier args => List.length args = 3%nat \/ List.length args = 4%nat
  | _ => True
  end.

(** The exceptions that [parse] turns into a message. *)
Definition reported (e : exn) : Prop :=
  match e with EInvalidArgument | EUB _ | EFileSplitter _ | EEval _ | EExpectation _ | EFilesystem _ => False | _ => True end.

Definition shown_message (m : message) : Prop :=
  match m with
  | MNone => True
  | MGrammar ms | MExpect _ _ ms => Forall (fun m => shown m \/ m = ["stoi"]) ms
  | MExn e => shown_exn e /\ reported e
  end.

Definition starts_with_letter (s : string) : Prop := match s with String c _ => is_alpha c = true | EmptyString => False end.

(** A message [m] about line [n] with the text [l] that the server can place:
    it has no "line 1" in it, which would be taken for a line number; on the
    first line either there is no colon or the column is not the first; and a
    column is an int. *)
Definition clear (n : Z) (l m : string) : Prop :=
  ~ occurs "line 1" m /\
  (1 < n \/ (without ":" l /\ without ":" m) \/
   exists cs c r, m = "1:" ++ cs ++ ":" ++ r /\ denotes cs c /\ 1 < c) /\
  (forall cs c r, m = "1:" ++ cs ++ ":" ++ r -> denotes cs c -> c < 2 ^ 31).

(** The diagnostic for message [m] about the line [l] is at the character
    [ch], where what the message quotes of the line begins. *)
Definition points_at (l m : string) (ch : Z) : Prop :=
  exists before rest more cs, l = before ++ rest /\ ch = Z.of_nat (String.length before) /\
    m = "1:" ++ cs ++ ": " ++ rest ++ more /\ denotes cs (ch + 1).

(** The values stand in the text, one behind the other. *)
Inductive quoted : list string -> string -> Prop :=
| quoted_none s : quoted [] s
| quoted_next a args before s : quoted args s -> quoted (a :: args) (before ++ a ++ s).

(** The text is made of the fixed texts [parts] and the values [args] in turn,
    beginning with a fixed text; none is left over that would stand directly
    behind another of its kind. *)
Inductive in_turn : list string -> list string -> string -> Prop :=
| turn_end : in_turn [] [] ""
| turn_last p : in_turn [p] [] p
| turn_next p a parts args s : in_turn parts args s -> in_turn (p :: parts) (a :: args) (p ++ a ++ s).

(** ** Runs *)

(** The files have been read. *)
Definition ready (n : nc_parser) : Prop :=
  (nc_settings_given n = true -> sr_read (nc_settings n) = true) /\
  nc_grammar n <> None /\ nc_gcodes n <> None /\ nc_mcodes n <> None.

(** The settings file can be read. *)
Definition settings_readable (f : option ptree) : Prop := exists root s, f = Some root /\ settings_described root s.

(** The configuration the parser of [n] works with is the one on the disk. *)
Definition configured (d : disk) (n : nc_parser) : Prop :=
  (nc_settings_given n = true -> exists root, dk_settings d = Some root /\ settings_described root (sr_settings (nc_settings n))) /\
  (nc_settings_given n = false -> sr_settings (nc_settings n) = default_settings) /\
  let dir := parser_type_name (se_driver (sr_settings (nc_settings n))) in
  exists grammar gcodes mcodes g m k,
    dk_conf d dir "grammar.json" = Some (Some grammar) /\ nc_grammar n = Some g /\
      grammar_described grammar (metric (fst g)) (imperial (fst g)) (snd g) /\
    dk_conf d dir "gcode_groups.json" = Some (Some gcodes) /\ nc_gcodes n = Some m /\
      groups_readable gcodes /\ (forall c x, in_group m c x <-> gives_code gcodes x c) /\
    dk_conf d dir "mcode_groups.json" = Some (Some mcodes) /\ nc_mcodes n = Some k /\
      groups_readable mcodes /\ (forall c x, in_group k c x <-> gives_code mcodes x c).

(** The answer that the call ends with one error text. *)
Definition only_error (r : res nc_result) (t : string) : Prop := r = Ok ([t], [], []).
