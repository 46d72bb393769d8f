(** Parsed words of a block and the word grammar.
    Source: parser/fanuc/AllAttributesParserDefines.h 18-96. *)
From Verif Require Import Model.Base.

(** AllAttributesParserDefines.h 33-48: DecimalAttributeData. *)
Record decimal : Type := mkDec {
  d_word : string;
  d_assign : option ascii;
  d_sign : option ascii;
  d_open : option string;
  d_macro : option string;
  d_value : option string;
  d_dot : option ascii;
  d_value2 : option string;
  d_close : option string
}.

(** AllAttributesParserDefines.h 49-58: AttributeVariant. *)
Inductive attr : Type :=
| ADec : decimal -> attr
| AStr : string -> string -> attr      (* word, value *)
| AChr : string -> ascii -> attr.      (* word, value *)

Definition block := list attr.

(** AllAttributesParserDefines.h 60-71. *)
Inductive word_type : Type :=
| WTmisc | WTangle | WTcalc | WTcode | WTfeed | WTlength | WTmacro
| WTnumbering | WTassignable.

Definition word_type_eqb (a b : word_type) : bool :=
  match a, b with
  | WTmisc, WTmisc | WTangle, WTangle | WTcalc, WTcalc | WTcode, WTcode
  | WTfeed, WTfeed | WTlength, WTlength | WTmacro, WTmacro
  | WTnumbering, WTnumbering | WTassignable, WTassignable => true
  | _, _ => false
  end.

(** AllAttributesParserDefines.h 76-85. *)
Record word_grammar : Type := mkWG {
  g_word : string;
  g_from : Z;
  g_to : Z;
  g_dfrom : Z;
  g_dto : Z;
  g_unique : bool;
  g_type : word_type
}.

(** AllAttributesParserDefines.h 87: word_map.  An unordered_map has unique
    keys; as an association list only the first entry of a key counts. *)
Definition word_map := list (string * word_grammar).

(** AllAttributesParserDefines.h 89-93. *)
Record fanuc_grammar : Type := mkFG { metric : word_map; imperial : word_map }.

(** A plain decimal word such as N10: everything but word and value absent. *)
Definition plain (w v : string) : decimal :=
  mkDec w None None None None (Some v) None None None.
