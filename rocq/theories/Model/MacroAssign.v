(** Macro assignments.  Source: parser/fanuc/MacroEvaluator.cpp. *)
From Verif Require Import Model.Base Model.Attr Model.Double Model.Macro Model.Calc.

(** MacroEvaluator.cpp 75-77. *)
Record ma_state : Type := mkMA { ma_macro : Z; ma_equal : bool; ma_text : string }.

Definition ma_init : ma_state := mkMA (-1) false "".

(** MacroEvaluator.cpp 43-56: the parts of a word after its address. *)
Definition ma_fields (d : decimal) : string :=
  opt_chr (d_sign d) ++ opt_str (d_open d) ++ opt_str (d_macro d) ++ opt_str (d_value d) ++
  opt_chr (d_dot d) ++ opt_str (d_value2 d) ++ opt_str (d_close d).

(** MacroEvaluator.cpp 16-57. *)
Definition ma_visit (s : ma_state) (d : decimal) : res ma_state :=
  if ma_equal s then Ok (mkMA (ma_macro s) true (ma_text s ++ d_word d ++ ma_fields d))
  else if String.eqb (d_word d) "#" then
    match d_value d with
    | Some v => do n <- stoi v; Ok (mkMA n false (ma_text s))
    | None => Ok s
    end
  else if ma_macro s =? -1 then Ok s
  else Ok (mkMA (ma_macro s) (String.eqb (d_word d) "=") (ma_text s ++ ma_fields d)).

(** String and char words are ignored (59-62). *)
Definition ma_step (s : ma_state) (a : attr) : res ma_state :=
  match a with ADec d => ma_visit s d | _ => Ok s end.

Section Assign.
Variable lit : string -> dbl.
Variable libm : string -> dbl -> dbl.

(** MacroEvaluator.cpp 80-107: the table afterwards and, when the answer is
    [false], the parts of the message. *)
Definition macro_evaluate (mv : macro_map dbl) (line : Z) (b : block)
  : res (macro_map dbl * option (list string)) :=
  do s <- foldM ma_step ma_init b;
  if ma_macro s =? -1 then Ok (mv, None)
  else match ma_text s with
       | EmptyString => Ok (mv, Some ["WrongMacroDefinition"; z_to_string (ma_macro s)])
       | _ =>
           do a <- value_calculator lit libm mv (ma_text s);
           match a with
           | CValue v => Ok (emplace mv (mkKey (to_u32 (ma_macro s)) line) v, None)
           | CRefused m => Ok (mv, Some m)
           end
       end.

End Assign.
