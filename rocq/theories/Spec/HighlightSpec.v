(** Comments of a line. *)
From Verif Require Import Model.Base Model.Attr.
Local Open Scope string_scope. Local Open Scope list_scope. Local Open Scope Z_scope.

(** The line [t] is text without brackets and semicolons and, between, the
    comments [cs] in brackets; [marks] says which characters belong to a comment. *)
Inductive laid_out : string -> list string -> list bool -> Prop :=
| lo_text p : all_chars (fun c => negb (Ascii.eqb c "(" || Ascii.eqb c ";")) p = true ->
    laid_out p [] (repeat false (String.length p))
| lo_comment p v t cs marks :
    all_chars (fun c => negb (Ascii.eqb c "(" || Ascii.eqb c ";")) p = true ->
    all_chars (fun c => negb (Ascii.eqb c ")")) v = true ->
    laid_out t cs marks ->
    laid_out (p ++ "(" ++ v ++ ")" ++ t)%string (v :: cs)
      (repeat false (String.length p) ++ repeat true (String.length v + 2) ++ marks).

(** The comments of a block. *)
Fixpoint comments (b : block) : list string :=
  match b with
  | AStr w v :: r => if String.eqb w "(" then v :: comments r else comments r
  | _ :: r => comments r
  | [] => []
  end.

(** No address holds an opening bracket or a semicolon. *)
Definition no_comment_signs (ws : list string) : Prop :=
  forall w, In w ws -> all_chars (fun c => negb (Ascii.eqb c "(" || Ascii.eqb c ";")) w = true.
