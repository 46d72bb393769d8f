(** How the editor colours a document, and how it makes a line a comment.
    Source: syntaxes/ncproj.tmLanguage.json and language-configuration.json.

    The engine of the editor is modelled by what it does for these rules: a line is
    read from left to right; the rule that matches first wins, and of those that
    match at the same place the one listed first; within a comment its end is
    tried before the rule for a backslash; at the end of a line stands a line feed,
    which [.] does not match; what is open at the end of a line stays open. *)
From Verif Require Import Model.Base Model.Attr.
Local Open Scope string_scope. Local Open Scope list_scope. Local Open Scope Z_scope.

Inductive scope : Type := Keyword | Axis | Numbering | Remark | NoScope.

(** ncproj.tmLanguage.json 17. *)
Definition keywords : list string :=
  ["GOTO"; "SIN"; "COS"; "TAN"; "ATAN"; "SQRT"; "ABS"; "ROUND"; "FIX"; "FUP"; "OR"; "XOR"; "AND"; "BIN"; "BCD"; "OR"; "XOR";
   "AND"; "IF"; "WHILE"; "DO"; "END"; "EQ"; "NE"; "GT"; "GE"; "LT"; "LE"; "M"; "G"; "P"; "T"; "S"; "F"; "L"; "R"; "H"; "#"].
(** ncproj.tmLanguage.json 21, 25. *)
Definition axes : list string := ["X"; "Y"; "Z"; "A"; "B"; "C"; "I"; "J"; "K"].
Definition numbering : list string := ["N"; ":"].

(** Where the engine is: between two matches, within one of which some characters
    are still to come, in a comment, or behind a backslash in a comment. *)
Inductive place : Type := Between | Inside (k : nat) (sc : scope) | InRemark | Escaped.

Definition inside (w : string) (sc : scope) : place :=
  match String.length w with S (S k) => Inside k sc | _ => Between end.

(** ncproj.tmLanguage.json 4-27, 30-33: the rules in the order they are listed. *)
Definition top_rule (t : string) : scope * place :=
  let first l := find (fun w => prefix w t) l in
  match first keywords with
  | Some w => (Keyword, inside w Keyword)
  | None =>
      match first axes with
      | Some w => (Axis, inside w Axis)
      | None =>
          match first numbering with
          | Some w => (Numbering, inside w Numbering)
          | None => match t with
                    | String c _ => if Ascii.eqb c "(" || Ascii.eqb c ";" then (Remark, InRemark) else (NoScope, Between)
                    | EmptyString => (NoScope, Between)
                    end
          end
      end
  end.

(** ncproj.tmLanguage.json 30-39: the end of a comment, a backslash with the
    character behind it, or any other character. *)
Definition remark_rule (c : ascii) (r : string) : place :=
  if Ascii.eqb c ")" then Between
  else if Ascii.eqb c "\" && negb (String.eqb r "") then Escaped
  else InRemark.

(** The scope of each character of a line without its line feed, and where the
    engine is then. *)
Fixpoint colours (st : place) (t : string) : list scope * place :=
  match t with
  | EmptyString => ([], st)
  | String c r =>
      let '(sc, st') :=
        match st with
        | Between => top_rule t
        | Inside k sc => (sc, match k with O => Between | S k' => Inside k' sc end)
        | InRemark => (Remark, remark_rule c r)
        | Escaped => (Remark, InRemark)
        end in
      let '(l, e) := colours st' r in (sc :: l, e)
  end.

(** ncproj.tmLanguage.json 33: a line feed ends a comment. *)
Definition line_end (st : place) : place := match st with InRemark => Between | _ => st end.

Fixpoint colour_lines (st : place) (ls : list string) : list (list scope) :=
  match ls with
  | [] => []
  | l :: r => let '(c, e) := colours st l in c :: colour_lines (line_end e) r
  end.

(** language-configuration.json 4: the editor makes a line a comment with this
    text and a blank in front of it. *)
Definition line_comment : string := "#".
Definition commented_out (l : string) : string := line_comment ++ " " ++ l.
