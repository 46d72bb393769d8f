(** Texts of codes, formatted lines and files of predefined blocks. *)
From Verif Require Import Model.Base Model.Blocks Spec.Text.
Local Open Scope string_scope.
Local Open Scope list_scope.
Local Open Scope Z_scope.

(** A number of 32 bits, with white space and a sign. *)
Definition uint_text (s : string) (v : Z) : Prop :=
  exists w sg d w', s = (w ++ sg ++ d ++ w')%string /\ all_chars is_space w = true /\ all_chars is_space w' = true /\
    (sg = "" \/ sg = "+" \/ sg = "-" /\ v = 0) /\ denotes d v /\ v < 2 ^ 32.

(** A code, with or without decimals. *)
Definition code_written (s : string) (c : code_value) : Prop :=
  uint_text s (cv_code c) /\ cv_rest c = 0 \/
  exists a b, s = (a ++ "." ++ b)%string /\ uint_text a (cv_code c) /\ uint_text b (cv_rest c).

Definition plain_char (c : ascii) : Prop := c <> "{"%char /\ c <> "}"%char.
Definition no_braces (s : string) : Prop := forall a c b, s = (a ++ String c b)%string -> plain_char c.

Definition only_spaces (s : string) : Prop := all_chars (Ascii.eqb " ") s = true.

(** The optional width of a hole, negative width at the left. *)
Inductive width_text : string -> bool -> Z -> Prop :=
| wt_none : width_text "" false 0
| wt_right a d w b : only_spaces a -> denotes d w -> only_spaces b -> width_text ("," ++ a ++ d ++ b) false w
| wt_left a d w b : only_spaces a -> denotes d w -> only_spaces b -> width_text ("," ++ a ++ "-" ++ d ++ b) true w.

Inductive format_text : string -> Prop :=
| ft_none : format_text ""
| ft_some f : no_braces f -> format_text (":" ++ f).

(** [out] is the argument, with as many spaces at one side as it needs for [w]. *)
Definition filled (arg : string) (left_ : bool) (w : Z) (out : string) : Prop :=
  exists p, only_spaces p /\ out = (if left_ then arg ++ p else p ++ arg)%string /\
    Z.of_nat (String.length p) = Z.max 0 (w - Z.of_nat (String.length arg)).

(** What a line with holes is shown as. *)
Inductive shown (arg : string) : string -> string -> Prop :=
| sh_end : shown arg "" ""
| sh_char c s t : plain_char c -> shown arg s t -> shown arg (String c s) (String c t)
| sh_open s t : shown arg s t -> shown arg ("{{" ++ s) ("{" ++ t)
| sh_close s t : shown arg s t -> shown arg ("}}" ++ s) ("}" ++ t)
| sh_hole i sp wt l w f out s t : denotes i 0 -> only_spaces sp -> width_text wt l w -> format_text f -> filled arg l w out ->
    shown arg s t -> shown arg ("{" ++ i ++ sp ++ wt ++ f ++ "}" ++ s) (out ++ t).

(** Blocks and groups, line by line. *)
Definition block_shown (arg : string) (b b' : block) : Prop :=
  bl_about b = bl_about b' /\ exists l l', bl_code b = Some l /\ bl_code b' = Some l' /\ Forall2 (shown arg) l l'.
Definition group_shown (arg : string) (g g' : group) : Prop :=
  gr_about g = gr_about g' /\ exists l l', gr_blocks g = Some l /\ gr_blocks g' = Some l' /\ Forall2 (block_shown arg) l l'.

(** The lines of a group. *)
Definition line_of (s : string) (g : group) : Prop :=
  exists bs b ls, gr_blocks g = Some bs /\ In b bs /\ bl_code b = Some ls /\ In s ls.

(** A name that ends in .json, in any case. *)
Definition json_name (n : string) : Prop :=
  exists a j s o d, n = (a ++ String "." (String j (String s (String o (String d "")))))%string /\
    In j ["j"; "J"]%char /\ In s ["s"; "S"]%char /\ In o ["o"; "O"]%char /\ In d ["n"; "N"]%char.

(** A file of groups in the directory with the full name [full]. *)
Definition group_file (full : string) (e : path * content) : Prop := fst (fst e) = full /\ json_name (snd (fst e)).

(** The elements of [l] that are [P], in order. *)
Inductive selected {A} (P : A -> Prop) : list A -> list A -> Prop :=
| sl_nil : selected P [] []
| sl_in a l l' : P a -> selected P l l' -> selected P (a :: l) (a :: l')
| sl_out a l l' : ~ P a -> selected P l l' -> selected P (a :: l) l'.

(** There is one file for each path. *)
Definition distinct {A B} (l : list (A * B)) : Prop := NoDup (map fst l).
