(** What renumbering should do, stated on blocks. *)
From Verif Require Import Model.Base Model.Attr Model.Renumberer.
From Verif Require Export Spec.Text.

(** Blocks that are never numbered: empty ones, the program start mark, program
    names, comments and optional blocks. *)
Definition special (b : block) : bool :=
  match b with
  | [] => true
  | ADec d :: _ => String.eqb (d_word d) "/"
  | AStr w _ :: _ => String.eqb w "O" || String.eqb w "("
  | AChr w _ :: _ => String.eqb w "%"
  end.

(** The block starts with a word that is a block number ([ws]: the numbering
    addresses of the grammar). *)
Definition has_number (ws : list string) (b : block) : bool :=
  match b with
  | ADec d :: _ => mem_str (d_word d) ws
  | _ => false
  end.

(** The block without its leading number. *)
Definition without_number (ws : list string) (b : block) : block :=
  if has_number ws b then tl b else b.

(** Blocks that take part in the numbering. *)
Definition numberable (ws : list string) (existing_only : bool) (b : block) : bool :=
  negb (special b) && (negb existing_only || has_number ws b).

(** [P j b o] holds for the j-th numberable block [b] and its output [o]; all
    other blocks are unchanged. *)
Fixpoint each_numberable (num : block -> bool) (P : Z -> block -> block -> Prop)
  (j : Z) (p out : list block) : Prop :=
  match p, out with
  | [], [] => True
  | b :: p', o :: out' =>
      if num b then P j b o /\ each_numberable num P (j + 1) p' out'
      else o = b /\ each_numberable num P j p' out'
  | _, _ => False
  end.

(** The j-th number: start, start+step, ... up to [hi]; afterwards
    lo, lo+step, ... up to [hi], over and over. *)
Definition expected_number (lo hi start step j : Z) : Z :=
  let n1 := (hi - start) / step + 1 in
  let n2 := (hi - lo) / step + 1 in
  if j <? n1 then start + j * step else lo + ((j - n1) mod n2) * step.

(** An existing block number that is nothing but an address and digits. *)
Definition plain_number (ws : list string) (b : block) : Prop :=
  match b with
  | ADec d :: _ => mem_str (d_word d) ws = true -> exists v, d = plain (d_word d) v
  | _ => True
  end.

(** How a block may change: not at all; its number replaced in place (only
    address and digits of that word); its number dropped; a number put in front. *)
Inductive only_number_changed (ws : list string) (w : string) : block -> block -> Prop :=
| onc_same b : only_number_changed ws w b b
| onc_replace d d' b :
    mem_str (d_word d) ws = true -> d_word d' = w -> is_some (d_value d') = true ->
    d_assign d' = d_assign d -> d_sign d' = d_sign d -> d_open d' = d_open d ->
    d_macro d' = d_macro d -> d_dot d' = d_dot d -> d_value2 d' = d_value2 d ->
    d_close d' = d_close d ->
    only_number_changed ws w (ADec d :: b) (ADec d' :: b)
| onc_drop d b : mem_str (d_word d) ws = true -> only_number_changed ws w (ADec d :: b) b
| onc_insert v b : b <> [] -> has_number ws b = false -> special b = false ->
    only_number_changed ws w b (ADec (plain w v) :: b).

(** Where numbering restarts: the lower end of the address range in the
    grammar, or 1 for an address that is not a numbering address. *)
Definition lower_end (nw : word_map) (w : string) : Z :=
  match assoc w nw with Some g => g_from g | None => 1 end.

(** Digits a number is padded to: with leading zeroes, as many as the upper end
    of the address range has. *)
Definition pad_width (nw : word_map) (rs : renumber_settings) : nat :=
  if rs_leading_zeroes rs
  then match assoc (rs_word rs) nw with Some g => String.length (z_to_string (g_to g)) | None => 0%nat end
  else 0%nat.

(** [t] is the number [n] written with at least [w] digits and no superfluous zeroes. *)
Definition written (w : nat) (t : string) (n : Z) : Prop :=
  denotes t n /\ String.length t = Nat.max w (String.length (z_to_string n)).
