(** What callers of the C interface find in memory. *)
From Verif Require Import Model.Base Model.Attr Model.Double Model.Macro Model.Verifiers Model.Wrapper.

(** The text in front of the first zero. *)
Inductive before_zero : string -> string -> Prop :=
| bz_end r : before_zero (String zero r) ""
| bz_char c r s : c <> zero -> before_zero r s -> before_zero (String c r) (String c s).

(** [p] is the address of an allocation with contents [c]. *)
Definition at_cell (h : heap) (p : ptr) (c : cell) : Prop :=
  exists n, p = PAt n /\ nth_error h n = Some (Some c).

(** Reading the C string at [p] gives [s]. *)
Definition text_at (h : heap) (p : ptr) (s : string) : Prop :=
  exists bytes, at_cell h p (CChars bytes) /\ before_zero bytes s.

Definition word_at (h : heap) (p : ptr * ptr) (w : string * string) : Prop :=
  text_at h (fst p) (fst w) /\ text_at h (snd p) (snd w).

(** [l] cut into parts of the lengths [ns], with nothing left. *)
Fixpoint parts_of {A} (ns : list Z) (l : list A) (parts : list (list A)) : Prop :=
  match ns, parts with
  | [], [] => l = []
  | n :: ns', x :: parts' => Z.of_nat (List.length x) = n /\ exists l', l = (x ++ l')%list /\ parts_of ns' l' parts'
  | _, _ => False
  end.

(** A word as its user reads it: the address and everything behind it; a closing
    bracket belongs to a comment, and a single mark stands alone. *)
Definition shown (a : attr) : string * string :=
  match a with
  | ADec d => (d_word d, String.concat "" [opt_chr (d_assign d); opt_chr (d_sign d); opt_str (d_open d); opt_str (d_macro d);
                                           opt_str (d_value d); opt_chr (d_dot d); opt_str (d_value2 d); opt_str (d_close d)])
  | AStr "(" v => ("(", v ++ ")")
  | AStr w v => (w, v)
  | AChr w c => (w, if Ascii.eqb c zero then "" else String c "")
  end%string.

(** No zero in a text. *)
Definition zero_free (s : string) : Prop := all_chars (fun c => negb (Ascii.eqb c zero)) s = true.

Definition word_zero_free (a : attr) : Prop := zero_free (fst (shown a)) /\ zero_free (snd (shown a)).

(** Memory [h] with further allocations that have all been released. *)
Definition all_released (h h' : heap) : Prop := exists k, h' = (h ++ repeat None k)%list.

(** Memory [h] with further allocations. *)
Definition extends (h h' : heap) : Prop := exists more, h' = (h ++ more)%list.

(** The lines of a piece as text: words separated by blanks, lines ended by CR LF. *)
Definition line_text (b : block) : string := String.concat " " (map (fun a => fst (shown a) ++ snd (shown a)) b)%string.
Definition piece_lines (p : list block) : string :=
  String.concat "" (map (fun b => line_text b ++ String "013" (String "010" ""))%string p).

(** The group [g] is given the code [c] by the arrays: [parts] are the codes of
    the groups, [keys] their names. *)
Definition listed (keys : list string) (parts : list (list cgv)) (c : cgv) (g : string) : Prop :=
  exists x p, nth_error keys x = Some g /\ nth_error parts x = Some p /\ In c p.

(** [v] is the last value given to [k]. *)
Definition last_given {A} (keys : list string) (values : list A) (k : string) (v : A) : Prop :=
  exists x, nth_error keys x = Some k /\ nth_error values x = Some v /\
    forall y, (x < y)%nat -> nth_error keys y <> Some k.

(** The numbers at the front of an array. *)
Definition ints_at (h : heap) (p : ptr) (l : list Z) : Prop := exists more, at_cell h p (CInts (map Some l ++ more)).
Definition dbls_at (h : heap) (p : ptr) (l : list dbl) : Prop := exists more, at_cell h p (CDbls (map Some l ++ more)).
