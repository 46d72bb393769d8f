(** Block renumbering.  Source: parser/fanuc/Renumberer.cpp and Renumberer.h. *)
From Verif Require Import Model.Base Model.Attr.

(** GeneralParserDefines.h: RenumberSettings{word, step, frequency, max_number,
    existing_only, leading_zeroes}.  step, frequency and max_number are unsigned. *)
Record renumber_settings : Type := mkRS {
  rs_word : string;
  rs_step : Z;
  rs_frequency : Z;
  rs_max : Z;
  rs_existing_only : bool;
  rs_leading_zeroes : bool
}.

(** Renumberer.h 40-43: the numbering words of the metric grammar (with their
    grammar entry) and the two counters. *)
Record renumberer : Type := mkRen { counter : Z; current_frequency : Z }.

(** Renumberer.cpp 14-24: entries of type numbering of the metric grammar. *)
Definition numbering_words (wm : word_map) : word_map :=
  filter (fun e => word_type_eqb (g_type (snd e)) WTnumbering) wm.

(** Renumberer.h 24-32. *)
Definition set_start_value (st : renumberer) (v : Z) : renumberer :=
  mkRen v (current_frequency st).
Definition renumber_reset : renumberer := mkRen 1 0.

(** util.h 24-29: [std::setw(n) << std::setfill('0')]. *)
Fixpoint zeros (n : nat) : string :=
  match n with O => "" | S n' => String "0" (zeros n') end.
Definition to_string_leading_zeroes (v n : Z) : string :=
  let s := z_to_string v in
  (zeros (Z.to_nat n - String.length s) ++ s)%string.

Section Ren.
(** [nw]: result of [numbering_words]. *)
Variable nw : word_map.

Definition is_numbering (w : string) : bool := mem_str w (map fst nw).

(** Renumberer.cpp 26-39. *)
Definition remove_number (b : block) : block :=
  match b with
  | ADec d :: b' => if is_numbering (d_word d) then b' else b
  | _ => b
  end.

(** Renumberer.cpp 48-51. *)
Definition leading_zeroes_num (rs : renumber_settings) : Z :=
  if rs_leading_zeroes rs then
    match assoc (rs_word rs) nw with
    | Some g => Z.of_nat (String.length (z_to_string (g_to g)))
    | None => 0
    end
  else 0.

(** Renumberer.cpp 68-71 and 102-105. *)
Definition number_text (rs : renumber_settings) (c : Z) : string :=
  if rs_leading_zeroes rs && (0 <? leading_zeroes_num rs)
  then to_string_leading_zeroes c (leading_zeroes_num rs)
  else z_to_string c.

(** Renumberer.cpp 65 and 98: is a number due at this block? *)
Definition due (rs : renumber_settings) (st : renumberer) : bool :=
  (rs_frequency rs <? 2) || ((1 <? rs_frequency rs) && (current_frequency st =? 0)).

(** Renumberer.cpp 110-121.  [counter] is unsigned: the addition wraps. *)
Definition bump (rs : renumber_settings) (c : Z) : Z :=
  let c' := to_u32 (c + rs_step rs) in
  if rs_max rs <? c' then
    match assoc (rs_word rs) nw with
    | Some g => to_u32 (g_from g)
    | None => 1
    end
  else c'.

(** Renumberer.cpp 123-128. *)
Definition next_frequency (rs : renumber_settings) (f : Z) : Z :=
  if 1 <? rs_frequency rs then
    let f' := to_u32 (f + 1) in
    if f' =? rs_frequency rs then 0 else f'
  else f.

Definition set_number (d : decimal) (w v : string) : decimal :=
  mkDec w (d_assign d) (d_sign d) (d_open d) (d_macro d) (Some v)
        (d_dot d) (d_value2 d) (d_close d).

(** What Renumberer.cpp 53-95 decides about the first word of a block. *)
Inductive first_class : Type :=
| FSkip       (* return without touching anything: 57-58, 81-82, 87-94 *)
| FExisting   (* the block already carries a number: 62-64 *)
| FPlain.     (* a number may be inserted *)

Definition classify (rs : renumber_settings) (a : attr) : first_class :=
  match a with
  | ADec d =>
      if String.eqb (d_word d) "/" then FSkip
      else if is_numbering (d_word d) then FExisting
      else if rs_existing_only rs then FSkip else FPlain
  | AChr w _ =>
      if rs_existing_only rs then FSkip
      else if String.eqb w "%" then FSkip else FPlain
  | AStr w _ =>
      if rs_existing_only rs then FSkip
      else if String.eqb w "O" || String.eqb w "(" then FSkip else FPlain
  end.

(** Renumberer.cpp 41-129. *)
Definition renumber (st : renumberer) (rs : renumber_settings) (b : block)
  : renumberer * block :=
  match b with
  | [] => (st, [])
  | a :: b' =>
      let nf := next_frequency rs (current_frequency st) in
      match classify rs a with
      | FSkip => (st, b)
      | FExisting =>
          if due rs st then
            let a' := match a with
                      | ADec d => ADec (set_number d (rs_word rs) (number_text rs (counter st)))
                      | _ => a
                      end in
            (mkRen (bump rs (counter st)) nf, a' :: b')
          else (mkRen (counter st) nf, b')
      | FPlain =>
          if due rs st then
            (mkRen (bump rs (counter st)) nf,
             ADec (plain (rs_word rs) (number_text rs (counter st))) :: b)
          else (mkRen (counter st) nf, b)
      end
  end.

(** A whole program, block after block (the caller's loop). *)
Fixpoint renumber_program (st : renumberer) (rs : renumber_settings) (p : list block)
  : renumberer * list block :=
  match p with
  | [] => (st, [])
  | b :: p' =>
      let '(st1, b1) := renumber st rs b in
      let '(st2, p2) := renumber_program st1 rs p' in
      (st2, b1 :: p2)
  end.

End Ren.
