(** Macro assignments [#n = expression], as blocks. *)
From Verif Require Import Model.Base Model.Attr.
From Verif Require Export Spec.Text.

(** A word as written, without its address: sign, opening brackets, macro
    mark, digits, point, digits, closing brackets. *)
Definition body (d : decimal) : string :=
  String.concat "" [opt_chr (d_sign d); opt_str (d_open d); opt_str (d_macro d); opt_str (d_value d);
                    opt_chr (d_dot d); opt_str (d_value2 d); opt_str (d_close d)].

(** The numeric words of a block as written, one after the other. *)
Fixpoint words_text (b : block) : string :=
  match b with
  | [] => ""
  | ADec d :: b' => d_word d ++ body d ++ words_text b'
  | _ :: b' => words_text b'
  end.

Definition has_word (w : string) (b : block) : Prop := exists d, In (ADec d) b /\ d_word d = w.

(** [b] is an assignment to macro [id] with right-hand side [t].  Words before
    the macro (such as a block number) are allowed. *)
Definition assigns (b : block) (id : Z) (t : string) : Prop :=
  exists pre h q rest n, b = (pre ++ ADec h :: ADec q :: rest)%list /\ ~ has_word "#" pre /\
    d_word h = "#" /\ d_value h = Some n /\ denotes n id /\
    d_word q = "=" /\ t = (body q ++ words_text rest)%string.
