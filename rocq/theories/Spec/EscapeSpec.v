(** Documents that the server gets to the end of. *)
From Verif Require Import Model.Base Model.Attr Spec.Text.

(** A capital letter as an address. *)
Definition address (w : string) : Prop := exists c, w = String c "" /\ 65 <= code c <= 90.

(** Tables of addresses: none is empty, every letter has a range for millimetres
    and for inches, and no range of decimals ends below zero. *)
Record tables_complete (fg : fanuc_grammar) (ops : list string) : Prop := {
  tc_words : forall w, In w (map fst (metric fg)) \/ In w ops -> w <> ""%string;
  tc_numbers : forall w, address w -> In w (map fst (metric fg)) \/ In w ops ->
    assoc w (metric fg) <> None /\ assoc w (imperial fg) <> None;
  tc_decimals : forall w g, assoc w (metric fg) = Some g \/ assoc w (imperial fg) = Some g -> 0 <= g_dto g
}.

(** Neither brackets nor macros. *)
Definition unmarked (t : string) : Prop := contains "[" t = false /\ contains "]" t = false /\ contains "#" t = false.

(** Somewhere in the text there is a "G" with the number [n] behind it. *)
Definition gap (c : ascii) : bool := is_blank c || contains (String c "") "=+-".

Definition g_code (t : string) (n : Z) : Prop :=
  exists a g ds b, t = (a ++ "G" ++ g ++ ds ++ b)%string /\ all_chars gap g = true /\ denotes ds n /\
    (forall c r, b = String c r -> is_digit c = false).

(** The motion the control starts with, and every code of the document. *)
Definition in_force (start : Z) (lines : list string) (n : Z) : Prop := n = start \/ exists l, In l lines /\ g_code l n.

Definition peck_cycles : list Z := [73; 76; 83; 87].
Definition other_cycles : list Z := [74; 81; 82; 84; 85; 86; 88; 89].

(** What the path calculation cannot deal with is not there: pecking cycles;
    repeated holes; blocks that may start a helix; G28 with a tool exchange point
    that has not all axes. *)
Record harmless (start : Z) (exchange : list string) (lines : list string) : Prop := {
  no_pecking : forall n, in_force start lines n -> ~ In n peck_cycles;
  no_repeats : (exists n, in_force start lines n /\ In n other_cycles) -> forall l, In l lines -> contains "K" l = false;
  no_helix : (in_force start lines 2 \/ in_force start lines 3) -> forall l, In l lines ->
    contains "X" l && contains "Y" l && contains "Z" l &&
    (contains "R" l || (contains "I" l && contains "J" l && contains "K" l)) = false;
  home_point : (exists l, In l lines /\ g_code l 28) -> In "X"%string exchange /\ In "Y"%string exchange /\ In "Z"%string exchange
}.
