(** Reading two numbers of a line in a given order. *)
From Verif Require Import Model.Base.

(** Characters that are passed over while [c] is looked for: blanks and
    printable characters other than [c]. *)
Definition passable (c x : ascii) : Prop :=
  (x = " "%char \/ x = "009"%char \/ 33 <= code x <= 126) /\ x <> c.

Definition passed (c : ascii) (s : string) : Prop := Forall (passable c) (list_ascii_of_string s).

(** [t] stands behind the first [c]. *)
Definition behind (c : ascii) (data t : string) : Prop :=
  exists pre, passed c pre /\ data = (pre ++ String c t)%string.

Section Order.
Context {V : Type}.
Variable read : string -> option (V * string).
Variable place : string -> string -> string.

(** Result, values and message for a line, given what the values and the message
    were; [place data t]: the message that no number stands at the beginning of
    [t]. *)
Inductive order_says (data : string) (c1 c2 : ascii) (a b : V) (m : string) : bool * (V * V) * string -> Prop :=
| SaysBoth t1 v1 t2 t3 v2 t4 :
    behind c1 data t1 -> read t1 = Some (v1, t2) -> behind c2 t2 t3 -> read t3 = Some (v2, t4) ->
    order_says data c1 c2 a b m (true, (v1, v2), m)
| SaysNoFirst :
    (forall t, ~ behind c1 data t) -> order_says data c1 c2 a b m (false, (a, b), m)
| SaysNoNumber t :
    behind c1 data t -> read t = None -> order_says data c1 c2 a b m (false, (a, b), place data t)
| SaysNoSecond t1 v1 t2 :
    behind c1 data t1 -> read t1 = Some (v1, t2) -> (forall t, ~ behind c2 t2 t) ->
    order_says data c1 c2 a b m (false, (v1, b), m)
| SaysNoSecondNumber t1 v1 t2 t3 :
    behind c1 data t1 -> read t1 = Some (v1, t2) -> behind c2 t2 t3 -> read t3 = None ->
    order_says data c1 c2 a b m (false, (v1, b), place data t3).
End Order.
