(** What the macro table should mean, without mentioning ordered maps: a
    partial function from (macro number, line) to values, and the history of
    assignments read oldest first. *)
From Verif Require Import Model.Base Model.Macro.

Section Spec.
Variable V : Type.

(** Does this assignment concern macro [id] on line [line]? *)
Definition op_hits (o : mop V) (id line : Z) : bool :=
  match o with
  | MUser i l _ | MSystem i l _ => (i =? id) && (l =? line)
  end.

(** The value of macro [id] given on exactly [line] by the history [ops]:
    a user assignment counts only if there is no value yet, a system
    assignment always counts. *)
Fixpoint given (cur : option V) (ops : list (mop V)) (id line : Z) : option V :=
  match ops with
  | [] => cur
  | o :: ops' =>
      given (if op_hits o id line then
               match o with
               | MUser _ _ v => match cur with None => Some v | Some w => Some w end
               | MSystem _ _ v => Some v
               end
             else cur) ops' id line
  end.

Definition given_on (ops : list (mop V)) (id line : Z) : option V := given None ops id line.

(** [v] is what a use of macro [id] on line [L] should see: the value given on
    the greatest line not above [L] that gives one. *)
Definition visible (ops : list (mop V)) (id L : Z) (v : V) : Prop :=
  exists line, line <= L /\ given_on ops id line = Some v /\
    forall line', line < line' <= L -> given_on ops id line' = None.

(** Nothing is given to macro [id] at or before line [L]. *)
Definition nothing_visible (ops : list (mop V)) (id L : Z) : Prop :=
  forall line, line <= L -> given_on ops id line = None.

End Spec.
Arguments op_hits {V}.
Arguments given {V}.
Arguments given_on {V}.
Arguments visible {V}.
Arguments nothing_visible {V}.

From Verif Require Import Model.Attr.

(** The last decimal word of a block with the given address. *)
Fixpoint last_word (w : string) (b : block) : option decimal :=
  match b with
  | [] => None
  | ADec d :: b' =>
      match last_word w b' with
      | Some d' => Some d'
      | None => if String.eqb (d_word d) w then Some d else None
      end
  | _ :: b' => last_word w b'
  end.

(** The macro numbers an address is published under: base, base+200, base+400
    (values of the current block, and the two copies 4300.. and 4500..). *)
Definition published_base : list (string * Z) :=
  [("B", 4102); ("D", 4107); ("E", 4108); ("F", 4109); ("H", 4111); ("M", 4113);
   ("N", 4114); ("O", 4115); ("S", 4119)].

Definition published (w : string) (id : Z) : Prop :=
  exists base, In (w, base) published_base /\ (id = base \/ id = base + 200 \/ id = base + 400).
