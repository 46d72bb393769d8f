(** What a shared structure is meant to carry. *)
From Verif Require Import Model.Base Model.Layout Spec.NetSpec.
Local Open Scope string_scope.
Local Open Scope list_scope.
Local Open Scope Z_scope.

(** The values a .NET field can have; texts are not null. *)
Definition fits (k : net_kind) (v : value) : Prop :=
  match k, v with
  | NText, VText (Some _) => True
  | NDouble, VNum z => 0 <= z < 2 ^ 64
  | NUint, VNum z => 0 <= z < 2 ^ 32
  | NInt, VNum z | NEnum, VNum z => - 2 ^ 31 <= z < 2 ^ 31
  | NBool1, VBool _ | NBool, VBool _ => True
  | _, _ => False
  end.

(** The same value, a text up to its first zero. *)
Definition carried (v : value) : value :=
  match v with VText (Some t) => VText (Some (upto_zero t)) | _ => v end.

(** A field of the one side and of the other. *)
Definition same_field (n c : string) : Prop := n = c \/ (n = "type" /\ c = "word_type").

(** [r] has the fields [names] with the values [vs]. *)
Definition has_values (names : list string) (vs : list value) (r : list (string * value)) : Prop :=
  Forall2 (fun n e => same_field n (fst e)) names r /\ map carried vs = map snd r.

(** Addresses of [k] texts: all different, not null, of 64 bits. *)
Definition addresses (alloc : nat -> Z) (k : nat) : Prop :=
  (forall i j, (i < k)%nat -> (j < k)%nat -> alloc i = alloc j -> i = j) /\ (forall i, (i < k)%nat -> 0 < alloc i < 2 ^ 64).

(** The texts the earlier parameters of the call needed. *)
Inductive made (alloc : nat -> Z) : texts -> Prop :=
| made_nil : made alloc []
| made_cons : forall t ts, made alloc ts -> made alloc ((alloc (List.length ts), t) :: ts).

(** ** Names of enumerators *)

(** Lower case without underscores. *)
Definition lower (c : ascii) : ascii :=
  let n := nat_of_ascii c in if (Nat.leb 65 n && Nat.leb n 90)%bool then ascii_of_nat (n + 32) else c.
Fixpoint plain (s : string) : string :=
  match s with
  | EmptyString => EmptyString
  | String c r => if Ascii.eqb c "_" then plain r else String (lower c) (plain r)
  end.

(** The meaning of two enumerators is the same. *)
Definition same_meaning (n c : string) : Prop :=
  plain n = plain c \/
  In (n, c) [("feed_per_minute", "PerMinute"); ("feed_per_revolution", "PerRevolution"); ("beginning", "G98"); ("point_r", "G99")].
