(** The macro variable table.
    Source: parser/fanuc/MacroDefines.h 10-28; users: MacroEvaluator.cpp 102,
    SystemMacroAssigner.cpp 52, CodeGroupsVerifier.cpp 41-44,
    MacroEvaluatedCodeVerifier.cpp 50-54, ValueCalculator.cpp 264-269. *)
From Verif Require Import Model.Base.

Section Values.
Variable V : Type.

(** MacroDefines.h 10-14.  [id] is unsigned, [line] is int; both are [Z]. *)
Record mkey : Type := mkKey { k_id : Z; k_line : Z }.

(** MacroDefines.h 16-26: [macro_map_key_cmp], "lhs goes before rhs". *)
Definition key_lt (lhs rhs : mkey) : bool :=
  if k_id lhs <? k_id rhs then false
  else if (k_id lhs =? k_id rhs) && (k_line lhs <=? k_line rhs) then false
  else true.

(** MacroDefines.h 28: [std::map] ordered by [key_lt], as the list of its
    elements in iteration order. *)
Definition macro_map := list (mkey * V).

(** [std::map::lower_bound(k)]: the first element not before [k]. *)
Fixpoint lower_bound (m : macro_map) (k : mkey) : option (mkey * V) :=
  match m with
  | [] => None
  | (k', v) :: m' => if key_lt k' k then lower_bound m' k else Some (k', v)
  end.

(** [std::map::emplace]: inserts unless an equivalent key is present. *)
Fixpoint emplace (m : macro_map) (k : mkey) (v : V) : macro_map :=
  match m with
  | [] => [(k, v)]
  | (k', v') :: m' =>
      if key_lt k' k then (k', v') :: emplace m' k v
      else if key_lt k k' then (k, v) :: (k', v') :: m'
      else (k', v') :: m'
  end.

(** [std::map::insert_or_assign]. *)
Fixpoint insert_or_assign (m : macro_map) (k : mkey) (v : V) : macro_map :=
  match m with
  | [] => [(k, v)]
  | (k', v') :: m' =>
      if key_lt k' k then (k', v') :: insert_or_assign m' k v
      else if key_lt k k' then (k, v) :: (k', v') :: m'
      else (k', v) :: m'
  end.

(** The lookup pattern of MacroEvaluatedCodeVerifier.cpp 50-54 and
    CodeGroupsVerifier.cpp 41-44: [lower_bound({id, line})], rejected when it
    is [end()] or belongs to another macro number. *)
Definition macro_lookup (m : macro_map) (id line : Z) : option V :=
  match lower_bound m (mkKey id line) with
  | None => None
  | Some (k, v) => if k_id k =? id then Some v else None
  end.

(** Operations applied to the table by a program run. *)
Inductive mop : Type :=
| MUser : Z -> Z -> V -> mop     (* MacroEvaluator.cpp 102-103: emplace *)
| MSystem : Z -> Z -> V -> mop.  (* SystemMacroAssigner.cpp 52: insert_or_assign *)

Definition mstep (m : macro_map) (o : mop) : macro_map :=
  match o with
  | MUser id line v => emplace m (mkKey id line) v
  | MSystem id line v => insert_or_assign m (mkKey id line) v
  end.

Definition mrun (ops : list mop) : macro_map := fold_left mstep ops [].

End Values.

Arguments lower_bound {V} m k.
Arguments emplace {V} m k v.
Arguments insert_or_assign {V} m k v.
Arguments macro_lookup {V} m id line.
Arguments MUser {V} _ _ _.
Arguments MSystem {V} _ _ _.
Arguments mstep {V} m o.
Arguments mrun {V} ops.
