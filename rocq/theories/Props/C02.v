(** C02: user assignments keep the first value per line, published addresses
    keep the last. *)
From Verif Require Import Model.Base Model.Attr Model.Double Model.Macro Model.MacroEval
  Spec.MacroSpec Proofs.MacroProofs Proofs.MacroEvalProofs.

(** After any history the table is a function of (number, line), and it is the
    function the history describes. *)
Theorem C02_table_is_function : forall V (ops : list (mop V)),
  NoDup (map fst (mrun ops)) /\
  (forall id line v, In (mkKey id line, v) (mrun ops) <-> given_on ops id line = Some v).
Proof. exact table_function. Qed.
Print Assumptions C02_table_is_function.

(** One more user assignment: the first value of that line stays, other
    entries are untouched. *)
Theorem C02_user_keeps_first : forall V (ops : list (mop V)) id line v,
  (forall w, In (mkKey id line, w) (mrun ops) ->
     forall u, In (mkKey id line, u) (mrun (ops ++ [MUser id line v])) <-> u = w) /\
  ((forall w, ~ In (mkKey id line, w) (mrun ops)) ->
     forall u, In (mkKey id line, u) (mrun (ops ++ [MUser id line v])) <-> u = v) /\
  (forall id' line' u, (id', line') <> (id, line) ->
     (In (mkKey id' line', u) (mrun (ops ++ [MUser id line v])) <-> In (mkKey id' line', u) (mrun ops))).
Proof. exact user_first. Qed.
Print Assumptions C02_user_keeps_first.

(** Publishing the words of a block: every address B D E F H M N O S leaves the
    value of its last word in the block under its three numbers, and nothing
    else changes. *)
Theorem C02_system_keeps_last : forall ops line b m',
  system_assign (mrun ops) line b = (m', None) ->
  NoDup (map fst m') /\
  (forall w id d, published w id -> last_word w b = Some d ->
     exists x, stod (value_text d) = Ok x /\ In (mkKey id line, x) m') /\
  (forall w id v, published w id -> last_word w b = None ->
     (In (mkKey id line, v) m' <-> In (mkKey id line, v) (mrun ops))) /\
  (forall id l v, l <> line \/ (forall w, ~ published w id) ->
     (In (mkKey id l, v) m' <-> In (mkKey id l, v) (mrun ops))).
Proof. exact system_publish. Qed.
Print Assumptions C02_system_keeps_last.

(** M3 S100 M8 on line 4, after #1 was assigned twice on line 2. *)
Example C02_ex :
  let ops := [MUser 1 2 (d_of_Z 5); MUser 1 2 (d_of_Z 6)] in
  let b := [ADec (plain "M" "3"); ADec (plain "S" "100"); ADec (plain "M" "8")] in
  snd (system_assign (mrun ops) 4 b) = None /\
  macro_lookup (fst (system_assign (mrun ops) 4 b)) 1 2 = Some (d_of_Z 5) /\
  macro_lookup (fst (system_assign (mrun ops) 4 b)) 4113 4 = Some (d_of_Z 8) /\
  macro_lookup (fst (system_assign (mrun ops) 4 b)) 4519 4 = Some (d_of_Z 100) /\
  published "M" 4113 /\ last_word "M" b = Some (plain "M" "8").
Proof.
  vm_compute. repeat split. exists 4113. split; [|left; reflexivity].
  do 5 right. left. reflexivity.
Qed.
