(** C39: the arrays of a split file encode its pieces. *)
From Verif Require Import Model.Base Model.Attr Model.Double Model.Wrapper Spec.WrapperSpec Proofs.WrapperProofs Proofs.WrapperTables.

(** The lengths in the arrays cut the words into blocks and the blocks into
    pieces; read this way they are the words of the pieces, none missing and
    none left. *)
Theorem C39_export : forall pieces msg o h o' h', export_split pieces msg o h = (o', h') ->
  extends h h' /\ so_length o' = Z.of_nat (List.length pieces) /\
  (exists ns ms ws,
     at_cell h' (so_piece_lengths o') (CInts (map Some ns)) /\ at_cell h' (so_block_lengths o') (CInts (map Some ms)) /\
     at_cell h' (so_value o') (CWords ws) /\
     ns = map (fun p => Z.of_nat (List.length p)) pieces /\
     (Forall (Forall (Forall word_zero_free)) pieces ->
      exists blocks nested, parts_of ms ws blocks /\ parts_of ns blocks nested /\
        Forall2 (Forall2 (Forall2 (word_at h'))) nested (map (map (map shown)) pieces))) /\
  (msg = ""%string -> so_message o' = so_message o) /\
  (msg <> ""%string -> zero_free msg -> text_at h' (so_message o') msg).
Proof. exact split_exported. Qed.
Print Assumptions C39_export.

(** The same arrays cannot be read in two ways. *)
Theorem C39_determined : forall h ns ms ws b1 n1 t1 b2 n2 t2,
  parts_of ms ws b1 -> parts_of ns b1 n1 -> Forall2 (Forall2 (Forall2 (word_at h))) n1 t1 ->
  parts_of ms ws b2 -> parts_of ns b2 n2 -> Forall2 (Forall2 (Forall2 (word_at h))) n2 t2 -> t1 = t2.
Proof. exact split_determined. Qed.
Print Assumptions C39_determined.

(** Giving the arrays back releases every allocation once. *)
Theorem C39_released : forall pieces msg h o' h', export_split pieces msg (mkSO PNull PNull PNull 0 PNull) h = (o', h') ->
  exists h1 h2, dispose_split (so_value o') (so_block_lengths o') (so_piece_lengths o') (so_length o') h' = Ok h1 /\
    dispose_chars (so_message o') h1 = Ok h2 /\ all_released h h2.
Proof. exact split_released. Qed.
Print Assumptions C39_released.

(** Two pieces, the second with an empty block. *)
Definition C39_pieces : list (list block) :=
  [[[ADec (plain "G" "1"); ADec (plain "X" "5")]; [AStr "(" "HELLO"]]; [[]; [ADec (plain "M" "30")]]]%string.

Example C39_ex : Forall (Forall (Forall word_zero_free)) C39_pieces /\
  exists o' h', export_split C39_pieces "note" (mkSO PNull PNull PNull 0 PNull) [] = (o', h') /\
    at_cell h' (so_piece_lengths o') (CInts [Some 2; Some 2]) /\ at_cell h' (so_block_lengths o') (CInts [Some 2; Some 1; Some 0; Some 1]).
Proof.
  split; [repeat constructor|]. eexists _, _. split; [vm_compute; reflexivity|].
  split; eexists; (split; [reflexivity|reflexivity]).
Qed.
