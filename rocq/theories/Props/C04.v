(** C04: renumbering touches nothing but the block number. *)
From Verif Require Import Model.Base Model.Attr Model.Renumberer Spec.RenumberSpec
  Proofs.RenumberProofs.

Theorem C04_only_the_number : forall nw rs p st,
  Forall2 (only_number_changed (map fst nw) (rs_word rs)) p (snd (renumber_program nw st rs p)).
Proof. exact renumber_program_only_number. Qed.
Print Assumptions C04_only_the_number.

Theorem C04_at_most_one_word : forall (nw : word_map) w b b',
  only_number_changed (map fst nw) w b b' ->
  (List.length b' <= S (List.length b) /\ List.length b <= S (List.length b'))%nat.
Proof. exact only_number_length. Qed.
Print Assumptions C04_at_most_one_word.

Example C04_ex :
  let nw := [("N", mkWG "N" 1 99999 0 0 true WTnumbering)] in
  let p := [ [ADec (plain "G" "0")]; [ADec (plain "N" "5"); ADec (plain "X" "1")] ] in
  snd (renumber_program nw (mkRen 1 0) (mkRS "N" 1 2 99 false false) p)
  = [ [ADec (plain "N" "1"); ADec (plain "G" "0")]; [ADec (plain "X" "1")] ].
Proof. vm_compute. reflexivity. Qed.
