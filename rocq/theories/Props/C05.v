(** C05: removing numbering undoes renumbering. *)
From Verif Require Import Model.Base Model.Attr Model.Renumberer Spec.RenumberSpec
  Proofs.RenumberProofs.

Theorem C05_remove_undoes_renumber : forall nw rs p st,
  mem_str (rs_word rs) (map fst nw) = true ->
  Forall (fun b => has_number (map fst nw) b = false) p ->
  map (remove_number nw) (snd (renumber_program nw st rs p)) = p.
Proof. exact remove_renumber_program. Qed.
Print Assumptions C05_remove_undoes_renumber.

Example C05_ex :
  let nw := [("N", mkWG "N" 1 99999 0 0 true WTnumbering)] in
  let p := [ [ADec (plain "G" "0")]; [AStr "(" "note"]; [ADec (plain "X" "1"); ADec (plain "Y" "2")] ] in
  Forall (fun b => has_number (map fst nw) b = false) p /\
  snd (renumber_program nw (mkRen 10 0) (mkRS "N" 10 0 99 false true) p)
  = [ [ADec (plain "N" "00010"); ADec (plain "G" "0")]; [AStr "(" "note"];
      [ADec (plain "N" "00020"); ADec (plain "X" "1"); ADec (plain "Y" "2")] ].
Proof. split; [repeat constructor|vm_compute; reflexivity]. Qed.
