(** C06: renumber frequency numbers exactly every k-th block. *)
From Verif Require Import Model.Base Model.Attr Model.Renumberer Spec.RenumberSpec
  Proofs.RenumberProofs.

(** From a fresh phase (j = 0), or at any later point j of the program. *)
Theorem C06_every_kth : forall nw rs p, 1 < rs_frequency rs < 4294967296 ->
  forall j st, 0 <= j -> current_frequency st = j mod rs_frequency rs ->
  each_numberable (numberable (map fst nw) (rs_existing_only rs))
    (fun j b o => if j mod rs_frequency rs =? 0
                  then exists d, o = ADec d :: without_number (map fst nw) b /\ d_word d = rs_word rs
                                 /\ is_some (d_value d) = true
                  else o = without_number (map fst nw) b)
    j p (snd (renumber_program nw st rs p)).
Proof. exact renumber_frequency. Qed.
Print Assumptions C06_every_kth.

Example C06_ex :
  let nw := [("N", mkWG "N" 1 99999 0 0 true WTnumbering)] in
  let p := [ [ADec (plain "G" "0")]; [ADec (plain "N" "8"); ADec (plain "G" "1")]; [AStr "O" "1"];
             [ADec (plain "X" "1")]; [ADec (plain "X" "2")] ] in
  current_frequency renumber_reset = 0 mod 3 /\
  snd (renumber_program nw renumber_reset (mkRS "N" 5 3 99 false false) p)
  = [ [ADec (plain "N" "1"); ADec (plain "G" "0")]; [ADec (plain "G" "1")]; [AStr "O" "1"];
      [ADec (plain "X" "1")]; [ADec (plain "N" "6"); ADec (plain "X" "2")] ].
Proof. split; vm_compute; reflexivity. Qed.
