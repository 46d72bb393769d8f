(** C03: renumbering produces the arithmetic sequence the settings describe. *)
From Verif Require Import Model.Base Model.Attr Model.Renumberer Spec.RenumberSpec
  Proofs.RenumberProofs.

(** The j-th numberable block gets the j-th expected number in front of its
    other words; every other block is unchanged.  Holds for programs whose
    existing block numbers are plain (address and digits). *)
Theorem C03_numbers_partial : forall nw rs,
  0 <= rs_frequency rs < 2 -> 0 < rs_step rs ->
  0 <= lower_end nw (rs_word rs) <= rs_max rs -> rs_max rs + rs_step rs < 4294967296 ->
  forall start p f, 0 <= start <= rs_max rs -> Forall (plain_number (map fst nw)) p ->
  each_numberable (numberable (map fst nw) (rs_existing_only rs))
    (fun j b o => exists t,
        written (pad_width nw rs) t (expected_number (lower_end nw (rs_word rs)) (rs_max rs) start (rs_step rs) j) /\
        o = ADec (plain (rs_word rs) t) :: without_number (map fst nw) b)
    0 p (snd (renumber_program nw (mkRen start f) rs p)).
Proof. exact renumber_sequence_0. Qed.
Print Assumptions C03_numbers_partial.

(** Without that restriction the claim is false: the number written into an
    existing word N#5 keeps its macro mark, so the block is numbered "#1". *)
Theorem C03_numbers_refuted : exists nw rs start p,
  0 <= rs_frequency rs < 2 /\ 0 < rs_step rs /\
  0 <= lower_end nw (rs_word rs) <= rs_max rs /\ rs_max rs + rs_step rs < 4294967296 /\
  0 <= start <= rs_max rs /\
  ~ each_numberable (numberable (map fst nw) (rs_existing_only rs))
    (fun j b o => exists t,
        written (pad_width nw rs) t (expected_number (lower_end nw (rs_word rs)) (rs_max rs) start (rs_step rs) j) /\
        o = ADec (plain (rs_word rs) t) :: without_number (map fst nw) b)
    0 p (snd (renumber_program nw (mkRen start 0) rs p)).
Proof. exact renumber_macro_refuted. Qed.
Print Assumptions C03_numbers_refuted.

Definition ex_nw : word_map := [("N", mkWG "N" 1 99999 0 0 true WTnumbering)].
Definition ex_rs : renumber_settings := mkRS "N" 10 1 35 false false.
Definition ex_prog : list block :=
  [ [AChr "%" "0"]; [AStr "O" "1"]; [ADec (plain "G" "0")]; [ADec (plain "N" "7"); ADec (plain "G" "1")];
    [ADec (plain "/" "1"); ADec (plain "X" "1")]; [ADec (plain "X" "2")]; [ADec (plain "X" "3")];
    [ADec (plain "X" "4")] ].

(** Numbers 10 20 30, then restart at 1. *)
Example C03_ex :
  0 <= rs_frequency ex_rs < 2 /\ 0 < rs_step ex_rs /\
  0 <= lower_end ex_nw (rs_word ex_rs) <= rs_max ex_rs /\ Forall (plain_number (map fst ex_nw)) ex_prog /\
  snd (renumber_program ex_nw (mkRen 10 0) ex_rs ex_prog) =
  [ [AChr "%" "0"]; [AStr "O" "1"]; [ADec (plain "N" "10"); ADec (plain "G" "0")];
    [ADec (plain "N" "20"); ADec (plain "G" "1")];
    [ADec (plain "/" "1"); ADec (plain "X" "1")]; [ADec (plain "N" "30"); ADec (plain "X" "2")];
    [ADec (plain "N" "1"); ADec (plain "X" "3")]; [ADec (plain "N" "11"); ADec (plain "X" "4")] ].
Proof.
  split; [cbn; lia|]. split; [cbn; lia|]. split; [cbn; lia|]. split; [|vm_compute; reflexivity].
  repeat constructor; cbn; try discriminate; intros _; eexists; reflexivity.
Qed.
