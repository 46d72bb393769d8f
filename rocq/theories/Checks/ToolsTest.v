(** The cases of AxesRotatorTest.cpp, RenumbererTest.cpp, UnitConverterTest.cpp,
    MessageTextTest.cpp and FileSplitterTest.cpp of parser_ut/fanuc. *)
From Verif Require Import Model.Base Model.Attr Model.Double Model.Enums Model.Rotator Model.Renumberer Model.UnitConv Model.Messages Model.Splitter.
Local Open Scope string_scope.
Local Open Scope Z_scope.

Example ar_Xrotate90degrees : rotate_block X90
  [ADec (mkDec "X" None None None None (Some "10") None None None); ADec (mkDec "X" None (Some "-"%char) None None (Some "10") None None None); ADec (mkDec "Y" None None None None (Some "10") (Some "."%char) (Some "055") None); ADec (mkDec "Y" None (Some "-"%char) None None (Some "10") (Some "."%char) (Some "055") None); ADec (mkDec "Z" None None None (Some "#") (Some "10") None None None); ADec (mkDec "Z" None (Some "-"%char) None (Some "#") (Some "10") None None None); ADec (mkDec "G" None None None None (Some "17") None None None); ADec (mkDec "G" None None None None (Some "18") None None None); ADec (mkDec "G" None None None None (Some "19") None None None); ADec (mkDec "G" None None None None (Some "2") None None None); ADec (mkDec "G" None None None None (Some "3") None None None); ADec (mkDec "I" None None None None (Some "10") None None None); ADec (mkDec "I" None (Some "-"%char) None None (Some "10") None None None); ADec (mkDec "J" None None None None (Some "10") (Some "."%char) (Some "055") None); ADec (mkDec "J" None (Some "-"%char) None None (Some "10") (Some "."%char) (Some "055") None); ADec (mkDec "K" None None None (Some "#") (Some "10") None None None); ADec (mkDec "K" None (Some "-"%char) None (Some "#") (Some "10") None None None)] =
  [ADec (mkDec "X" None None None None (Some "10") None None None); ADec (mkDec "X" None (Some "-"%char) None None (Some "10") None None None); ADec (mkDec "Z" None (Some "-"%char) None None (Some "10") (Some "."%char) (Some "055") None); ADec (mkDec "Z" None None None None (Some "10") (Some "."%char) (Some "055") None); ADec (mkDec "Y" None None None (Some "#") (Some "10") None None None); ADec (mkDec "Y" None (Some "-"%char) None (Some "#") (Some "10") None None None); ADec (mkDec "G" None None None None (Some "18") None None None); ADec (mkDec "G" None None None None (Some "17") None None None); ADec (mkDec "G" None None None None (Some "19") None None None); ADec (mkDec "G" None None None None (Some "2") None None None); ADec (mkDec "G" None None None None (Some "3") None None None); ADec (mkDec "I" None None None None (Some "10") None None None); ADec (mkDec "I" None (Some "-"%char) None None (Some "10") None None None); ADec (mkDec "K" None (Some "-"%char) None None (Some "10") (Some "."%char) (Some "055") None); ADec (mkDec "K" None None None None (Some "10") (Some "."%char) (Some "055") None); ADec (mkDec "J" None None None (Some "#") (Some "10") None None None); ADec (mkDec "J" None (Some "-"%char) None (Some "#") (Some "10") None None None)].
Proof. vm_compute. reflexivity. Qed.

Example ar_Xrotate270degrees : rotate_block X270
  [ADec (mkDec "X" None None None None (Some "10") None None None); ADec (mkDec "X" None (Some "-"%char) None None (Some "10") None None None); ADec (mkDec "Y" None None None None (Some "10") (Some "."%char) (Some "055") None); ADec (mkDec "Y" None (Some "-"%char) None None (Some "10") (Some "."%char) (Some "055") None); ADec (mkDec "Z" None None None (Some "#") (Some "10") None None None); ADec (mkDec "Z" None (Some "-"%char) None (Some "#") (Some "10") None None None); ADec (mkDec "G" None None None None (Some "17") None None None); ADec (mkDec "G" None None None None (Some "18") None None None); ADec (mkDec "G" None None None None (Some "19") None None None); ADec (mkDec "G" None None None None (Some "2") None None None); ADec (mkDec "G" None None None None (Some "3") None None None); ADec (mkDec "I" None None None None (Some "10") None None None); ADec (mkDec "I" None (Some "-"%char) None None (Some "10") None None None); ADec (mkDec "J" None None None None (Some "10") (Some "."%char) (Some "055") None); ADec (mkDec "J" None (Some "-"%char) None None (Some "10") (Some "."%char) (Some "055") None); ADec (mkDec "K" None None None (Some "#") (Some "10") None None None); ADec (mkDec "K" None (Some "-"%char) None (Some "#") (Some "10") None None None)] =
  [ADec (mkDec "X" None None None None (Some "10") None None None); ADec (mkDec "X" None (Some "-"%char) None None (Some "10") None None None); ADec (mkDec "Z" None None None None (Some "10") (Some "."%char) (Some "055") None); ADec (mkDec "Z" None (Some "-"%char) None None (Some "10") (Some "."%char) (Some "055") None); ADec (mkDec "Y" None (Some "-"%char) None (Some "#") (Some "10") None None None); ADec (mkDec "Y" None None None (Some "#") (Some "10") None None None); ADec (mkDec "G" None None None None (Some "18") None None None); ADec (mkDec "G" None None None None (Some "17") None None None); ADec (mkDec "G" None None None None (Some "19") None None None); ADec (mkDec "G" None None None None (Some "3") None None None); ADec (mkDec "G" None None None None (Some "2") None None None); ADec (mkDec "I" None None None None (Some "10") None None None); ADec (mkDec "I" None (Some "-"%char) None None (Some "10") None None None); ADec (mkDec "K" None None None None (Some "10") (Some "."%char) (Some "055") None); ADec (mkDec "K" None (Some "-"%char) None None (Some "10") (Some "."%char) (Some "055") None); ADec (mkDec "J" None (Some "-"%char) None (Some "#") (Some "10") None None None); ADec (mkDec "J" None None None (Some "#") (Some "10") None None None)].
Proof. vm_compute. reflexivity. Qed.

Definition rn_words : word_map :=
  [("N", mkWG "N" 1 9999 0 0 true WTnumbering);
   (":", mkWG ":" 1 9999 0 0 true WTnumbering);
   ("A", mkWG "A" (-9999) 9999 0 9999 true WTangle);
   ("B", mkWG "B" (-9999) 9999 0 9999 true WTangle);
   ("C", mkWG "C" (-9999) 9999 0 9999 true WTangle);
   ("X", mkWG "X" (-9999) 9999 0 9999 true WTlength);
   ("Y", mkWG "Y" (-9999) 9999 0 9999 true WTlength);
   ("Z", mkWG "Z" (-9999) 9999 0 9999 true WTlength);
   ("I", mkWG "X" (-9999) 9999 0 9999 true WTlength);
   ("J", mkWG "Y" (-9999) 9999 0 9999 true WTlength);
   ("K", mkWG "Z" (-9999) 9999 0 9999 true WTlength);
   ("G", mkWG "G" 0 999 0 9 false WTcode);
   ("F", mkWG "F" 0 9999 0 9999 false WTfeed)].
Definition rn := renumber (numbering_words rn_words).

(** One call: settings, the block before, the block after; [inl] sets the start
    value. *)
Fixpoint renumbered (st : renumberer) (l : list (Z + renumber_settings * block * block)) : Prop :=
  match l with
  | [] => True
  | inl v :: l => renumbered (set_start_value st v) l
  | inr (rs, b, b') :: l => snd (rn st rs b) = b' /\ renumbered (fst (rn st rs b)) l
  end.

Example rn_remove : remove_number (numbering_words rn_words) [ADec (mkDec "N" None None None None (Some "5") None None None); ADec (mkDec "X" None None None None (Some "10") None None None); ADec (mkDec "Y" None None None None (Some "10") (Some "."%char) (Some "055") None); ADec (mkDec "A" None None None None (Some "10") None None None); ADec (mkDec "F" None None None None (Some "0") (Some "."%char) (Some "033") None); ADec (mkDec "Z" None (Some "-"%char) None (Some "#") (Some "10") None None None)] = [ADec (mkDec "X" None None None None (Some "10") None None None); ADec (mkDec "Y" None None None None (Some "10") (Some "."%char) (Some "055") None); ADec (mkDec "A" None None None None (Some "10") None None None); ADec (mkDec "F" None None None None (Some "0") (Some "."%char) (Some "033") None); ADec (mkDec "Z" None (Some "-"%char) None (Some "#") (Some "10") None None None)].
Proof. vm_compute. reflexivity. Qed.

Example rn_renumber : renumbered renumber_reset
  [inr (mkRS "N" 1 1 100 false false, [AChr "%" zero], [AChr "%" zero]);
   inr (mkRS "N" 1 1 100 false false, [AStr "O" "1234"], [AStr "O" "1234"]);
   inr (mkRS "N" 1 1 100 false false, [AStr "(" "The comment"], [AStr "(" "The comment"]);
   inr (mkRS "N" 1 1 100 false false, [ADec (mkDec "/" None None None None (Some "1") None None None)], [ADec (mkDec "/" None None None None (Some "1") None None None)]);
   inr (mkRS "N" 1 1 100 false false, [ADec (mkDec "X" None None None None (Some "10") None None None)], [ADec (mkDec "N" None None None None (Some "1") None None None); ADec (mkDec "X" None None None None (Some "10") None None None)]);
   inr (mkRS "N" 1 1 100 false false, [ADec (mkDec "X" None None None None (Some "10") None None None)], [ADec (mkDec "N" None None None None (Some "2") None None None); ADec (mkDec "X" None None None None (Some "10") None None None)]);
   inr (mkRS "N" 2 1 5 false true, [ADec (mkDec "X" None None None None (Some "10") None None None)], [ADec (mkDec "N" None None None None (Some "0003") None None None); ADec (mkDec "X" None None None None (Some "10") None None None)]);
   inr (mkRS "N" 2 1 5 false true, [ADec (mkDec "X" None None None None (Some "10") None None None)], [ADec (mkDec "N" None None None None (Some "0005") None None None); ADec (mkDec "X" None None None None (Some "10") None None None)]);
   inr (mkRS "N" 2 1 5 false true, [ADec (mkDec "X" None None None None (Some "10") None None None)], [ADec (mkDec "N" None None None None (Some "0001") None None None); ADec (mkDec "X" None None None None (Some "10") None None None)]);
   inr (mkRS "N" 2 3 6 false true, [ADec (mkDec "X" None None None None (Some "10") None None None)], [ADec (mkDec "N" None None None None (Some "0003") None None None); ADec (mkDec "X" None None None None (Some "10") None None None)]);
   inr (mkRS "N" 2 3 6 false true, [ADec (mkDec "X" None None None None (Some "10") None None None)], [ADec (mkDec "X" None None None None (Some "10") None None None)]);
   inr (mkRS "N" 2 3 6 false true, [ADec (mkDec "X" None None None None (Some "10") None None None)], [ADec (mkDec "X" None None None None (Some "10") None None None)]);
   inr (mkRS "N" 2 3 6 false true, [ADec (mkDec "X" None None None None (Some "10") None None None)], [ADec (mkDec "N" None None None None (Some "0005") None None None); ADec (mkDec "X" None None None None (Some "10") None None None)]);
   inl 3;
   inr (mkRS "N" 1 1 100 false false, [ADec (mkDec "X" None None None None (Some "10") None None None)], [ADec (mkDec "N" None None None None (Some "3") None None None); ADec (mkDec "X" None None None None (Some "10") None None None)])].
Proof. vm_compute. repeat split. Qed.

Example rn_renumberExisting : renumbered renumber_reset
  [inr (mkRS "N" 1 1 100 true false, [AChr "%" zero], [AChr "%" zero]);
   inr (mkRS "N" 1 1 100 true false, [AStr "O" "1234"], [AStr "O" "1234"]);
   inr (mkRS "N" 1 1 100 true false, [AStr "(" "The comment"], [AStr "(" "The comment"]);
   inr (mkRS "N" 1 1 100 true false, [ADec (mkDec "/" None None None None (Some "1") None None None)], [ADec (mkDec "/" None None None None (Some "1") None None None)]);
   inr (mkRS "N" 1 1 100 true false, [ADec (mkDec "N" None None None None (Some "666") None None None); ADec (mkDec "X" None None None None (Some "10") None None None)], [ADec (mkDec "N" None None None None (Some "1") None None None); ADec (mkDec "X" None None None None (Some "10") None None None)]);
   inr (mkRS "N" 1 1 100 true false, [ADec (mkDec "N" None None None None (Some "666") None None None); ADec (mkDec "X" None None None None (Some "10") None None None)], [ADec (mkDec "N" None None None None (Some "2") None None None); ADec (mkDec "X" None None None None (Some "10") None None None)]);
   inr (mkRS "N" 2 1 5 true true, [ADec (mkDec "N" None None None None (Some "666") None None None); ADec (mkDec "X" None None None None (Some "10") None None None)], [ADec (mkDec "N" None None None None (Some "0003") None None None); ADec (mkDec "X" None None None None (Some "10") None None None)]);
   inr (mkRS "N" 2 1 5 true true, [ADec (mkDec "N" None None None None (Some "666") None None None); ADec (mkDec "X" None None None None (Some "10") None None None)], [ADec (mkDec "N" None None None None (Some "0005") None None None); ADec (mkDec "X" None None None None (Some "10") None None None)]);
   inr (mkRS "N" 2 1 5 true true, [ADec (mkDec "N" None None None None (Some "666") None None None); ADec (mkDec "X" None None None None (Some "10") None None None)], [ADec (mkDec "N" None None None None (Some "0001") None None None); ADec (mkDec "X" None None None None (Some "10") None None None)]);
   inr (mkRS "N" 2 3 6 true true, [ADec (mkDec "N" None None None None (Some "666") None None None); ADec (mkDec "X" None None None None (Some "10") None None None)], [ADec (mkDec "N" None None None None (Some "0003") None None None); ADec (mkDec "X" None None None None (Some "10") None None None)]);
   inr (mkRS "N" 2 3 6 true true, [ADec (mkDec "X" None None None None (Some "10") None None None)], [ADec (mkDec "X" None None None None (Some "10") None None None)]);
   inr (mkRS "N" 2 3 6 true true, [ADec (mkDec "N" None None None None (Some "666") None None None); ADec (mkDec "X" None None None None (Some "10") None None None)], [ADec (mkDec "X" None None None None (Some "10") None None None)]);
   inr (mkRS "N" 2 3 6 true true, [ADec (mkDec "N" None None None None (Some "666") None None None); ADec (mkDec "X" None None None None (Some "10") None None None)], [ADec (mkDec "X" None None None None (Some "10") None None None)]);
   inr (mkRS "N" 2 3 6 true true, [ADec (mkDec "N" None None None None (Some "666") None None None); ADec (mkDec "X" None None None None (Some "10") None None None)], [ADec (mkDec "N" None None None None (Some "0005") None None None); ADec (mkDec "X" None None None None (Some "10") None None None)]);
   inl 3;
   inr (mkRS "N" 1 1 100 true false, [ADec (mkDec "N" None None None None (Some "666") None None None); ADec (mkDec "X" None None None None (Some "10") None None None)], [ADec (mkDec "N" None None None None (Some "3") None None None); ADec (mkDec "X" None None None None (Some "10") None None None)])].
Proof. vm_compute. repeat split. Qed.

Definition uc_words : fanuc_grammar := mkFG
  [("A", mkWG "A" (-9999) 9999 0 9999 true WTangle);
   ("B", mkWG "B" (-9999) 9999 0 9999 true WTangle);
   ("C", mkWG "C" (-9999) 9999 0 9999 true WTangle);
   ("X", mkWG "X" (-9999) 9999 0 9999 true WTlength);
   ("Y", mkWG "Y" (-9999) 9999 0 9999 true WTlength);
   ("Z", mkWG "Z" (-9999) 9999 0 9999 true WTlength);
   ("I", mkWG "X" (-9999) 9999 0 9999 true WTlength);
   ("J", mkWG "Y" (-9999) 9999 0 9999 true WTlength);
   ("K", mkWG "Z" (-9999) 9999 0 9999 true WTlength);
   ("G", mkWG "G" 0 999 0 9 false WTcode);
   ("F", mkWG "F" 0 9999 0 9999 false WTfeed)]
  [("A", mkWG "A" (-9999) 9999 0 9999 true WTangle);
   ("B", mkWG "B" (-9999) 9999 0 9999 true WTangle);
   ("C", mkWG "C" (-9999) 9999 0 9999 true WTangle);
   ("X", mkWG "X" (-9999) 9999 0 9999 true WTlength);
   ("Y", mkWG "Y" (-9999) 9999 0 9999 true WTlength);
   ("Z", mkWG "Z" (-9999) 9999 0 9999 true WTlength);
   ("I", mkWG "X" (-9999) 9999 0 9999 true WTlength);
   ("J", mkWG "Y" (-9999) 9999 0 9999 true WTlength);
   ("K", mkWG "Z" (-9999) 9999 0 9999 true WTlength);
   ("G", mkWG "G" 0 999 0 9 false WTcode);
   ("F", mkWG "F" 0 9999 0 9999 false WTfeed)].

Example uc_mm_to_inch : unit_convert MetricToImperial uc_words
  [ADec (mkDec "X" None None None None (Some "10") None None None); ADec (mkDec "Y" None None None None (Some "10") (Some "."%char) (Some "055") None); ADec (mkDec "A" None None None None (Some "10") None None None); ADec (mkDec "F" None None None None (Some "0") (Some "."%char) (Some "033") None); ADec (mkDec "Z" None (Some "-"%char) None (Some "#") (Some "10") None None None)] =
  Ok [ADec (mkDec "X" None None None None (Some "0") (Some "."%char) (Some "3937") None); ADec (mkDec "Y" None None None None (Some "0") (Some "."%char) (Some "3959") None); ADec (mkDec "A" None None None None (Some "10") None None None); ADec (mkDec "F" None None None None (Some "0") (Some "."%char) (Some "0013") None); ADec (mkDec "Z" None (Some "-"%char) None (Some "#") (Some "10") None None None)].
Proof. vm_compute. reflexivity. Qed.

Example uc_mm_to_inchG04 : unit_convert MetricToImperial uc_words
  [ADec (mkDec "G" None None None None (Some "4") None None None); ADec (mkDec "Y" None None None None (Some "10") (Some "."%char) (Some "055") None); ADec (mkDec "A" None None None None (Some "10") None None None); ADec (mkDec "F" None None None None (Some "0") (Some "."%char) (Some "033") None); ADec (mkDec "Z" None (Some "-"%char) None (Some "#") (Some "10") None None None)] =
  Ok [ADec (mkDec "G" None None None None (Some "4") None None None); ADec (mkDec "Y" None None None None (Some "10") (Some "."%char) (Some "055") None); ADec (mkDec "A" None None None None (Some "10") None None None); ADec (mkDec "F" None None None None (Some "0") (Some "."%char) (Some "033") None); ADec (mkDec "Z" None (Some "-"%char) None (Some "#") (Some "10") None None None)].
Proof. vm_compute. reflexivity. Qed.

Example uc_mm_to_inchLineComment : unit_convert MetricToImperial uc_words
  [ADec (mkDec "/" None None None None None None None None); ADec (mkDec "Y" None None None None (Some "10") (Some "."%char) (Some "055") None); ADec (mkDec "A" None None None None (Some "10") None None None); ADec (mkDec "F" None None None None (Some "0") (Some "."%char) (Some "033") None); ADec (mkDec "Z" None (Some "-"%char) None (Some "#") (Some "10") None None None)] =
  Ok [ADec (mkDec "/" None None None None None None None None); ADec (mkDec "Y" None None None None (Some "10") (Some "."%char) (Some "055") None); ADec (mkDec "A" None None None None (Some "10") None None None); ADec (mkDec "F" None None None None (Some "0") (Some "."%char) (Some "033") None); ADec (mkDec "Z" None (Some "-"%char) None (Some "#") (Some "10") None None None)].
Proof. vm_compute. reflexivity. Qed.

Example uc_mm_to_inchG68 : unit_convert MetricToImperial uc_words
  [ADec (mkDec "G" None None None None (Some "68") None None None); ADec (mkDec "X" None (Some "-"%char) None None (Some "165") (Some "."%char) None None); ADec (mkDec "Y" None None None None (Some "0") (Some "."%char) (Some "0") None); ADec (mkDec "Z" None None None None (Some "115") (Some "."%char) None None); ADec (mkDec "I" None (Some "-"%char) None None (Some "90") (Some "."%char) None None); ADec (mkDec "J" None None None None (Some "90") (Some "."%char) None None); ADec (mkDec "K" None None None None (Some "0") (Some "."%char) (Some "0") None)] =
  Ok [ADec (mkDec "G" None None None None (Some "68") None None None); ADec (mkDec "X" None (Some "-"%char) None None (Some "6") (Some "."%char) (Some "4961") None); ADec (mkDec "Y" None None None None (Some "0") None None None); ADec (mkDec "Z" None None None None (Some "4") (Some "."%char) (Some "5276") None); ADec (mkDec "I" None (Some "-"%char) None None (Some "90") (Some "."%char) None None); ADec (mkDec "J" None None None None (Some "90") (Some "."%char) None None); ADec (mkDec "K" None None None None (Some "0") (Some "."%char) (Some "0") None)].
Proof. vm_compute. reflexivity. Qed.

Example uc_mm_to_inchG68_2 : unit_convert MetricToImperial uc_words
  [ADec (mkDec "G" None None None None (Some "68") (Some "."%char) (Some "2") None); ADec (mkDec "X" None (Some "-"%char) None None (Some "165") (Some "."%char) None None); ADec (mkDec "Y" None None None None (Some "0") (Some "."%char) (Some "0") None); ADec (mkDec "Z" None None None None (Some "115") (Some "."%char) None None); ADec (mkDec "I" None (Some "-"%char) None None (Some "90") (Some "."%char) None None); ADec (mkDec "J" None None None None (Some "90") (Some "."%char) None None); ADec (mkDec "K" None None None None (Some "0") (Some "."%char) (Some "0") None)] =
  Ok [ADec (mkDec "G" None None None None (Some "68") (Some "."%char) (Some "2") None); ADec (mkDec "X" None (Some "-"%char) None None (Some "6") (Some "."%char) (Some "4961") None); ADec (mkDec "Y" None None None None (Some "0") None None None); ADec (mkDec "Z" None None None None (Some "4") (Some "."%char) (Some "5276") None); ADec (mkDec "I" None (Some "-"%char) None None (Some "90") (Some "."%char) None None); ADec (mkDec "J" None None None None (Some "90") (Some "."%char) None None); ADec (mkDec "K" None None None None (Some "0") (Some "."%char) (Some "0") None)].
Proof. vm_compute. reflexivity. Qed.

Example uc_mm_to_inchG21 : unit_convert MetricToImperial uc_words
  [ADec (mkDec "G" None None None None (Some "21") None None None)] =
  Ok [ADec (mkDec "G" None None None None (Some "20") None None None)].
Proof. vm_compute. reflexivity. Qed.

Example uc_inch_to_mm : unit_convert ImperialToMetric uc_words
  [ADec (mkDec "X" None None None None (Some "0") (Some "."%char) (Some "3937") None); ADec (mkDec "Y" None None None None (Some "0") (Some "."%char) (Some "3959") None); ADec (mkDec "A" None None None None (Some "10") None None None); ADec (mkDec "F" None None None None (Some "0") (Some "."%char) (Some "0013") None); ADec (mkDec "Z" None (Some "-"%char) None (Some "#") (Some "10") None None None)] =
  Ok [ADec (mkDec "X" None None None None (Some "10") None None None); ADec (mkDec "Y" None None None None (Some "10") (Some "."%char) (Some "0559") None); ADec (mkDec "A" None None None None (Some "10") None None None); ADec (mkDec "F" None None None None (Some "0") (Some "."%char) (Some "033") None); ADec (mkDec "Z" None (Some "-"%char) None (Some "#") (Some "10") None None None)].
Proof. vm_compute. reflexivity. Qed.

Example uc_inch_to_mmG20 : unit_convert ImperialToMetric uc_words
  [ADec (mkDec "G" None None None None (Some "20") None None None)] =
  Ok [ADec (mkDec "G" None None None None (Some "21") None None None)].
Proof. vm_compute. reflexivity. Qed.

Example mt_messageText_PL : Forall (fun x => fst x = snd x)
  [(make_message Polish "ValueNotInRange" ["-1000"; "-500"; "500"; "X"], "Wartość [-1000] nie mieści się w zakresie [-500, 500] dla adresu [X]");
   (make_message Polish "ValueMissingForHash" ["1"], "Brak wartości dla parametru #1");
   (make_message Polish "ValueNotInRangeForOptionalBlock" ["15"], "Wartość [15] nie mieści się w zakresie [1,9] dla znaku /");
   (make_message Polish "ForbiddenCharsInOptionalBlock" [], "Niedozwolone znaki w opcjonalnej wartości bloku");
   (make_message Polish "ExpectedInteger" ["G"], "Oczekiwana liczba całkowita dla adresu [G]");
   (make_message Polish "ValueMissing" ["Y"], "Brak wartości dla adresu [Y]");
   (make_message Polish "DecimalSeparatorMissing" ["Z"], "Brak separatora dziesiętnego (kropki) dla adresu [Z]");
   (make_message Polish "ValueAfterDecimalSeparatorNotInRange" ["7777"; "0"; "999"; "X"], "Wartość po kropce [7777] nie mieści się w zakresie [0, 999] dla adresu [X]");
   (make_message Polish "TNotWithG" [], "Adres T nie może wystąpić w bloku razem z adresem G");
   (make_message Polish "MissingValue" ["X"], "Brak wartości dla X");
   (make_message Polish "MissingPreviousValue" ["Y"], "Brak poprzedniej wartości dla Y");
   (make_message Polish "MissingPreviousValueForEither" ["X"; "Y"], "Brak poprzedniej wartości dla R lub X i Y");
   (make_message Polish "ValueNotSet" ["F"], "Wartość F nie ustawiona");
   (make_message Polish "ValueNotSetForEither" ["X"; "Y"], "Nie ustawione wartości dla R lub X i Y");
   (make_message Polish "ValueNotSetForEitherEither" ["X"; "Y"; "Z"], "Nie ustawione wartości dla R lub X i Y i Z");
   (make_message2 Polish "MissingInCodeGroups" ["M888"], "M888 nie występuje w Grupie Kodów");
   (make_message2 Polish "InSameCodeGroup" ["M3"; "M4"; "5"], "M3 i M4 są w tej samej Grupie Kodów = 5");
   (make_message Polish "CannotSplitFileNumberOfBlocks" [], "Nie można podzielić pliku dla liczby bloków = 0");
   (make_message Polish "CannotSplitFileToolPathLength" [], "Nie można podzielić pliku dla drogi narzędzia = 0");
   (make_message Polish "CannotSplitFileToolTime" [], "Nie można podzielić pliku dla czasu narzędzia = 0");
   (make_message Polish "WrongMacroDefinition" ["5"], "Błędna definicja zmiennej #5");
   (make_message Polish "ValueHigherThanAllowed" ["S"; "78"; "50"], "Wartość S [78] wyższa niż maksymalna dozwolona wartość 50");
   (make_message Polish "ValueOutOfRange" ["X"; "-1000"; "-500"; "500"], "Wartość X [-1000] poza zakresem [-500, 500]");
   (make_message Polish "CodeNotUnique" ["T"], "Kod T musi być unikalny w obrębie bloku");
   (make_message Polish "UnsupportedOperation" ["nil"], "Nieobsługiwana operacja: nil");
   (make_message Polish "UnsupportedBinaryOperation" ["op"], "Nieobsługiwana operacja dwuargumentowa: [op]");
   (make_message Polish "UnsupportedUnaryOperation" ["op"], "Nieobsługiwana operacja jednoargumentowa: [op]");
   (make_message Polish "UnsupportedFunction" ["func"], "Nieobsługiwana funkcja: [func]")].
Proof. repeat (constructor; [vm_compute; reflexivity|]). constructor. Qed.

Definition sd : split_defaults := mkSD false false false.

Example fs_Text : split_text "txt" (Some "G0 Z400") ["%"; "O1234"; ""; "(comment)"; "G0 X0 Y0 Z0"; "G1 X1 (txt)"; "G0 Y3"; "G1 Z5"; "G0 Y6 (txt)"; "M30"; "%"] = [["%"; "O1234"; ""; "(comment)"; "G0 X0 Y0 Z0"; "G0 Z400"]; ["G0 Z400"; "G1 X1 (txt)"; "G0 Y3"; "G1 Z5"; "G0 Z400"]; ["G0 Z400"; "G0 Y6 (txt)"; "M30"; "%"]].
Proof. vm_compute. reflexivity. Qed.

Definition rp_BlockNumber : block := [ADec (mkDec "G" None None None None (Some "0") None None None); ADec (mkDec "Z" None None None None (Some "400") None None None)].

Example fs_BlockNumber : split_blocks sd false 4 (Some rp_BlockNumber)
  [[AChr "%" zero];
   [AStr "O" "1234"];
   [AStr "(" "comment)"];
   [ADec (mkDec "G" None None None None (Some "0") None None None); ADec (mkDec "X" None None None None (Some "0") None None None); ADec (mkDec "Y" None None None None (Some "0") None None None); ADec (mkDec "Z" None None None None (Some "0") None None None)];
   [ADec (mkDec "G" None None None None (Some "1") None None None); ADec (mkDec "X" None None None None (Some "1") None None None); AStr "(" "txt)"];
   [ADec (mkDec "G" None None None None (Some "0") None None None); ADec (mkDec "Y" None None None None (Some "3") None None None)];
   [ADec (mkDec "G" None None None None (Some "1") None None None); ADec (mkDec "Z" None None None None (Some "5") None None None)];
   [ADec (mkDec "G" None None None None (Some "0") None None None); ADec (mkDec "Y" None None None None (Some "6") None None None); AStr "(" "txt)"];
   [ADec (mkDec "M" None None None None (Some "30") None None None)];
   [AChr "%" zero]] =
  Ok [[[AChr "%" zero]; [AStr "O" "1234"]; [AStr "(" "comment)"]; [ADec (mkDec "G" None None None None (Some "0") None None None); ADec (mkDec "X" None None None None (Some "0") None None None); ADec (mkDec "Y" None None None None (Some "0") None None None); ADec (mkDec "Z" None None None None (Some "0") None None None)]; rp_BlockNumber];
   [rp_BlockNumber; [ADec (mkDec "G" None None None None (Some "1") None None None); ADec (mkDec "X" None None None None (Some "1") None None None); AStr "(" "txt)"]; [ADec (mkDec "G" None None None None (Some "0") None None None); ADec (mkDec "Y" None None None None (Some "3") None None None)]; [ADec (mkDec "G" None None None None (Some "1") None None None); ADec (mkDec "Z" None None None None (Some "5") None None None)]; [ADec (mkDec "G" None None None None (Some "0") None None None); ADec (mkDec "Y" None None None None (Some "6") None None None); AStr "(" "txt)"]; rp_BlockNumber];
   [rp_BlockNumber; [ADec (mkDec "M" None None None None (Some "30") None None None)]; [AChr "%" zero]]].
Proof. vm_compute. reflexivity. Qed.

Definition rp_BlockNumberG0 : block := [ADec (mkDec "G" None None None None (Some "0") None None None); ADec (mkDec "Z" None None None None (Some "400") None None None)].

Example fs_BlockNumberG0 : split_blocks sd true 4 (Some rp_BlockNumberG0)
  [[AChr "%" zero];
   [AStr "O" "1234"];
   [AStr "(" "comment)"];
   [ADec (mkDec "G" None None None None (Some "0") None None None); ADec (mkDec "X" None None None None (Some "0") None None None); ADec (mkDec "Y" None None None None (Some "0") None None None); ADec (mkDec "Z" None None None None (Some "0") None None None)];
   [ADec (mkDec "G" None None None None (Some "1") None None None); ADec (mkDec "X" None None None None (Some "1") None None None); AStr "(" "txt)"];
   [ADec (mkDec "G" None None None None (Some "0") None None None); ADec (mkDec "Y" None None None None (Some "3") None None None)];
   [ADec (mkDec "G" None None None None (Some "1") None None None); ADec (mkDec "Z" None None None None (Some "5") None None None)];
   [ADec (mkDec "G" None None None None (Some "0") None None None); ADec (mkDec "Y" None None None None (Some "6") None None None); AStr "(" "txt)"];
   [ADec (mkDec "M" None None None None (Some "30") None None None)];
   [AChr "%" zero]] =
  Ok [[[AChr "%" zero]; [AStr "O" "1234"]; [AStr "(" "comment)"]; [ADec (mkDec "G" None None None None (Some "0") None None None); ADec (mkDec "X" None None None None (Some "0") None None None); ADec (mkDec "Y" None None None None (Some "0") None None None); ADec (mkDec "Z" None None None None (Some "0") None None None)]; [ADec (mkDec "G" None None None None (Some "1") None None None); ADec (mkDec "X" None None None None (Some "1") None None None); AStr "(" "txt)"]; rp_BlockNumberG0];
   [rp_BlockNumberG0; [ADec (mkDec "G" None None None None (Some "0") None None None); ADec (mkDec "Y" None None None None (Some "3") None None None)]; [ADec (mkDec "G" None None None None (Some "1") None None None); ADec (mkDec "Z" None None None None (Some "5") None None None)]; [ADec (mkDec "G" None None None None (Some "0") None None None); ADec (mkDec "Y" None None None None (Some "6") None None None); AStr "(" "txt)"]; [ADec (mkDec "M" None None None None (Some "30") None None None)]; rp_BlockNumberG0];
   [rp_BlockNumberG0; [AChr "%" zero]]].
Proof. vm_compute. reflexivity. Qed.

Definition rp_BlockNumberDrillCycle : block := [ADec (mkDec "G" None None None None (Some "0") None None None); ADec (mkDec "Z" None None None None (Some "400") None None None)].

Example fs_BlockNumberDrillCycle : split_blocks sd false 5 (Some rp_BlockNumberDrillCycle)
  [[AChr "%" zero];
   [AStr "O" "1234"];
   [AStr "(" "comment)"];
   [ADec (mkDec "G" None None None None (Some "0") None None None); ADec (mkDec "X" None None None None (Some "0") None None None); ADec (mkDec "Y" None None None None (Some "0") None None None); ADec (mkDec "Z" None None None None (Some "0") None None None)];
   [ADec (mkDec "G" None None None None (Some "81") None None None); ADec (mkDec "G" None None None None (Some "98") None None None); ADec (mkDec "R" None None None None (Some "105") None None None); ADec (mkDec "X" None None None None (Some "135") None None None); ADec (mkDec "Y" None None None None (Some "70") None None None); ADec (mkDec "Z" None None None None (Some "80") None None None); ADec (mkDec "F" None None None None (Some "250") None None None)];
   [ADec (mkDec "Y" None None None None (Some "30") None None None)];
   [ADec (mkDec "G" None None None None (Some "80") None None None)];
   [ADec (mkDec "G" None None None None (Some "1") None None None); ADec (mkDec "X" None None None None (Some "1") None None None); AStr "(" "txt)"];
   [ADec (mkDec "G" None None None None (Some "0") None None None); ADec (mkDec "Y" None None None None (Some "3") None None None)];
   [ADec (mkDec "G" None None None None (Some "1") None None None); ADec (mkDec "Z" None None None None (Some "5") None None None)];
   [ADec (mkDec "G" None None None None (Some "0") None None None); ADec (mkDec "Y" None None None None (Some "6") None None None); AStr "(" "txt)"];
   [ADec (mkDec "M" None None None None (Some "30") None None None)];
   [AChr "%" zero]] =
  Ok [[[AChr "%" zero]; [AStr "O" "1234"]; [AStr "(" "comment)"]; [ADec (mkDec "G" None None None None (Some "0") None None None); ADec (mkDec "X" None None None None (Some "0") None None None); ADec (mkDec "Y" None None None None (Some "0") None None None); ADec (mkDec "Z" None None None None (Some "0") None None None)]; [ADec (mkDec "G" None None None None (Some "81") None None None); ADec (mkDec "G" None None None None (Some "98") None None None); ADec (mkDec "R" None None None None (Some "105") None None None); ADec (mkDec "X" None None None None (Some "135") None None None); ADec (mkDec "Y" None None None None (Some "70") None None None); ADec (mkDec "Z" None None None None (Some "80") None None None); ADec (mkDec "F" None None None None (Some "250") None None None)]; [ADec (mkDec "Y" None None None None (Some "30") None None None)]; [ADec (mkDec "G" None None None None (Some "80") None None None)]; rp_BlockNumberDrillCycle];
   [rp_BlockNumberDrillCycle; [ADec (mkDec "G" None None None None (Some "1") None None None); ADec (mkDec "X" None None None None (Some "1") None None None); AStr "(" "txt)"]; [ADec (mkDec "G" None None None None (Some "0") None None None); ADec (mkDec "Y" None None None None (Some "3") None None None)]; [ADec (mkDec "G" None None None None (Some "1") None None None); ADec (mkDec "Z" None None None None (Some "5") None None None)]; [ADec (mkDec "G" None None None None (Some "0") None None None); ADec (mkDec "Y" None None None None (Some "6") None None None); AStr "(" "txt)"]; [ADec (mkDec "M" None None None None (Some "30") None None None)]; rp_BlockNumberDrillCycle];
   [rp_BlockNumberDrillCycle; [AChr "%" zero]]].
Proof. vm_compute. reflexivity. Qed.

Example fs_ToolChange : split_tool sd None
  [[AChr "%" zero];
   [AStr "O" "1234"];
   [AStr "(" "comment)"];
   [ADec (mkDec "G" None None None None (Some "0") None None None); ADec (mkDec "X" None None None None (Some "0") None None None); ADec (mkDec "Y" None None None None (Some "0") None None None); ADec (mkDec "Z" None None None None (Some "0") None None None)];
   [ADec (mkDec "T" None None None None (Some "01") None None None); ADec (mkDec "M" None None None None (Some "06") None None None)];
   [ADec (mkDec "G" None None None None (Some "1") None None None); ADec (mkDec "X" None None None None (Some "1") None None None); AStr "(" "txt)"];
   [ADec (mkDec "G" None None None None (Some "0") None None None); ADec (mkDec "Y" None None None None (Some "3") None None None)];
   [ADec (mkDec "T" None None None None (Some "02") None None None); ADec (mkDec "M" None None None None (Some "06") None None None)];
   [ADec (mkDec "G" None None None None (Some "1") None None None); ADec (mkDec "Z" None None None None (Some "5") None None None)];
   [ADec (mkDec "G" None None None None (Some "0") None None None); ADec (mkDec "Y" None None None None (Some "6") None None None); AStr "(" "txt)"];
   [ADec (mkDec "M" None None None None (Some "30") None None None)];
   [AChr "%" zero]] =
  Ok [[[AChr "%" zero]; [AStr "O" "1234"]; [AStr "(" "comment)"]; [ADec (mkDec "G" None None None None (Some "0") None None None); ADec (mkDec "X" None None None None (Some "0") None None None); ADec (mkDec "Y" None None None None (Some "0") None None None); ADec (mkDec "Z" None None None None (Some "0") None None None)]; [ADec (mkDec "T" None None None None (Some "01") None None None); ADec (mkDec "M" None None None None (Some "06") None None None)]; [ADec (mkDec "G" None None None None (Some "1") None None None); ADec (mkDec "X" None None None None (Some "1") None None None); AStr "(" "txt)"]; [ADec (mkDec "G" None None None None (Some "0") None None None); ADec (mkDec "Y" None None None None (Some "3") None None None)]];
   [[ADec (mkDec "T" None None None None (Some "02") None None None); ADec (mkDec "M" None None None None (Some "06") None None None)]; [ADec (mkDec "G" None None None None (Some "1") None None None); ADec (mkDec "Z" None None None None (Some "5") None None None)]; [ADec (mkDec "G" None None None None (Some "0") None None None); ADec (mkDec "Y" None None None None (Some "6") None None None); AStr "(" "txt)"]; [ADec (mkDec "M" None None None None (Some "30") None None None)]; [AChr "%" zero]]].
Proof. vm_compute. reflexivity. Qed.

Example fs_Path : split_amount sd false 2 None
  [[AChr "%" zero];
   [AStr "O" "0081"];
   [ADec (mkDec "G" None None None None (Some "0") None None None); ADec (mkDec "G" None None None None (Some "98") None None None); ADec (mkDec "G" None None None None (Some "28") None None None); ADec (mkDec "Z" None None None None (Some "0") None None None)];
   [ADec (mkDec "T" None None None None (Some "01") None None None); ADec (mkDec "M" None None None None (Some "06") None None None)];
   [ADec (mkDec "G" None None None None (Some "0") None None None); ADec (mkDec "G" None None None None (Some "54") None None None); ADec (mkDec "G" None None None None (Some "90") None None None); ADec (mkDec "G" None None None None (Some "20") None None None); ADec (mkDec "S" None None None None (Some "1900") None None None); ADec (mkDec "M" None None None None (Some "3") None None None)];
   [ADec (mkDec "G" None None None None (Some "0") None None None); ADec (mkDec "X" None None None None (Some "7") None None None); ADec (mkDec "Y" None None None None (Some "1") None None None)];
   [ADec (mkDec "G" None None None None (Some "0") None None None); ADec (mkDec "G" None None None None (Some "43") None None None); ADec (mkDec "Z" None None None None (Some "1") (Some "."%char) (Some "1") None); ADec (mkDec "H" None None None None (Some "1") None None None)];
   [ADec (mkDec "G" None None None None (Some "99") None None None); ADec (mkDec "G" None None None None (Some "81") None None None); ADec (mkDec "X" None None None None (Some "7") None None None); ADec (mkDec "Y" None None None None (Some "1") None None None); ADec (mkDec "Z" None None None None (Some "0") None None None); ADec (mkDec "R" None None None None (Some "1") (Some "."%char) (Some "1") None); ADec (mkDec "F" None None None None (Some "4") None None None)];
   [ADec (mkDec "G" None None None None (Some "99") None None None); ADec (mkDec "G" None None None None (Some "81") None None None); ADec (mkDec "Y" None None None None (Some "2") None None None); ADec (mkDec "Z" None None None None (Some "0") None None None); ADec (mkDec "R" None None None None (Some "1") (Some "."%char) (Some "1") None); ADec (mkDec "F" None None None None (Some "4") None None None); ADec (mkDec "K" None None None None (Some "0") None None None)];
   [ADec (mkDec "Y" None None None None (Some "3") None None None)];
   [ADec (mkDec "G" None None None None (Some "80") None None None)];
   [ADec (mkDec "G" None None None None (Some "91") None None None); ADec (mkDec "G" None None None None (Some "81") None None None); ADec (mkDec "Y" None None None None (Some "1") None None None); ADec (mkDec "Z" None (Some "-"%char) None None (Some "1") (Some "."%char) (Some "1") None); ADec (mkDec "R" None None None None (Some "0") (Some "."%char) (Some "1") None); ADec (mkDec "F" None None None None (Some "4") None None None); ADec (mkDec "K" None None None None (Some "3") None None None)];
   [ADec (mkDec "G" None None None None (Some "80") None None None)];
   [ADec (mkDec "G" None None None None (Some "90") None None None)];
   [ADec (mkDec "G" None None None None (Some "99") None None None); ADec (mkDec "G" None None None None (Some "81") None None None); ADec (mkDec "X" None None None None (Some "7") None None None); ADec (mkDec "Y" None None None None (Some "7") None None None); ADec (mkDec "Z" None None None None (Some "0") None None None); ADec (mkDec "R" None None None None (Some "1") (Some "."%char) (Some "1") None); ADec (mkDec "F" None None None None (Some "4") None None None)];
   [ADec (mkDec "M" None None None None (Some "30") None None None)];
   [AChr "%" zero]]
  [dzero; dzero; dzero; dzero; dzero; dzero; dzero; (d_of_ratio false 11 10); dzero; (d_of_ratio false 11 10); dzero; (d_of_ratio false 33 10); dzero; dzero; (d_of_ratio false 11 10); dzero; dzero] =
  Ok [[[AChr "%" zero]; [AStr "O" "0081"]; [ADec (mkDec "G" None None None None (Some "0") None None None); ADec (mkDec "G" None None None None (Some "98") None None None); ADec (mkDec "G" None None None None (Some "28") None None None); ADec (mkDec "Z" None None None None (Some "0") None None None)]; [ADec (mkDec "T" None None None None (Some "01") None None None); ADec (mkDec "M" None None None None (Some "06") None None None)]; [ADec (mkDec "G" None None None None (Some "0") None None None); ADec (mkDec "G" None None None None (Some "54") None None None); ADec (mkDec "G" None None None None (Some "90") None None None); ADec (mkDec "G" None None None None (Some "20") None None None); ADec (mkDec "S" None None None None (Some "1900") None None None); ADec (mkDec "M" None None None None (Some "3") None None None)]; [ADec (mkDec "G" None None None None (Some "0") None None None); ADec (mkDec "X" None None None None (Some "7") None None None); ADec (mkDec "Y" None None None None (Some "1") None None None)]; [ADec (mkDec "G" None None None None (Some "0") None None None); ADec (mkDec "G" None None None None (Some "43") None None None); ADec (mkDec "Z" None None None None (Some "1") (Some "."%char) (Some "1") None); ADec (mkDec "H" None None None None (Some "1") None None None)]; [ADec (mkDec "G" None None None None (Some "99") None None None); ADec (mkDec "G" None None None None (Some "81") None None None); ADec (mkDec "X" None None None None (Some "7") None None None); ADec (mkDec "Y" None None None None (Some "1") None None None); ADec (mkDec "Z" None None None None (Some "0") None None None); ADec (mkDec "R" None None None None (Some "1") (Some "."%char) (Some "1") None); ADec (mkDec "F" None None None None (Some "4") None None None)]; [ADec (mkDec "G" None None None None (Some "99") None None None); ADec (mkDec "G" None None None None (Some "81") None None None); ADec (mkDec "Y" None None None None (Some "2") None None None); ADec (mkDec "Z" None None None None (Some "0") None None None); ADec (mkDec "R" None None None None (Some "1") (Some "."%char) (Some "1") None); ADec (mkDec "F" None None None None (Some "4") None None None); ADec (mkDec "K" None None None None (Some "0") None None None)]; [ADec (mkDec "Y" None None None None (Some "3") None None None)]; [ADec (mkDec "G" None None None None (Some "80") None None None)]];
   [[ADec (mkDec "G" None None None None (Some "91") None None None); ADec (mkDec "G" None None None None (Some "81") None None None); ADec (mkDec "Y" None None None None (Some "1") None None None); ADec (mkDec "Z" None (Some "-"%char) None None (Some "1") (Some "."%char) (Some "1") None); ADec (mkDec "R" None None None None (Some "0") (Some "."%char) (Some "1") None); ADec (mkDec "F" None None None None (Some "4") None None None); ADec (mkDec "K" None None None None (Some "3") None None None)]; [ADec (mkDec "G" None None None None (Some "80") None None None)]];
   [[ADec (mkDec "G" None None None None (Some "90") None None None)]; [ADec (mkDec "G" None None None None (Some "99") None None None); ADec (mkDec "G" None None None None (Some "81") None None None); ADec (mkDec "X" None None None None (Some "7") None None None); ADec (mkDec "Y" None None None None (Some "7") None None None); ADec (mkDec "Z" None None None None (Some "0") None None None); ADec (mkDec "R" None None None None (Some "1") (Some "."%char) (Some "1") None); ADec (mkDec "F" None None None None (Some "4") None None None)]; [ADec (mkDec "M" None None None None (Some "30") None None None)]; [AChr "%" zero]]].
Proof. vm_compute. reflexivity. Qed.

Example fs_Time : split_amount sd false 30 None
  [[AChr "%" zero];
   [AStr "O" "0081"];
   [ADec (mkDec "G" None None None None (Some "0") None None None); ADec (mkDec "G" None None None None (Some "98") None None None); ADec (mkDec "G" None None None None (Some "28") None None None); ADec (mkDec "Z" None None None None (Some "0") None None None)];
   [ADec (mkDec "T" None None None None (Some "01") None None None); ADec (mkDec "M" None None None None (Some "06") None None None)];
   [ADec (mkDec "G" None None None None (Some "0") None None None); ADec (mkDec "G" None None None None (Some "54") None None None); ADec (mkDec "G" None None None None (Some "90") None None None); ADec (mkDec "G" None None None None (Some "20") None None None); ADec (mkDec "S" None None None None (Some "1900") None None None); ADec (mkDec "M" None None None None (Some "3") None None None)];
   [ADec (mkDec "G" None None None None (Some "0") None None None); ADec (mkDec "X" None None None None (Some "7") None None None); ADec (mkDec "Y" None None None None (Some "1") None None None)];
   [ADec (mkDec "G" None None None None (Some "0") None None None); ADec (mkDec "G" None None None None (Some "43") None None None); ADec (mkDec "Z" None None None None (Some "1") (Some "."%char) (Some "1") None); ADec (mkDec "H" None None None None (Some "1") None None None)];
   [ADec (mkDec "G" None None None None (Some "99") None None None); ADec (mkDec "G" None None None None (Some "81") None None None); ADec (mkDec "X" None None None None (Some "7") None None None); ADec (mkDec "Y" None None None None (Some "1") None None None); ADec (mkDec "Z" None None None None (Some "0") None None None); ADec (mkDec "R" None None None None (Some "1") (Some "."%char) (Some "1") None); ADec (mkDec "F" None None None None (Some "4") None None None)];
   [ADec (mkDec "G" None None None None (Some "99") None None None); ADec (mkDec "G" None None None None (Some "81") None None None); ADec (mkDec "Y" None None None None (Some "2") None None None); ADec (mkDec "Z" None None None None (Some "0") None None None); ADec (mkDec "R" None None None None (Some "1") (Some "."%char) (Some "1") None); ADec (mkDec "F" None None None None (Some "4") None None None); ADec (mkDec "K" None None None None (Some "0") None None None)];
   [ADec (mkDec "Y" None None None None (Some "3") None None None)];
   [ADec (mkDec "G" None None None None (Some "80") None None None)];
   [ADec (mkDec "G" None None None None (Some "91") None None None); ADec (mkDec "G" None None None None (Some "81") None None None); ADec (mkDec "Y" None None None None (Some "1") None None None); ADec (mkDec "Z" None (Some "-"%char) None None (Some "1") (Some "."%char) (Some "1") None); ADec (mkDec "R" None None None None (Some "0") (Some "."%char) (Some "1") None); ADec (mkDec "F" None None None None (Some "4") None None None); ADec (mkDec "K" None None None None (Some "3") None None None)];
   [ADec (mkDec "G" None None None None (Some "80") None None None)];
   [ADec (mkDec "G" None None None None (Some "90") None None None)];
   [ADec (mkDec "G" None None None None (Some "99") None None None); ADec (mkDec "G" None None None None (Some "81") None None None); ADec (mkDec "X" None None None None (Some "7") None None None); ADec (mkDec "Y" None None None None (Some "7") None None None); ADec (mkDec "Z" None None None None (Some "0") None None None); ADec (mkDec "R" None None None None (Some "1") (Some "."%char) (Some "1") None); ADec (mkDec "F" None None None None (Some "4") None None None)];
   [ADec (mkDec "M" None None None None (Some "30") None None None)];
   [AChr "%" zero]]
  [dzero; dzero; dzero; dzero; dzero; dzero; dzero; (d_of_ratio false 33 2); dzero; (d_of_ratio false 33 2); dzero; (d_of_ratio false 99 2); dzero; dzero; (d_of_ratio false 33 2); dzero; dzero] =
  Ok [[[AChr "%" zero]; [AStr "O" "0081"]; [ADec (mkDec "G" None None None None (Some "0") None None None); ADec (mkDec "G" None None None None (Some "98") None None None); ADec (mkDec "G" None None None None (Some "28") None None None); ADec (mkDec "Z" None None None None (Some "0") None None None)]; [ADec (mkDec "T" None None None None (Some "01") None None None); ADec (mkDec "M" None None None None (Some "06") None None None)]; [ADec (mkDec "G" None None None None (Some "0") None None None); ADec (mkDec "G" None None None None (Some "54") None None None); ADec (mkDec "G" None None None None (Some "90") None None None); ADec (mkDec "G" None None None None (Some "20") None None None); ADec (mkDec "S" None None None None (Some "1900") None None None); ADec (mkDec "M" None None None None (Some "3") None None None)]; [ADec (mkDec "G" None None None None (Some "0") None None None); ADec (mkDec "X" None None None None (Some "7") None None None); ADec (mkDec "Y" None None None None (Some "1") None None None)]; [ADec (mkDec "G" None None None None (Some "0") None None None); ADec (mkDec "G" None None None None (Some "43") None None None); ADec (mkDec "Z" None None None None (Some "1") (Some "."%char) (Some "1") None); ADec (mkDec "H" None None None None (Some "1") None None None)]; [ADec (mkDec "G" None None None None (Some "99") None None None); ADec (mkDec "G" None None None None (Some "81") None None None); ADec (mkDec "X" None None None None (Some "7") None None None); ADec (mkDec "Y" None None None None (Some "1") None None None); ADec (mkDec "Z" None None None None (Some "0") None None None); ADec (mkDec "R" None None None None (Some "1") (Some "."%char) (Some "1") None); ADec (mkDec "F" None None None None (Some "4") None None None)]; [ADec (mkDec "G" None None None None (Some "99") None None None); ADec (mkDec "G" None None None None (Some "81") None None None); ADec (mkDec "Y" None None None None (Some "2") None None None); ADec (mkDec "Z" None None None None (Some "0") None None None); ADec (mkDec "R" None None None None (Some "1") (Some "."%char) (Some "1") None); ADec (mkDec "F" None None None None (Some "4") None None None); ADec (mkDec "K" None None None None (Some "0") None None None)]; [ADec (mkDec "Y" None None None None (Some "3") None None None)]; [ADec (mkDec "G" None None None None (Some "80") None None None)]];
   [[ADec (mkDec "G" None None None None (Some "91") None None None); ADec (mkDec "G" None None None None (Some "81") None None None); ADec (mkDec "Y" None None None None (Some "1") None None None); ADec (mkDec "Z" None (Some "-"%char) None None (Some "1") (Some "."%char) (Some "1") None); ADec (mkDec "R" None None None None (Some "0") (Some "."%char) (Some "1") None); ADec (mkDec "F" None None None None (Some "4") None None None); ADec (mkDec "K" None None None None (Some "3") None None None)]; [ADec (mkDec "G" None None None None (Some "80") None None None)]];
   [[ADec (mkDec "G" None None None None (Some "90") None None None)]; [ADec (mkDec "G" None None None None (Some "99") None None None); ADec (mkDec "G" None None None None (Some "81") None None None); ADec (mkDec "X" None None None None (Some "7") None None None); ADec (mkDec "Y" None None None None (Some "7") None None None); ADec (mkDec "Z" None None None None (Some "0") None None None); ADec (mkDec "R" None None None None (Some "1") (Some "."%char) (Some "1") None); ADec (mkDec "F" None None None None (Some "4") None None None)]; [ADec (mkDec "M" None None None None (Some "30") None None None)]; [AChr "%" zero]]].
Proof. vm_compute. reflexivity. Qed.
