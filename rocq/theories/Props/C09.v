(** C09: rotating by an option and by the option that undoes it restores the
    axis words.  The statement covers the address and value of X Y Z I J K and
    every word other than G; plane words return as well.  Arc directions do
    not (C09_arc_direction_refuted). *)
From Verif Require Import Model.Base Model.Attr Model.Rotator Spec.RotationSpec Proofs.RotationProofs.

Theorem C09_round_trip : forall o b,
  Forall2 restored b (rotate_block (back o) (rotate_block o b)).
Proof. exact rotate_back_block. Qed.
Print Assumptions C09_round_trip.

Theorem C09_four_times : forall o b,
  Forall2 restored b (rotate_block o (rotate_block o (rotate_block o (rotate_block o b)))).
Proof. exact four_quarters. Qed.
Print Assumptions C09_four_times.

Theorem C09_plane_round_trip : forall o p,
  rotate_decimal (back o) (rotate_decimal o (plain "G" (plane_code p))) = plain "G" (plane_code p).
Proof. exact rotate_back_plane. Qed.
Print Assumptions C09_plane_round_trip.

Theorem C09_arc_direction_refuted : exists o,
  rotate_decimal (back o) (rotate_decimal o (plain "G" "2")) = plain "G" "3".
Proof. exact arc_not_restored. Qed.
Print Assumptions C09_arc_direction_refuted.

Example C09_ex :
  let b := [ADec (plain "G" "1"); ADec (mkDec "Y" None (Some "-"%char) None None (Some "5") None None None);
            ADec (plain "Z" "7"); ADec (plain "F" "100")] in
  rotate_block X90 b =
    [ADec (plain "G" "1"); ADec (mkDec "Z" None None None None (Some "5") None None None);
     ADec (plain "Y" "7"); ADec (plain "F" "100")] /\
  rotate_block X270 (rotate_block X90 b) = b.
Proof. split; reflexivity. Qed.
