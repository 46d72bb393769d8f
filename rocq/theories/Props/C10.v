(** C10: every rotation option is a proper rotation; planes and arc directions
    are rewritten to match.

    Full statement: coordinates are transformed by a matrix of determinant +1,
    plane words name the image plane, and for every plane and arc code the
    rewritten code describes the rotated arc
      (forall o p g, g = "2" \/ g = "3" -> arc_consistent o p g).
    The last part holds in plane G17 only (C10_arc_partial) and fails for every
    option in some other plane (C10_arc_refuted): the rewriting does not look at
    the active plane. *)
From Verif Require Import Model.Base Model.Attr Model.Rotator Spec.RotationSpec Proofs.RotationProofs.

Theorem C10_coordinates : forall o b,
  coords "X" "Y" "Z" (rotate_block o b) = apply (turn o) (coords "X" "Y" "Z" b) /\
  coords "I" "J" "K" (rotate_block o b) = apply (turn o) (coords "I" "J" "K" b).
Proof. exact rotate_coords. Qed.
Print Assumptions C10_coordinates.

Theorem C10_proper : forall o,
  det (turn o) = 1 /\ mul (turn o) (transpose (turn o)) = ident.
Proof. exact turn_proper. Qed.
Print Assumptions C10_proper.

Theorem C10_plane : forall o p p' k, plane_image o p p' k ->
  rotate_decimal o (plain "G" (plane_code p)) = plain "G" (plane_code p').
Proof. exact plane_rewritten. Qed.
Print Assumptions C10_plane.

Theorem C10_arc_partial : forall o g, g = "2" \/ g = "3" -> arc_consistent o G17 g.
Proof. exact arc_g17. Qed.
Print Assumptions C10_arc_partial.

Theorem C10_arc_refuted : forall o, exists p, ~ arc_consistent o p "2".
Proof. exact arc_refuted. Qed.
Print Assumptions C10_arc_refuted.

(** The hypotheses of C10_plane and [arc_consistent] are met for every plane. *)
Theorem C10_plane_has_image : forall o p, exists p' k, plane_image o p p' k.
Proof. exact plane_image_exists. Qed.
Print Assumptions C10_plane_has_image.

Example C10_ex :
  coords "X" "Y" "Z" [ADec (plain "X" "1"); ADec (plain "Y" "2"); ADec (plain "Z" "3")] = (1, 2, 3) /\
  coords "X" "Y" "Z" (rotate_block Y90 [ADec (plain "X" "1"); ADec (plain "Y" "2"); ADec (plain "Z" "3")])
    = (-3, 2, 1) /\
  plane_image X270 G17 G18 (-1).
Proof. split; [reflexivity|]. split; [reflexivity|]. split; [now right|reflexivity]. Qed.
