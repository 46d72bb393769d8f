(** C53: a rejected line moves no axis and adds nothing to the path and the
    time.  Partial: without the check of the travel range at the zero point and,
    for path and time, not when it is the path calculation itself that rejects
    the line; and not for std::out_of_range, of which a caller cannot tell where it
    came from. *)
From Verif Require Import Model.Base Model.Attr Model.Double Model.Macro Model.Grammar Model.Verifiers Model.PathGeom Model.PathCalc Model.Parser.
From Verif Require Import Spec.PathSpec Spec.ParserSpec Proofs.ParserPath Proofs.ParserCases.

Theorem C53_positions_partial : forall lit libm atan log cabs stale cf st line data p p' v m, ps_zero_point st = false ->
  parse lit libm atan log cabs stale cf st line data p = (p', v, Answer false m) -> m <> MExn EOutOfRange ->
  calculation same_positions p p'.
Proof. exact rejected_positions. Qed.
Print Assumptions C53_positions_partial.

Theorem C53_sums_partial : forall lit libm atan log cabs stale cf st line data p p' v m, ps_zero_point st = false ->
  parse lit libm atan log cabs stale cf st line data p = (p', v, Answer false m) -> m <> MExn EOutOfRange ->
  (forall l, m <> MExn (EPathCalc l)) ->
  calculation same_sums p p'.
Proof. exact rejected_sums. Qed.
Print Assumptions C53_sums_partial.

(** What the calculator says after a line. *)
Definition report (p : parser) : option (dbl * option dbl) :=
  match pr_calc p with Some c => Some (p_total (c_path (cl_calc c)), position "X" (cl_calc c)) | None => None end.

(** G1 X5 without a feed is rejected, and the 4 mm from X1 are counted. *)
Theorem C53_sums_refuted : exists l, snd (ex_parse ex_path 1 "G1 X5" ex_parser) = Answer false (MExn (EPathCalc l)) /\
  report ex_parser = Some (dzero, Some (d_of_Z 1)) /\ report (ex_after ex_path 1 "G1 X5" ex_parser) = Some (d_of_Z 4, Some (d_of_Z 1)).
Proof. eexists. cbv zeta. repeat (match goal with |- _ /\ _ => split end); vm_compute; reflexivity. Qed.
Print Assumptions C53_sums_refuted.

(** G0 X600 beyond the travel range is rejected, and the axis is there. *)
Theorem C53_positions_refuted : exists l, snd (ex_parse ex_all 1 "G0 X600" ex_parser) = Answer false (MExn (ERangeVerifier l)) /\
  report (ex_after ex_all 1 "G0 X600" ex_parser) = Some (d_of_Z 599, Some (d_of_Z 600)).
Proof. eexists. cbv zeta. repeat (match goal with |- _ /\ _ => split end); vm_compute; reflexivity. Qed.
Print Assumptions C53_positions_refuted.

(** Rejected for two X words after a move that was accepted. *)
Example C53_ex : exists m, let p := ex_after ex_path 1 "G0 X11" ex_parser in
  ps_zero_point ex_path = false /\ report p = Some (d_of_Z 10, Some (d_of_Z 11)) /\
  snd (ex_parse ex_path 2 "X20 X30" p) = Answer false m /\ m <> MExn EOutOfRange /\ (forall l, m <> MExn (EPathCalc l)) /\
  report (ex_after ex_path 2 "X20 X30" p) = report p /\
  snd (ex_parse ex_path 2 "X20" p) = Answer true MNone /\ report (ex_after ex_path 2 "X20" p) = Some (d_of_Z 19, Some (d_of_Z 20)).
Proof.
  eexists. cbv zeta. split; [reflexivity|]. split; [vm_compute; reflexivity|]. split; [vm_compute; reflexivity|].
  split; [discriminate|]. split; [discriminate|].
  repeat (match goal with |- _ /\ _ => split end); vm_compute; reflexivity.
Qed.
