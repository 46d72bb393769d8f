(** C36: after the machine settings are applied, the tool exchange point and the
    machine base point are the configured points minus the zero point.  Refuted:
    they are the zero point itself.  The partial theorem says what they are. *)
From Verif Require Import Model.Base Model.Attr Model.Double Model.Grammar Model.Verifiers Model.PathGeom Model.PathCalc Model.Parser.
From Verif Require Import Spec.ParserSpec Proofs.PathCases Proofs.ParserCases Proofs.ParserPoints.

Open Scope list_scope.

Theorem C36_partial : forall cf mc kin zp p p', set_ncsettings cf mc kin zp p = (p', None) ->
  exists c, pr_calc p' = Some c /\
    map fst (mc_exchange_point (cl_machine c)) = map fst (mc_exchange_point mc) /\
    map fst (mc_base_point (cl_machine c)) = map fst (mc_base_point mc) /\
    forall w, point_used zp w (assoc w (mc_exchange_point mc)) (assoc w (mc_exchange_point (cl_machine c))) /\
              point_used zp w (assoc w (mc_base_point mc)) (assoc w (mc_base_point (cl_machine c))).
Proof. exact applied. Qed.
Print Assumptions C36_partial.

(** A machine with the tool exchange point [ex]. *)
Definition with_exchange (ex : dmap) : machine := with_points ex (mc_base_point (ex_mill true false)) (ex_mill true false).

(** X is configured as 100 and the zero point is at 10: 10 is used, not 90. *)
Theorem C36_refuted : exists mc zp p' c, set_ncsettings ex_cf mc ex_kin zp (parser_new ex_cf false) = (p', None) /\ pr_calc p' = Some c /\
  assoc "X" (mc_exchange_point mc) = Some (d_of_Z 100) /\ coordinate zp "X" = Some (d_of_Z 10) /\
  assoc "X" (mc_exchange_point (cl_machine c)) = Some (d_of_Z 10) /\
  ~ point_wanted zp "X" (assoc "X" (mc_exchange_point mc)) (assoc "X" (mc_exchange_point (cl_machine c))).
Proof.
  exists (with_exchange [("X"%string, d_of_Z 100)]), (mkZP (d_of_Z 10) dzero dzero). eexists _, _.
  repeat (split; [vm_compute; reflexivity|]). vm_compute. discriminate.
Qed.
Print Assumptions C36_refuted.

(** With a rotary axis whose configured value is not 0 the settings cannot be
    applied at all: std::out_of_range leaves the function. *)
Theorem C36_rotary_refuted : exists mc zp p', assoc "A" (mc_exchange_point mc) = Some (d_of_Z 90) /\
  set_ncsettings ex_cf mc ex_kin zp (parser_new ex_cf false) = (p', Some EOutOfRange) /\ pr_calc p' = None.
Proof.
  exists (with_exchange [("A"%string, d_of_Z 90); ("X"%string, d_of_Z 100)]), (mkZP dzero dzero dzero). eexists.
  repeat split; vm_compute; reflexivity.
Qed.
Print Assumptions C36_rotary_refuted.

(** Settings that can be applied; here the wanted values come out. *)
Example C36_ex : exists p' c,
  let mc := with_exchange [("A"%string, dzero); ("X"%string, d_of_Z 20); ("Z"%string, d_of_Z 1)] in
  let zp := mkZP (d_of_Z 10) dzero (d_of_Z 1) in
  set_ncsettings ex_cf mc ex_kin zp (parser_new ex_cf false) = (p', None) /\ pr_calc p' = Some c /\
  mc_exchange_point (cl_machine c) = [("A"%string, dzero); ("X"%string, d_of_Z 10); ("Z"%string, dzero)] /\
  forall w, In w ["A"; "X"; "Z"]%string -> point_wanted zp w (assoc w (mc_exchange_point mc)) (assoc w (mc_exchange_point (cl_machine c))).
Proof.
  eexists _, _. cbv zeta. repeat (split; [vm_compute; reflexivity|]). intros w [<-|[<-|[<-|[]]]]; vm_compute; reflexivity.
Qed.
