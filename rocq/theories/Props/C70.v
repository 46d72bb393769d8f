(** C70: what the settings editor writes is what its form shows, and the server
    reads it.  Partial: for texts in the same culture that are numbers, see the
    refutations. *)
From Coq Require Import Reals.
From Verif Require Import Model.Base Model.Attr Model.Double Model.Verifiers Model.PathCalc Model.Enums Model.Wrapper Model.Settings Model.Editor.
From Verif Require Import Spec.Text Spec.EnumSpec Spec.SettingsSpec Spec.DoubleSpec Spec.EditorSpec.
From Verif Require Import Proofs.Tactics Proofs.CalcProofs Proofs.SettingsProofs Proofs.FloatReal Proofs.EditorNumbers Proofs.EditorFloats Proofs.EditorExport Proofs.EditorRoundTrip Proofs.EditorCases.
Local Open Scope string_scope.
Local Open Scope Z_scope.
Local Open Scope list_scope.

(** Whatever is in the form: when the editor writes a file, the server reads it,
    and every setting it gets is the one in the form.  [dtext] is how a number is
    written. *)
Theorem C70_partial : forall dtext, (forall d, finite d -> reads_double (dtext d) d) ->
  forall ct ms base fo file md,
  export ct ms base fo = Ok file -> assoc (fo_machine fo) ms = Some md -> form_sane fo -> points_sane base ->
  exists s, settings_of (file_tree dtext file) = Ok s /\ form_says ct (md_type md) base fo s.
Proof. exact export_read. Qed.
Print Assumptions C70_partial.

(** Every number can be written such that it is read again. *)
Theorem C70_texts : exists dtext, forall d, finite d -> reads_double (dtext d) d.
Proof. exists exact_text. exact exact_text_reads. Qed.
Print Assumptions C70_texts.

(** The range of an axis is the nearest single to the number in the form. *)
Theorem C70_single : forall neg n e, 0 <= n -> (forall b, to_single neg n e <> S754_infinity b) ->
  finite (to_single neg n e) /\
  fR (to_single neg n e) = rnd24 ((if neg then -1 else 1) * (IZR n * (if (0 <=? e)%Z then IZR (10 ^ e) else / IZR (10 ^ (- e)))))%R.
Proof. exact single_rounds. Qed.
Print Assumptions C70_single.

(** Loading a file and saving it again leaves it as it is. *)
Theorem C70_saved_partial : forall ct shows ms old f md, ct <> PlPl -> settled ct shows ms f md ->
  exists fo, fill shows ms old f = Ok fo /\ export ct ms f fo = Ok f.
Proof. exact saved_again. Qed.
Print Assumptions C70_saved_partial.

(** A Polish number in a box of the machine points loses its point: the box is
    read with another culture than it is written. *)
Theorem C70_polish_refuted : ~ forall fo file v, export PlPl ex_machines ex_good fo = Ok file ->
  form_sane fo -> shown PlPl (fo_exchange_x fo) v -> assoc "X" (nf_exchange file) = Some v.
Proof.
  intros H. specialize (H (ex_form "500" "0,5" "0") (match export PlPl ex_machines ex_good (ex_form "500" "0,5" "0") with Ok f => f | Exc _ => ex_good end) (d_of_ratio false 1 2)).
  assert (E : assoc "X" (nf_exchange (match export PlPl ex_machines ex_good (ex_form "500" "0,5" "0") with Ok f => f | Exc _ => ex_good end)) = Some (d_of_Z 5)) by (vm_compute; reflexivity).
  rewrite H in E.
  - vm_compute in E. discriminate.
  - vm_compute. reflexivity.
  - now apply ex_sane.
  - apply parsed_shown; vm_compute; reflexivity.
Qed.
Print Assumptions C70_polish_refuted.

(** In the box of a machine point a large number loses its exponent. *)
Theorem C70_large_refuted : ~ forall s v, shown EnUs s v -> shown Invariant (validate "" s) v.
Proof.
  intros H. specialize (H "1E+20" (d_of_Z (10 ^ 20))). assert (S : shown EnUs "1E+20" (d_of_Z (10 ^ 20))) by (apply parsed_shown; vm_compute; reflexivity).
  apply H in S. apply (number_parse_complete to_double) in S; [|discriminate]. vm_compute in S. discriminate.
Qed.
Print Assumptions C70_large_refuted.

(** The range of an axis is changed by loading and saving: a tenth becomes the
    nearest single. *)
Theorem C70_range_refuted : ~ forall s v, shown EnUs s v -> shown_single EnUs s v.
Proof.
  intros H. specialize (H "0.1" (d_of_ratio false 1 10)). assert (S : shown EnUs "0.1" (d_of_ratio false 1 10)) by (apply parsed_shown; vm_compute; reflexivity).
  apply H in S. apply (number_parse_complete to_single) in S; [|discriminate]. vm_compute in S. discriminate.
Qed.
Print Assumptions C70_range_refuted.

(** The box of the program zero takes "NaN", and the server cannot read the file. *)
Theorem C70_nan_refuted : forall dtext, ~ forall fo file, export EnUs ex_machines ex_good fo = Ok file ->
  exists s, settings_of (file_tree dtext file) = Ok s.
Proof.
  intros dtext H. specialize (H (ex_form "500" "0" "NaN") (match export EnUs ex_machines ex_good (ex_form "500" "0" "NaN") with Ok f => f | Exc _ => ex_good end)).
  destruct H as [s H]; [vm_compute; reflexivity|]. unfold settings_of in H.
  do 6 (apply bind_ok in H as (? & _ & H)). apply bind_ok in H as (z & H & _). unfold read_zero in H.
  apply bind_ok in H as (t & T & H). vm_compute in T. injection T as <-. do 2 (apply bind_ok in H as (? & _ & H)).
  apply bind_ok in H as (y & H & _). vm_compute in H. discriminate.
Qed.
Print Assumptions C70_nan_refuted.

(** A file that the server reads and the editor cannot load: the rotation that is
    initially off. *)
Theorem C70_stop_refuted : forall shows old, exists f s, settings_of (file_tree exact_text f) = Ok s /\
  fill shows ex_machines old f = Exc EInvalidArgument.
Proof.
  intros shows old. exists (ex_file (d_of_Z 500) dzero RotStop).
  destruct (settings_of (file_tree exact_text (ex_file (d_of_Z 500) dzero RotStop))) as [s|] eqn:E; [|vm_compute in E; discriminate].
  exists s. split; [reflexivity|]. reflexivity.
Qed.
Print Assumptions C70_stop_refuted.

(** A form, what is written and what the server gets; a file that is loaded and
    saved again. *)
Definition C70_read (ct : culture) (fo : form) : res settings :=
  do f <- export ct ex_machines ex_good fo; settings_of (file_tree exact_text f).

Example C70_ex :
  form_sane (ex_form "500.25" "-0.5" "12.5") /\ points_sane ex_good /\
  (exists s, C70_read EnUs (ex_form "500.25" "-0.5" "12.5") = Ok s /\
     (se_tool s, se_type s, se_driver s, se_zero s) = (MT_mill_3axis, TT_Mill, PT_FanucMill, mkZP dzero dzero (d_of_ratio false 25 2)) /\
     se_exchange s = [("B", dzero); ("X", d_of_ratio true 1 2); ("Y", dzero); ("Z", d_of_Z 500)] /\
     ks_axes (se_kin s) = [("X", (d_of_Z (-500), d_of_ratio false 2001 4)); ("Y", (d_of_Z (-500), d_of_Z 500)); ("Z", (dzero, d_of_Z 1000))] /\
     (ks_pallet_time (se_kin s), ks_pallet_code (se_kin s), ks_pallet_value (se_kin s)) = (12, "M", "60") /\ cs_direction (se_cnc s) = RotRight) /\
  C70_read PlPl (ex_form "500.25" "0" "0") = Exc EInvalidArgument /\
  C70_read EnUs (ex_form "500,25" "0" "0") <> C70_read PlPl (ex_form "500,25" "0" "0") /\
  (exists md, settled EnUs ex_shows ex_machines ex_good md) /\
  (exists fo, fill ex_shows ex_machines ("", "") ex_good = Ok fo /\ export EnUs ex_machines ex_good fo = Ok ex_good).
Proof.
  split; [now apply ex_sane|]. split; [exact ex_points|]. split.
  { destruct (C70_read EnUs (ex_form "500.25" "-0.5" "12.5")) as [s|] eqn:E; vm_compute in E; [|discriminate].
    exists s. split; [reflexivity|]. injection E as <-. vm_compute. repeat split. }
  split; [vm_compute; reflexivity|]. split; [vm_compute; discriminate|]. split; [exact ex_settled|].
  destruct ex_settled as [md S]. apply (saved_again EnUs ex_shows ex_machines ("", "") ex_good md); [discriminate|exact S].
Qed.
