(** C40: time and path summaries. *)
From Verif Require Import Model.Base Model.Double Model.NCText Spec.Text Spec.DoubleSpec Spec.NCTextSpec
  Proofs.NCTextProofs Proofs.TimeProofs.

(** A time below 2^62 milliseconds, either sign, is written as hours (when there
    are any), minutes and seconds below 60 and three digits of milliseconds,
    which together are the nearest whole number of milliseconds to the time; the
    only other error is the one of multiplying by 1000 in double precision
    (relative 2^-53, absent when the product is a double). *)
Theorem C40_time : forall x, finite x -> 1000 * Z.abs (sval x) < scaled (2 ^ 62) ->
  exists t ms, format_time x = Ok t /\ clock t ms /\
    (2 * Z.abs (1000 * sval x - scaled ms) - scaled 1) * 2 ^ 52 <= Z.abs (1000 * sval x) /\
    (representable (1000 * sval x) -> 2 * Z.abs (1000 * sval x - scaled ms) <= scaled 1).
Proof. exact time_formatted. Qed.
Print Assumptions C40_time.

(** The summary of a block lists exactly the figures of at least a hundredth,
    in a fixed order, each with its own label and the paths with two decimals. *)
Theorem C40_summary : forall pr tr wp wt fp ft,
  moderate_path (pr_total pr) -> moderate_path (pr_tool_total pr) -> moderate_path wp -> moderate_path fp ->
  moderate_time (tr_total tr) -> moderate_time wt -> moderate_time ft ->
  (String.length (pr_tool pr) <= 150)%nat ->
  exists s tt ft' wt', format_path_time pr tr wp wt fp ft = Ok s /\
    format_time (tr_total tr) = Ok tt /\ format_time ft = Ok ft' /\ format_time wt = Ok wt' /\
    listed [(noticeable (pr_total pr), " | Total path = " ++ d_to_fixed 2 (pr_total pr));
            (noticeable (tr_total tr), " | Total time = " ++ tt);
            (noticeable (pr_tool_total pr) /\ noticeable (dsub (pr_total pr) (pr_tool_total pr)),
             " | T" ++ pr_tool pr ++ " total path = " ++ d_to_fixed 2 (pr_tool_total pr));
            (noticeable (pr_fast pr), " | Total rapid path = " ++ d_to_fixed 2 fp);
            (noticeable (tr_fast tr), " | Total rapid time = " ++ ft');
            (noticeable (pr_work pr), " | Total cut path = " ++ d_to_fixed 2 wp);
            (noticeable (tr_work tr), " | Total cut time = " ++ wt')] s.
Proof. exact summary_listed. Qed.
Print Assumptions C40_summary.

Definition dz (n : Z) : dbl := d_of_Z n.

Fixpoint zeros (n : nat) : string := match n with O => "" | S k => String "0" (zeros k) end.

(** The bound on the tool name is needed: a tool number with 300 leading zeros
    does not fit the buffer, and what is appended to the summary then reaches
    behind its end. *)
Theorem C40_buffer_refuted : exists pr tr what,
  moderate_path (pr_total pr) /\ moderate_time (tr_total tr) /\
  format_path_time pr tr dzero dzero dzero dzero = Exc (EUB what).
Proof.
  exists (mkPR (dz 3) dzero dzero (dz 1) (zeros 300)), (mkTR dzero dzero dzero dzero ""). eexists.
  split; [split; vm_compute; reflexivity|]. split; [split; vm_compute; reflexivity|].
  vm_compute. reflexivity.
Qed.
Print Assumptions C40_buffer_refuted.

(** 3725.5 seconds, and a summary with four items. *)
Example C40_ex :
  let x := d_of_ratio false 37255 10 in
  finite x /\ 1000 * Z.abs (sval x) < scaled (2 ^ 62) /\ format_time x = Ok "1:02:05.500" /\
  format_time (d_of_ratio true 595 10) = Ok "-0:59.500" /\
  format_path_time (mkPR (dz 12) (dz 7) (dz 5) (dz 2) "4") (mkTR x x dzero x "4") (dz 70) (dz 60) (dz 50) (dz 8) =
  Ok (" | Total path = 12.00 | Total time = 1:02:05.500 | T4 total path = 2.00 | Total rapid path = 50.00 | Total cut path = 70.00"
      ++ " | Total cut time = 1:00.000").
Proof. vm_compute. repeat split; reflexivity. Qed.
