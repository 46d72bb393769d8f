(** C42: FIX is the greatest integer not above, FUP the least integer not
    below, ROUND the nearest integer with halves away from zero, for every
    finite number; through the calculator and for any spelling of the
    argument. *)
From Verif Require Import Model.Base Model.Double Model.Macro Model.Calc Spec.CalcSpec Spec.DoubleSpec Spec.RoundSpec
  Proofs.CalcProofs Proofs.MacroAssignProofs.

Theorem C42_rounding : forall lit libm mv k e t x,
  spells libm LExpr (Fn k e) t -> value lit libm mv e = Ok x -> finite x ->
  (k = "FIX" -> exists v n, value_calculator lit libm mv t = Ok (CValue v) /\ is_int v n /\ rounds_down x n) /\
  (k = "FUP" -> exists v n, value_calculator lit libm mv t = Ok (CValue v) /\ is_int v n /\ rounds_up x n) /\
  (k = "ROUND" -> exists v n, value_calculator lit libm mv t = Ok (CValue v) /\ is_int v n /\ rounds_nearest x n).
Proof. exact rounding_functions. Qed.
Print Assumptions C42_rounding.

Definition ex_lit (s : string) : dbl := match stod s with Ok v => v | Exc _ => S754_nan end.

Example C42_ex :
  value_calculator ex_lit (fun _ x => x) [] "FIX[-2.5]" = Ok (CValue (d_of_Z (-3))) /\
  value_calculator ex_lit (fun _ x => x) [] "FUP[2.5]" = Ok (CValue (d_of_Z 3)) /\
  value_calculator ex_lit (fun _ x => x) [] "ROUND[-2.5]" = Ok (CValue (d_of_Z (-3))) /\
  rounds_nearest (ex_lit "2.5") 3 /\ finite (ex_lit "2.5").
Proof.
  repeat split; try (vm_compute; reflexivity); try (vm_compute; discriminate).
Qed.
