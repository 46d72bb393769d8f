(** C24: conversion to binary coded decimal and back, for every 32-bit number. *)
From Verif Require Import Model.Base Model.Double Model.Macro Model.Calc Spec.CalcSpec Spec.DoubleSpec
  Proofs.CalcProofs Proofs.MacroAssignProofs.

Theorem C24_round_trip : forall n, 0 <= n < 2 ^ 32 -> exists b,
  uint32_to_bcd n = Some b /\ 0 <= b < 2 ^ 40 /\
  (forall i, 0 <= i -> (b / 16 ^ i) mod 16 = (n / 10 ^ i) mod 10) /\
  bcd_to_ui32 b = Some n.
Proof. exact bcd_round_trip. Qed.
Print Assumptions C24_round_trip.

(** The same through the calculator: BCD[BIN[n]] is n. *)
Theorem C24_expression : forall lit libm mv t n,
  literal t -> is_int (literal_value lit t) n -> 0 <= n < 2 ^ 32 ->
  exists v, value_calculator lit libm mv ("BCD[BIN[" ++ t ++ "]]") = Ok (CValue v) /\ is_int v n.
Proof. exact bcd_bin_expression. Qed.
Print Assumptions C24_expression.

Example C24_ex : uint32_to_bcd 4294967295 = Some 0x4294967295 /\ bcd_to_ui32 0x4294967295 = Some 4294967295.
Proof. split; reflexivity. Qed.

Example C24_ex_expression :
  let lit := fun _ => d_of_Z 1234 in
  literal "1234" /\ is_int (literal_value lit "1234") 1234 /\
  value_calculator lit (fun _ x => x) [] "BIN[1234]" = Ok (CValue (d_of_Z 0x1234)).
Proof.
  split; [|split; [split; vm_compute; reflexivity|vm_compute; reflexivity]].
  left. exists "1234", "", "". repeat split; auto; [now left|]. left. split; [discriminate|reflexivity].
Qed.
