(** C43: every function name the expression grammar accepts has a value.

    False: SINH is accepted by the grammar but never evaluated (C43_refuted).
    All other real-valued functions have one (C43_partial); BIN and BCD are
    the subject of C24. *)
From Verif Require Import Model.Base Model.Double Model.Macro Model.Calc Spec.CalcSpec
  Proofs.CalcProofs Proofs.MacroAssignProofs.

Theorem C43_partial : forall lit libm mv k e t x,
  In k ["ABS"; "SQRT"; "FIX"; "FUP"; "ROUND"; "SIN"; "COS"; "TAN"; "ASIN"; "ACOS"; "ATAN"; "COSH"; "TANH";
        "EXP"; "LOG"; "LOG10"] ->
  spells libm LExpr (Fn k e) t -> value lit libm mv e = Ok x ->
  exists v, value_calculator lit libm mv t = Ok (CValue v).
Proof. exact other_functions. Qed.
Print Assumptions C43_partial.

Theorem C43_refuted : forall lit libm, exists k, In k (map fst function_names) /\
  forall mv e t x, spells libm LExpr (Fn k e) t -> value lit libm mv e = Ok x ->
  exists m, value_calculator lit libm mv t = Ok (CRefused m).
Proof. exact some_function_refused. Qed.
Print Assumptions C43_refuted.

Example C43_ex : exists e, spells (fun _ x => x) LExpr (Fn "SINH" e) "SINH[1]" /\
  value_calculator (fun _ => d_of_Z 1) (fun _ x => x) [] "SINH[1]" =
    Ok (CRefused ["UnsupportedFunction"; "sinh"]) /\
  value_calculator (fun _ => d_of_Z 1) (fun _ x => x) [] "COSH[1]" <>
    Ok (CRefused ["UnsupportedFunction"; "cosh"]).
Proof.
  exists (Lit "1"). split; [|split; [reflexivity|discriminate]].
  apply sp_term, sp_factor.
  apply (sp_fn (fun _ x => x) "" "SINH" "" "[" (Lit "1") "1" "" "]");
    [reflexivity|cbn; auto 30|reflexivity|now right| |reflexivity|now right].
  apply sp_term, sp_factor, (sp_lit _ "" "1"); [reflexivity|].
  left. exists "1", "", "". repeat split; auto; [now left|]. left. split; [discriminate|reflexivity].
Qed.
