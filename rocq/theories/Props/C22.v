(** C22: the value of a macro expression is that of its standard reading.
    [spells] relates a text to the expression it writes and [value] gives the
    expression its meaning (Spec/CalcSpec.v).  [lit] (value of a decimal
    literal) and [libm] are arbitrary. *)
From Verif Require Import Model.Base Model.Double Model.Macro Model.Calc Spec.CalcSpec Proofs.CalcProofs.

Theorem C22_value : forall lit libm mv e t, spells libm LExpr e t ->
  value_calculator lit libm mv t =
  match value lit libm mv e with
  | Ok v => Ok (CValue v)
  | Exc (EEval m) => Ok (CRefused m)
  | Exc x => Exc x
  end.
Proof. exact (fun lit libm mv e t => calculator_value lit libm e t mv). Qed.
Print Assumptions C22_value.

(** The reading is unambiguous. *)
Theorem C22_unambiguous : forall lit libm mv e1 e2 t,
  spells libm LExpr e1 t -> spells libm LExpr e2 t -> value lit libm mv e1 = value lit libm mv e2.
Proof. exact (fun lit libm mv e1 e2 t => spells_value_unique lit libm e1 e2 t mv). Qed.
Print Assumptions C22_unambiguous.

Definition ex_lit (s : string) : dbl := match stod s with Ok v => v | Exc _ => S754_nan end.
Definition ex_libm (f : string) (x : dbl) : dbl := x.
Definition ex_macros : macro_map dbl := mrun [MUser 4 1 (d_of_Z 30)].

Lemma lit_digits s : s <> "" -> digits s -> literal s.
Proof. intros N D. left. exists s, "", "". repeat split; auto; [now left|]. left. now rewrite StringFacts.string_app_nil. Qed.

(** 10 - 4 - 3 * #4 / [1+2] reads as (10-4) - ((3*#4)/(1+2)). *)
Definition ex_expr : expr :=
  Bin Sub (Bin Sub (Lit "10") (Lit "4")) (Bin Div (Bin Mul (Lit "3") (Mac (Lit "4"))) (Bin Add (Lit "1") (Lit "2"))).

Example C22_ex :
  spells ex_libm LExpr ex_expr "10 - 4 - 3 * #4 / [1+2]" /\
  value ex_lit ex_libm ex_macros ex_expr = Ok (d_of_Z (-24)) /\
  value_calculator ex_lit ex_libm ex_macros "10 - 4 - 3 * #4 / [1+2]" = Ok (CValue (d_of_Z (-24))).
Proof.
  split; [|split; vm_compute; reflexivity].
  apply (sp_add _ Sub _ "10 - 4" " " _ " 3 * #4 / [1+2]"); [reflexivity| |reflexivity|].
  - apply (sp_add _ Sub _ "10" " " _ " 4"); [reflexivity| |reflexivity|].
    + apply sp_term, sp_factor. apply (sp_lit _ "" "10"); [reflexivity|apply lit_digits; [discriminate|reflexivity]].
    + apply sp_factor. apply (sp_lit _ " " "4"); [reflexivity|apply lit_digits; [discriminate|reflexivity]].
  - apply (sp_mul _ Div _ " 3 * #4" " " _ " [1+2]"); [reflexivity| |reflexivity|].
    + apply (sp_mul _ Mul _ " 3" " " _ " #4"); [reflexivity| |reflexivity|].
      * apply sp_factor. apply (sp_lit _ " " "3"); [reflexivity|apply lit_digits; [discriminate|reflexivity]].
      * apply (sp_mac _ " " _ "4"); [reflexivity|].
        apply (sp_lit _ "" "4"); [reflexivity|apply lit_digits; [discriminate|reflexivity]].
    + apply (sp_bracket _ " " "[" _ "1+2" "" "]"); [reflexivity|now right| |reflexivity|now right].
      apply (sp_add _ Add _ "1" "" _ "2"); [reflexivity| |reflexivity|].
      * apply sp_term, sp_factor. apply (sp_lit _ "" "1"); [reflexivity|apply lit_digits; [discriminate|reflexivity]].
      * apply sp_factor. apply (sp_lit _ "" "2"); [reflexivity|apply lit_digits; [discriminate|reflexivity]].
Qed.
