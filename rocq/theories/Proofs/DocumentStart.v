(** The parser that a document starts with. *)
From Verif Require Import Model.Base Model.Attr Model.Double Model.Macro Model.Grammar Model.Verifiers Model.PathGeom Model.PathCalc Model.Enums.
From Verif Require Import Model.Renumberer Model.Settings Model.Parser Model.Document Proofs.Tactics.
From Coq Require Import Lia.
Local Open Scope string_scope.
Local Open Scope Z_scope.

Lemma table_start (a b : dbl) id line : 0 <= line ->
  macro_lookup (emplace (emplace [] (mkKey 3101 (-1)) a) (mkKey 3102 (-1)) b) id line = if id =? 3101 then Some a else if id =? 3102 then Some b else None.
Proof.
  intro L. unfold macro_lookup. change (emplace (emplace [] (mkKey 3101 (-1)) a) (mkKey 3102 (-1)) b) with [(mkKey 3102 (-1), b); (mkKey 3101 (-1), a)].
  cbn [lower_bound]. unfold key_lt. cbn [k_id k_line].
  destruct (Z.ltb_spec 3102 id), (Z.ltb_spec 3101 id), (Z.eqb_spec 3102 id), (Z.eqb_spec 3101 id), (Z.eqb_spec id 3101), (Z.eqb_spec id 3102), (Z.leb_spec (-1) line);
    try lia; cbn [andb k_id]; subst; try reflexivity;
    repeat match goal with |- context [?x =? ?y] => destruct (Z.eqb_spec x y); try lia end; reflexivity.
Qed.

Lemma document_start n p : document_parser n = Ok p ->
  (forall id line, 0 <= line -> macro_lookup (pr_macros p) id line =
     if id =? 3101 then Some (d_of_ratio false 314159265358979323846 (10 ^ 20))
     else if id =? 3102 then Some (d_of_ratio false 271828182845904523536 (10 ^ 20)) else None) /\
  pr_gs p = gstate_init /\ pr_rot p = rot_init /\ pr_ren p = renumber_reset /\ pr_zp p = se_zero (sr_settings (nc_settings n)) /\
  (pr_metric p = true <-> cd_inch (mc_cnc (machine_of (sr_settings (nc_settings n)))) = false).
Proof.
  unfold document_parser, set_ncsettings. intro H.
  destruct (point_values _ (mc_exchange_point _)); [|discriminate]. destruct (point_values _ (mc_base_point _)); [|discriminate]. inv H.
  cbn [pr_macros pr_gs pr_rot pr_ren pr_zp pr_metric]. split.
  - intros id line L. apply table_start; exact L.
  - repeat split; try reflexivity; intro E; [now apply negb_true_iff in E|now apply negb_true_iff].
Qed.
