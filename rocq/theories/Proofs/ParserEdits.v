(** Edit commands and the state of the analysis. *)
From Verif Require Import Model.Base Model.Attr Model.Double Model.Macro Model.Grammar Model.MacroAssign Model.MacroEval Model.Verifiers Model.PathCalc
  Model.Renumberer Model.Rotator Model.Removers Model.UnitConv Model.Parser.
From Verif Require Import Spec.ParserSpec Proofs.Tactics Proofs.StatusProofs.

Lemma simple_frame data p p' v a : simple_parse data p = (p', v, a) -> exists gs, p' = with_gs gs p /\
  (gs = pr_gs p \/ exists lg r, pr_grammar p = Some lg /\ grammar_parse lg data (pr_gs p) = (gs, v, r)).
Proof.
  unfold simple_parse. destruct (pr_grammar p) as [lg|]; [|intro H; injection H as <- _ _; exists (pr_gs p); split; [destruct p; reflexivity|auto]].
  destruct (grammar_parse lg data (pr_gs p)) as [[gs v0] r] eqn:E. intro H. exists gs. destruct r; injection H as <- <- _; (split; [reflexivity|right; eauto]).
Qed.

Lemma edit_frame cf e data p p' v a : edit_line cf e data p = (p', v, a) -> exists gs ren, p' = with_ren ren (with_gs gs p) /\
  (gs = pr_gs p \/ exists lg v0 r, pr_grammar p = Some lg /\ grammar_parse lg data (pr_gs p) = (gs, v0, r)).
Proof.
  assert (K : forall q v0 a0, simple_parse data p = (q, v0, a0) -> exists gs, q = with_ren (pr_ren p) (with_gs gs p) /\
     (gs = pr_gs p \/ exists lg v0 r, pr_grammar p = Some lg /\ grammar_parse lg data (pr_gs p) = (gs, v0, r))).
  { intros q v0 a0 H. apply simple_frame in H as (gs & -> & [->|(lg & r & G & E)]); [exists (pr_gs p)|exists gs]; (split; [destruct p; reflexivity|]); eauto 8. }
  destruct e as [dir| |rs|o| |]; cbn [edit_line]; unfold convert_length, remove_numbering, renumber_line, rotate_line, remove_comment_line, remove_optional_line;
    destruct (simple_parse data p) as [[q v0] [[|] m|e]] eqn:E; destruct (K _ _ _ eq_refl) as (gs & -> & G);
    try (intro H; injection H as <- _ _; eauto; fail).
  - destruct (unit_convert dir (cf_grammar cf) v0); intro H; injection H as <- _ _; eauto.
  - destruct (renumber _ _ _ v0) as [ren v1]. intro H. injection H as <- _ _. exists gs, ren. split; [reflexivity|exact G].
  - destruct (renumber _ _ _ v0) as [ren v1]. intro H. injection H as <- _ _. exists gs, ren. split; [reflexivity|exact G].
Qed.

(** ** The numbering does not matter to the analysis *)

Definition uniform (s : step) : Prop := forall x p, s (with_ren x p) = (with_ren x (fst (s p)), snd (s p)).

Lemma uniform_andthen a b : uniform a -> uniform b -> uniform (andthen a b).
Proof. intros A B x p. unfold andthen. rewrite A. destruct (a p) as [q [y|]]; cbn [fst snd]; [reflexivity|apply B]. Qed.

Lemma uniform_on b s : uniform s -> uniform (on b s).
Proof. destruct b; cbn; [auto|]. intros _ x p. reflexivity. Qed.

Lemma uniform_select b : uniform (select_grammar b).
Proof.
  induction b as [|a b IH]; intros x p; [reflexivity|]. cbn [select_grammar]. change (pr_metric (with_ren x p)) with (pr_metric p).
  destruct (selector_step (pr_metric p) a) as [m|e]; [|reflexivity]. change (with_metric m (with_ren x p)) with (with_ren x (with_metric m p)). apply IH.
Qed.

Section Line.
Variable lit : string -> dbl.
Variable libm : string -> dbl -> dbl.
Variables atan log cabs : dbl -> dbl.
Variable stale : Z.
Variable cf : config.
Let PA := parse lit libm atan log cabs stale cf.

Lemma uniform_later st line b : uniform (later_steps atan log cabs stale cf st line b).
Proof.
  unfold later_steps. apply uniform_andthen; [|apply uniform_andthen; [|apply uniform_andthen; [|apply uniform_andthen; [|apply uniform_andthen]]]].
  - intros x p. unfold system_step. cbn. destruct (system_assign (pr_macros p) line b) as [mv [e|]]; reflexivity.
  - apply uniform_on. intros x p. unfold settings_step. cbn. destruct (pr_calc p) as [c|]; [|reflexivity].
    destruct (range_verifier (mc_type (cl_machine c)) (cl_kin c) b); [|reflexivity].
    destruct (rotation_verifier (cd_operator_rotation (mc_cnc (cl_machine c))) (pr_rot p) b) as [r [e|]]; reflexivity.
  - apply uniform_on. intros x p. reflexivity.
  - apply uniform_on. intros x p. reflexivity.
  - apply uniform_on. intros x p. unfold path_step. cbn. destruct (pr_calc p) as [c|]; [|reflexivity].
    destruct (evaluate atan log cabs stale (cl_machine c) (negb (pr_metric p)) line b (cl_calc c) (pr_macros p)) as [[cl mv] [e|]]; [reflexivity|].
    destruct (ps_zero_point st); reflexivity.
  - apply uniform_select.
Qed.

Lemma steps_ren st line v ret x p : steps lit libm atan log cabs stale cf st line v ret (with_ren x p) =
  let '(q, a) := steps lit libm atan log cabs stale cf st line v ret p in (with_ren x q, a).
Proof.
  unfold steps. change (active_map cf (with_ren x p)) with (active_map cf p). destruct (unique_code (active_map cf p) v); [|reflexivity].
  destruct (negb (ps_evaluate_macro st)); [reflexivity|]. unfold macro_step. change (pr_macros (with_ren x p)) with (pr_macros p).
  destruct (macro_evaluate lit libm (pr_macros p) line v) as [[mv [e|]]|e]; [reflexivity| |reflexivity].
  change (with_macros mv (with_ren x p)) with (with_ren x (with_macros mv p)). generalize (with_macros mv p). intro q.
  unfold macro_steps. change (pr_macros (with_ren x q)) with (pr_macros q). change (pr_grammar (with_ren x q)) with (pr_grammar q). change (pr_gs (with_ren x q)) with (pr_gs q).
  destruct (evaluated_code (cf_ops cf) (pr_macros q) line v) as [code|e]; [|reflexivity]. destruct code as [|c0 code0].
  { rewrite uniform_later. destruct (later_steps atan log cabs stale cf st line v q) as [q1 [a|]]; reflexivity. }
  destruct (pr_grammar q) as [lg|]; [|reflexivity].
  destruct (phrase_parse (lg_map lg) (lg_decimal lg) (lg_assignable lg) (String c0 code0) (pr_gs q)) as [[gs2 v2] r2].
  assert (U : uniform (andthen (select_grammar v2) (later_steps atan log cabs stale cf st line v2))) by (apply uniform_andthen; [apply uniform_select|apply uniform_later]).
  change (with_gs gs2 (with_ren x q)) with (with_ren x (with_gs gs2 q)).
  destruct r2; try reflexivity; rewrite U; destruct (andthen (select_grammar v2) (later_steps atan log cabs stale cf st line v2) (with_gs gs2 q)) as [q1 [a|]]; reflexivity.
Qed.

Lemma parse_ren st line data x p : PA st line data (with_ren x p) = let '(q, v, a) := PA st line data p in (with_ren x q, v, a).
Proof.
  unfold PA, parse. change (pr_grammar (with_ren x p)) with (pr_grammar p). change (pr_gs (with_ren x p)) with (pr_gs p).
  destruct (pr_grammar p) as [lg|]; [|reflexivity]. destruct (grammar_parse lg data (pr_gs p)) as [[gs v] r].
  change (with_gs gs (with_ren x p)) with (with_ren x (with_gs gs p)). destruct r; try reflexivity;
    rewrite steps_ren; destruct (steps lit libm atan log cabs stale cf st line v _ (with_gs gs p)) as [q a]; reflexivity.
Qed.

Lemma parse_status st line data gs p : gs_status gs = gs_status (pr_gs p) -> pr_grammar p <> None -> PA st line data (with_gs gs p) = PA st line data p.
Proof.
  intros E G. unfold PA, parse. change (pr_grammar (with_gs gs p)) with (pr_grammar p). change (pr_gs (with_gs gs p)) with gs.
  destruct (pr_grammar p) as [lg|]; [|contradiction]. assert (S : grammar_parse lg data gs = grammar_parse lg data (pr_gs p)) by (unfold grammar_parse; now rewrite E).
  rewrite S. destruct (grammar_parse lg data (pr_gs p)) as [[gs2 v] r]. destruct p; reflexivity.
Qed.

Lemma edit_then_parse e edited p p' v a st line data : edit_line cf e edited p = (p', v, a) -> pr_grammar p <> None ->
  gs_status (pr_gs p) = status_init -> all_chars mark_free edited = true ->
  exists ren, PA st line data p' = let '(q, v, a) := PA st line data p in (with_ren ren q, v, a).
Proof.
  intros H G Q F. apply edit_frame in H as (gs & ren & -> & D). exists ren. rewrite parse_ren.
  assert (S : gs_status gs = gs_status (pr_gs p)).
  { destruct D as [->|(lg & v0 & r & GL & E)]; [reflexivity|]. rewrite Q. unfold grammar_parse, phrase_parse in E.
    eapply attributes_free; [|exact F|exact E]. exact Q. }
  rewrite parse_status; auto.
Qed.

End Line.
