(** C37: a line is not accepted with a message.  Partial: it holds for lines
    without "#" and when macros are not evaluated; a line that is accepted with a
    message is one whose text with the values of the macros put in cannot be
    read further at some place, and there is such a line (C37_refuted). *)
From Verif Require Import Model.Base Model.Attr Model.Double Model.Macro Model.Grammar Model.MacroEval Model.Verifiers Model.PathCalc Model.Parser.
From Verif Require Import Spec.GrammarSpec Spec.ParserSpec Proofs.ParserProofs Proofs.ParserCases.

Theorem C37_partial : forall lit libm atan log cabs stale cf st line data p p' v m lg,
  pr_grammar p = Some lg -> tables_ok (lg_map lg) (lg_decimal lg) (lg_assignable lg) ->
  no_macro data \/ ps_evaluate_macro st = false ->
  parse lit libm atan log cabs stale cf st line data p = (p', v, Answer true m) -> has_message m = false.
Proof.
  intros lit libm atan log cabs stale cf st line data p p' v m lg G TO [N|N] H.
  - exact (accepted_without_macro lit libm atan log cabs stale cf lg TO _ _ _ _ _ _ _ G N H).
  - destruct (has_message m) eqn:M; [|reflexivity].
    destruct (accepted_message lit libm atan log cabs stale cf lg TO _ _ _ _ _ _ _ G H M) as [E _]. congruence.
Qed.
Print Assumptions C37_partial.

Theorem C37_macros_partial : forall lit libm atan log cabs stale cf st line data p p' v m lg,
  pr_grammar p = Some lg -> tables_ok (lg_map lg) (lg_decimal lg) (lg_assignable lg) ->
  parse lit libm atan log cabs stale cf st line data p = (p', v, Answer true m) -> has_message m = true ->
  exists mv code gs gs' v2 rest ms, m = MExpect (text_before code rest) rest ms /\ evaluated_code (cf_ops cf) mv line v = Ok code /\ code <> ""%string /\
    phrase_parse (lg_map lg) (lg_decimal lg) (lg_assignable lg) code gs = (gs', v2, PThrow rest).
Proof.
  intros lit libm atan log cabs stale cf st line data p p' v m lg G TO H M.
  exact (proj2 (accepted_message lit libm atan log cabs stale cf lg TO _ _ _ _ _ _ _ G H M)).
Qed.
Print Assumptions C37_macros_partial.

(** #100=20000, then T1 G#100: accepted, and the text of an error is returned. *)
Theorem C37_refuted : exists m, snd (ex_parse ex_all 1 "#100=20000" ex_parser) = Answer true MNone /\
  snd (ex_parse ex_all 2 "T1 G#100" (ex_after ex_all 1 "#100=20000" ex_parser)) = Answer true m /\ has_message m = true.
Proof. eexists. cbv zeta. repeat (match goal with |- _ /\ _ => split end); vm_compute; reflexivity. Qed.
Print Assumptions C37_refuted.

Example C37_ex : pr_grammar ex_parser = Some ex_grammar /\ tables_ok (lg_map ex_grammar) (lg_decimal ex_grammar) (lg_assignable ex_grammar) /\
  no_macro "N10 G1 X5 Y2.5 F100" /\ snd (ex_parse ex_path 1 "N10 G1 X5 Y2.5 F100" ex_parser) = Answer true MNone /\
  snd (ex_parse ex_none 1 "N10 G1 X#3 F100" ex_parser) = Answer true (MGrammar []) /\
  exists v m, ex_parse ex_none 1 "T1 G20000" ex_parser = (ex_after ex_none 1 "T1 G20000" ex_parser, v, Answer false m) /\ has_message m = true.
Proof.
  split; [vm_compute; reflexivity|]. split; [exact ex_grammar_ok|]. split; [reflexivity|]. split; [vm_compute; reflexivity|]. split; [vm_compute; reflexivity|].
  eexists _, _. split; vm_compute; reflexivity.
Qed.
