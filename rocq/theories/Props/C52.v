(** C52: a rejected line does not change the unit system; an accepted one makes
    it that of its last G20 or G21.  Partial: lines without "#", for grammars
    that know G, and the accepted ones with the checks on; a rejected line with a
    macro can change the unit system (C52_refuted). *)
From Verif Require Import Model.Base Model.Attr Model.Double Model.Macro Model.Grammar Model.Verifiers Model.PathCalc Model.Parser.
From Verif Require Import Spec.Text Spec.GrammarSpec Spec.SelectSpec Spec.ParserSpec Proofs.SelectProofs Proofs.ParserProofs Proofs.ParserUnits Proofs.ParserCases.

Theorem C52_rejected_partial : forall lit libm atan log cabs stale cf st line data p p' v a lg,
  pr_grammar p = Some lg -> no_macro data -> assoc "G" (lg_map lg) <> None ->
  parse lit libm atan log cabs stale cf st line data p = (p', v, a) -> (forall m, a <> Answer true m) ->
  pr_metric p' = pr_metric p.
Proof. intros lit libm atan log cabs stale cf st line data p p' v a lg. apply rejected_unit. Qed.
Print Assumptions C52_rejected_partial.

Theorem C52_accepted_partial : forall lit libm atan log cabs stale cf st line data p p' v m lg,
  pr_grammar p = Some lg -> no_macro data -> assoc "G" (lg_map lg) <> None -> ps_evaluate_macro st = true ->
  parse lit libm atan log cabs stale cf st line data p = (p', v, Answer true m) ->
  selects (pr_metric p) (g_values v) (pr_metric p').
Proof.
  intros lit libm atan log cabs stale cf st line data p p' v m lg G N A EM H.
  pose proof (accepted_unit lit libm atan log cabs stale cf lg st line data p p' v m G N A EM H) as [E D].
  assert (E2 : program_unit (pr_metric p) [v] = Ok (pr_metric p')) by (cbn; rewrite E; reflexivity).
  pose proof (program_selects (pr_metric p) [v] [] (pr_metric p) (pr_metric p')) as K. cbn [flat_map] in K. rewrite app_nil_r in K. apply K; [constructor|exact D|exact E2].
Qed.
Print Assumptions C52_accepted_partial.

(** #100=20, then G#100 T99 on a machine with 20 tools: rejected, but from now on
    the values are inches. *)
Theorem C52_refuted : exists m, let p := ex_after ex_all 1 "#100=20" ex_parser in
  snd (ex_parse ex_all 1 "#100=20" ex_parser) = Answer true MNone /\
  snd (ex_parse ex_all 2 "G#100 T99" p) = Answer false m /\
  (pr_metric p, pr_metric (ex_after ex_all 2 "G#100 T99" p)) = (true, false).
Proof. eexists. cbv zeta. repeat (match goal with |- _ /\ _ => split end); vm_compute; reflexivity. Qed.
Print Assumptions C52_refuted.

Example C52_ex : pr_grammar ex_parser = Some ex_grammar /\ no_macro "G20 T99" /\ assoc "G" (lg_map ex_grammar) <> None /\
  (exists m, snd (ex_parse ex_all 1 "G20 T99" ex_parser) = Answer false m) /\
  snd (ex_parse ex_all 1 "G20 T9" ex_parser) = Answer true MNone /\
  (pr_metric ex_parser, pr_metric (ex_after ex_all 1 "G20 T99" ex_parser), pr_metric (ex_after ex_all 1 "G20 T9" ex_parser)) = (true, true, false).
Proof.
  split; [vm_compute; reflexivity|]. split; [reflexivity|]. split; [discriminate|]. split; [eexists; vm_compute; reflexivity|]. split; vm_compute; reflexivity.
Qed.
