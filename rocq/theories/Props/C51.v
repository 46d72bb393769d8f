(** C51: a rejected line comes with a message.  Partial: lines without "#" of
    which at least one word was read; otherwise there can be no message
    (C51_refuted). *)
From Verif Require Import Model.Base Model.Attr Model.Double Model.Macro Model.Grammar Model.Verifiers Model.PathCalc Model.Parser.
From Verif Require Import Spec.GrammarSpec Spec.ParserSpec Proofs.ParserProofs Proofs.ParserCases.

Theorem C51_partial : forall lit libm atan log cabs stale cf st line data p p' v m lg,
  pr_grammar p = Some lg -> no_macro data ->
  parse lit libm atan log cabs stale cf st line data p = (p', v, Answer false m) -> v <> [] -> has_message m = true.
Proof. intros lit libm atan log cabs stale cf st line data p p' v m lg. apply rejected_message. Qed.
Print Assumptions C51_partial.

(** The first word is out of range; the message is there without macros only. *)
Theorem C51_word_refuted : snd (ex_parse ex_all 1 "X99999999" ex_parser) = Answer false MNone /\
  exists m, snd (ex_parse ex_none 1 "X99999999" ex_parser) = Answer false m /\ has_message m = true.
Proof. split; [vm_compute; reflexivity|]. eexists. split; vm_compute; reflexivity. Qed.
Print Assumptions C51_word_refuted.

(** An assignment that cannot be calculated: what was wrong is lost. *)
Theorem C51_assignment_refuted : snd (ex_parse ex_all 1 "#1=[" ex_parser) = Answer false (MGrammar []) /\
  snd (ex_parse ex_all 1 "#1=#7" ex_parser) = Answer false (MGrammar []) /\ has_message (MGrammar []) = false.
Proof. repeat (match goal with |- _ /\ _ => split end); vm_compute; reflexivity. Qed.
Print Assumptions C51_assignment_refuted.

Example C51_ex : pr_grammar ex_parser = Some ex_grammar /\ no_macro "G1 X5 F100 S99999" /\
  exists v m, ex_parse ex_all 1 "G1 X5 F100 S99999" ex_parser = (ex_after ex_all 1 "G1 X5 F100 S99999" ex_parser, v, Answer false m) /\
    v <> [] /\ has_message m = true.
Proof.
  split; [vm_compute; reflexivity|]. split; [reflexivity|]. eexists _, _. split; [vm_compute; reflexivity|]. split; [discriminate|reflexivity].
Qed.
