(** C20: acceptance of a line does not depend on earlier lines. *)
From Verif Require Import Model.Base Model.Attr Model.Grammar Model.Shipped Spec.Text Spec.GrammarSpec.
From Verif Require Import Proofs.PrintProofs Proofs.ShippedProofs Proofs.StatusProofs.

(** The parser after the lines [h]: AllAttributesParser.cpp 213-214 for each. *)
Definition parser_after (lg : line_grammar) (h : list string) : gstate :=
  fold_left (fun s t => fst (fst (grammar_parse lg t s))) h gstate_init.

Definition without (cs t : string) : Prop := forall c, In c (list_ascii_of_string cs) -> contains (String c "") t = false.

(** When none of the earlier lines has a bracket or "#" in it, the line is read
    as by a new parser: the same words, the same verdict, the same messages.
    Missing: earlier lines with brackets or macros, where the claim fails. *)
Theorem C20_partial : forall lg h t, Forall (without "[]#") h ->
  grammar_parse lg t (parser_after lg h) = grammar_parse lg t gstate_init.
Proof.
  intros lg h t F. apply same_start. refine (lines_quiet lg h gstate_init eq_refl _).
  eapply Forall_impl; [|exact F]. intros x W. clear -W. assert (N : forall c y, x = y -> In c ["["; "]"; "#"]%char -> contains (String c "") y = false) by (intros c y <- I; apply W; exact I).
  clear W. induction x as [|c x IH]; [reflexivity|]. apply andb_true_iff. split.
  - unfold mark_free. destruct (contains (String c "") "[]#") eqn:E; [|reflexivity]. exfalso.
    assert (K : In c ["["; "]"; "#"]%char) by (destruct c as [[] [] [] [] [] [] [] []]; try discriminate E; cbn; tauto).
    specialize (N c _ eq_refl K). cbn in N. destruct (ascii_dec c c); [|contradiction]. destruct x; discriminate N.
  - apply IH. intros d y <- I. specialize (N d _ eq_refl I). cbn in N. apply orb_false_iff in N. tauto.
Qed.

(** Whatever came before, a line that some parser accepts as words with numbers,
    without brackets and without calculations, is accepted with the same words. *)
Theorem C20_plain_partial : forall lg t s1 s1' v s2, tables_ok (lg_map lg) (lg_decimal lg) (lg_assignable lg) ->
  grammar_parse lg t s1 = (s1', v, PTrue) ->
  (forall d, In (ADec d) v -> ~ In (d_word d) ["+"; "-"; "*"; "/"]%string /\ d_open d = None /\ d_close d = None /\ d_value d <> None) ->
  exists s2', grammar_parse lg t s2 = (s2', v, PTrue).
Proof.
  intros lg t s1 s1' v s2 T H F. refine (parse_steady lg t s1 s1' v s2 T H _). apply Forall_forall. intros [d| |] I; [exact (F d I)|exact Logic.I|exact Logic.I].
Qed.

Definition mill : line_grammar := make_grammar (mkFG fanuc_mill_metric fanuc_mill_imperial) shipped_ops fanuc_mill_metric.

(** An unmatched bracket in one line: the next line with brackets is rejected. *)
Theorem C20_bracket_refuted : exists s v s',
  grammar_parse mill "X[1]" gstate_init = (s, v, PTrue) /\
  grammar_parse mill "X[1]" (parser_after mill ["X1]"]) = (s', [], PFalse).
Proof. eexists _, _, _. split; vm_compute; reflexivity. Qed.

(** A macro in one line: the block skip number of a later line is not checked
    any more. *)
Theorem C20_macro_refuted : exists s v s',
  grammar_parse mill "/12 X1" gstate_init = (s, [], PFalse) /\
  grammar_parse mill "/12 X1" (parser_after mill ["#1=5"]) = (s', v, PTrue).
Proof. eexists _, _, _. split; vm_compute; reflexivity. Qed.

Example C20_ex : Forall (without "[]#") ["N10 G1 X1 (c)"; "C2=5"; "X"] /\ (exists s v, grammar_parse mill "/2 X-1.5 C2=7" (parser_after mill ["N10 G1 X1 (c)"; "C2=5"; "X"]) = (s, v, PTrue)) /\
  tables_ok (lg_map mill) (lg_decimal mill) (lg_assignable mill) /\
  exists s v, grammar_parse mill "N10 G1 X-1.5 Y#3 C2=7 (c)" gstate_init = (s, v, PTrue) /\
    (forall d, In (ADec d) v -> ~ In (d_word d) ["+"; "-"; "*"; "/"]%string /\ d_open d = None /\ d_close d = None /\ d_value d <> None).
Proof.
  split; [repeat constructor; intros c H; cbn in H; repeat (destruct H as [<-|H]; [reflexivity|]); destruct H|].
  split; [eexists _, _; vm_compute; reflexivity|]. split; [apply shipped_ok; vm_compute; tauto|].
  eexists _, _. split; [vm_compute; reflexivity|]. intros d I. cbn in I. repeat (destruct I as [I|I]; [try discriminate I; injection I as <-; cbn; intuition discriminate|]). destruct I.
Qed.

Print Assumptions C20_partial.
Print Assumptions C20_plain_partial.
Print Assumptions C20_bracket_refuted.
Print Assumptions C20_macro_refuted.
