(** C77: what the editor shows as a comment is what the parser reads as one. *)
From Verif Require Import Model.Base Model.Attr Model.Grammar Model.Shipped Model.Highlight.
From Verif Require Import Spec.HighlightSpec Proofs.ShippedProofs Proofs.HighlightProofs.
Local Open Scope string_scope. Local Open Scope list_scope. Local Open Scope Z_scope.

(** The colours of a line are its own: no comment goes on in the next line. *)
Theorem C77_lines : forall ls, colour_lines Between ls = map (fun l => fst (colours Between l)) ls.
Proof. exact lines_apart. Qed.
Print Assumptions C77_lines.

(** What a single character is shown as. *)
Theorem C77_letters : forall c, colours Between (String c "") =
  if existsb (Ascii.eqb c) ["M"; "G"; "P"; "T"; "S"; "F"; "L"; "R"; "H"; "#"]%char then ([Keyword], Between)
  else if existsb (Ascii.eqb c) ["X"; "Y"; "Z"; "A"; "B"; "C"; "I"; "J"; "K"]%char then ([Axis], Between)
  else if existsb (Ascii.eqb c) ["N"; ":"]%char then ([Numbering], Between)
  else if existsb (Ascii.eqb c) ["("; ";"]%char then ([Remark], snd (colours Between (String c "")))
  else ([NoScope], Between).
Proof. intros [[] [] [] [] [] [] [] []]; reflexivity. Qed.
Print Assumptions C77_letters.

(** An accepted line without backslash is text without comments and, between,
    the comments that were read; shown as comments are exactly these.  Missing:
    lines with a backslash (below). *)
Theorem C77_comments_partial : forall lg t s s' b,
  no_comment_signs (lg_decimal lg) -> no_comment_signs (lg_assignable lg) ->
  grammar_parse lg t s = (s', b, PTrue) -> all_chars (fun c => negb (Ascii.eqb c "\")) t = true ->
  laid_out t (comments b) (map is_remark (fst (colours Between t))).
Proof.
  intros lg t s s' b D A H B. unfold grammar_parse, phrase_parse in H.
  apply line_laid_out in H as (b' & -> & marks & L); auto.
  destruct (colours_laid_out _ _ _ L B) as (marks' & L' & -> & _). exact L'.
Qed.
Print Assumptions C77_comments_partial.

(** The tables the project ships are of that kind. *)
Theorem C77_shipped : forall lg, In lg shipped_grammars -> no_comment_signs (lg_decimal lg) /\ no_comment_signs (lg_assignable lg).
Proof.
  intros lg I.
  assert (B : forallb (fun lg => forallb (all_chars okc) (lg_decimal lg) && forallb (all_chars okc) (lg_assignable lg)) shipped_grammars = true)
    by (vm_compute; reflexivity).
  rewrite forallb_forall in B. apply B in I. apply andb_prop in I as [I J]. rewrite forallb_forall in I, J. split; [exact I|exact J].
Qed.
Print Assumptions C77_shipped.

(** The operations of the tables are shown as keywords, whatever follows. *)
Theorem C77_operations : forall o r, In o shipped_ops ->
  firstn (String.length o) (fst (colours Between (o ++ r)%string)) = repeat Keyword (String.length o).
Proof.
  intros o r I.
  assert (E : top_rule (o ++ r)%string = (Keyword, inside o Keyword) /\ (2 <= String.length o)%nat).
  { cbn [In shipped_ops] in I. repeat (destruct I as [<-|I]; [destruct r; split; [reflexivity|cbn; lia|reflexivity|cbn; lia]|]). contradiction. }
  destruct E as [E L]. destruct o as [|a [|b o]]; cbn in L; try lia.
  change ((String a (String b o) ++ r)%string) with (String a (String b o ++ r)%string) in *.
  cbn [colours]. rewrite E. change (inside (String a (String b o)) Keyword) with (Inside (String.length o) Keyword).
  cbn [String.length]. pose proof (colours_inside (String b o) (String.length o) Keyword r eq_refl) as K.
  destruct (colours (Inside (String.length o) Keyword) (String b o ++ r)%string) as [l e].
  cbn [fst firstn repeat] in *. now rewrite K.
Qed.
Print Assumptions C77_operations.

Definition mill : line_grammar := make_grammar (mkFG fanuc_mill_metric fanuc_mill_imperial) shipped_ops fanuc_mill_metric.

(** Behind a backslash the end of a comment is overlooked: X1 is read, and shown
    as part of the comment. *)
Theorem C77_backslash_refuted : exists s' b,
  grammar_parse mill "(a\) X1" gstate_init = (s', b, PTrue) /\ comments b = ["a\"] /\
  fst (colours Between "(a\) X1") = repeat Remark 7.
Proof. eexists _, _. split; [vm_compute; reflexivity|]. split; vm_compute; reflexivity. Qed.
Print Assumptions C77_backslash_refuted.

(** A semicolon is shown as the beginning of a comment, which the parser refuses. *)
Theorem C77_semicolon_refuted : exists s' b rest,
  grammar_parse mill "X1 ;end" gstate_init = (s', b, PThrow rest) /\ rest = ";end" /\
  fst (colours Between "X1 ;end") = [Axis; NoScope; NoScope; Remark; Remark; Remark; Remark].
Proof. eexists _, _, _. split; [vm_compute; reflexivity|]. split; vm_compute; reflexivity. Qed.
Print Assumptions C77_semicolon_refuted.

(** A line that the editor makes a comment is none: it is refused. *)
Theorem C77_toggle_refuted : exists s1 b1 s2 b2,
  grammar_parse mill "G1 X5" gstate_init = (s1, b1, PTrue) /\ commented_out "G1 X5" = "# G1 X5" /\
  grammar_parse mill (commented_out "G1 X5") gstate_init = (s2, b2, PFalse) /\ gs_message s2 <> [] /\ comments b2 = [] /\
  map is_remark (fst (colours Between (commented_out "G1 X5"))) = repeat false 7.
Proof.
  eexists _, _, _, _. split; [vm_compute; reflexivity|]. split; [reflexivity|]. split; [vm_compute; reflexivity|].
  split; [discriminate|]. split; vm_compute; reflexivity.
Qed.
Print Assumptions C77_toggle_refuted.

Example C77_ex : exists s' b, In mill shipped_grammars /\
  grammar_parse mill "N10 (first;) G1X5(two)" gstate_init = (s', b, PTrue) /\ comments b = ["first;"; "two"] /\
  all_chars (fun c => negb (Ascii.eqb c "\")) "N10 (first;) G1X5(two)" = true /\
  map is_remark (fst (colours Between "N10 (first;) G1X5(two)")) = repeat false 4 ++ repeat true 8 ++ repeat false 5 ++ repeat true 5 /\
  In "SQRT" shipped_ops.
Proof.
  eexists _, _. split; [vm_compute; tauto|]. split; [vm_compute; reflexivity|]. split; [reflexivity|]. split; [reflexivity|].
  split; [vm_compute; reflexivity|]. vm_compute; tauto.
Qed.
