(** Harmless documents are parsed to their end. *)
From Verif Require Import Model.Base Model.Attr Model.Double Model.Macro Model.Grammar Model.MacroAssign Model.MacroEval Model.Verifiers.
From Verif Require Import Model.Splitter Model.PathGeom Model.PathCalc Model.Enums Model.NCText Model.Parser Model.Messages Model.Settings Model.Document.
From Verif Require Import Spec.Text Spec.NCTextSpec Spec.DocumentSpec Spec.EscapeSpec.
From Verif Require Import Proofs.Tactics Proofs.TextProofs Proofs.StringFacts Proofs.GrammarTail Proofs.GrammarProofs Proofs.StatusProofs Proofs.ParserProofs.
From Verif Require Import Proofs.NCTextProofs Proofs.ParserPoints Proofs.EscapeWords Proofs.EscapePath.
Local Open Scope string_scope.
Local Open Scope Z_scope.

Lemma caught_reported e : reported e -> exists r m, caught e = Answer r m.
Proof. destruct e; cbn; intro H; try contradiction; eauto. Qed.

Lemma unmarked_free t : unmarked t -> all_chars mark_free t = true.
Proof.
  intros (A & B & C). apply contains_char in A, B, C. induction t as [|c t IH]; [reflexivity|]. cbn [all_chars] in *.
  apply andb_true_iff in A as [A1 A2]. apply andb_true_iff in B as [B1 B2]. apply andb_true_iff in C as [C1 C2].
  rewrite IH by assumption. rewrite andb_true_r. destruct c as [[] [] [] [] [] [] [] []]; try reflexivity; discriminate.
Qed.

(** ** The checks of a block *)

Section Block.
Variable t : string.
Variable b : block.
Hypothesis W : Forall (word_read t) b.

Lemma read_plain : Forall plain_attr b.
Proof. eapply Forall_impl; [|exact W]. intros [d| |]; cbn; auto. intros ((_ & _ & _ & _ & _ & M & N & _) & _). auto. Qed.

Lemma each_reported {S} (f : S -> attr -> res S) : (forall s a e, word_read t a -> f s a = Exc e -> reported e) ->
  forall s e, foldM f s b = Exc e -> reported e.
Proof.
  intros K. induction W as [|a l Wa Wl IH]; intros s e H; [discriminate|]. cbn [foldM] in H. unfold bind in H.
  destruct (f s a) as [s1|e1] eqn:E; [now apply IH in H|]. inv H. eapply K; eauto.
Qed.

Lemma unique_reported wm e : unique_code wm b = Exc e -> reported e.
Proof.
  unfold unique_code. destruct (foldM _ _ _) eqn:E; [discriminate|]. intro H. inv H. revert E. apply each_reported.
  intros s a e1 _. unfold unique_step. destruct a; try discriminate. destruct (assoc _ _); [|discriminate]. destruct (negb _); [discriminate|].
  destruct (negb _); [discriminate|]. intro H. inv H. exact I.
Qed.

Lemma same_reported w e : same_word w b = Exc e -> reported e.
Proof.
  unfold same_word. destruct (foldM _ _ _) eqn:E; [discriminate|]. intro H. inv H. revert E. apply each_reported.
  intros s a e1 _. unfold same_word_step. destruct a; try discriminate. destruct (String.eqb _ _); [|discriminate]. destruct s; [|discriminate]. intro H. inv H. exact I.
Qed.

Lemma range_reported mt k e : range_verifier mt k b = Exc e -> reported e.
Proof.
  apply each_reported. intros s a e1 R. unfold range_step. destruct a as [d| |]; try discriminate. destruct R as (N & _).
  destruct (d_value d) as [v|] eqn:V; [|discriminate]. pose proof N as (_ & RV & _). rewrite V in RV.
  assert (K : forall x e, digits1 x -> stoi x = Exc e -> reported e) by (intros x e0 [D1 D2] H; rewrite (stoi_reported x e0 D1 D2 H); exact I).
  destruct (String.eqb _ "S"); [|destruct (String.eqb _ "T"); [|destruct (String.eqb _ "F"); [|discriminate]]]; unfold bind;
  (match goal with |- context [stoi ?x] => destruct (stoi x) eqn:E end;
   [match goal with |- context [if ?c then _ else _] => destruct c end; [intro H; inv H; exact I|discriminate]|
    intro H; inv H; eapply K; [|exact E]]); try exact RV. now apply tool_text.
Qed.

Lemma rotation_reported op st st' e : rotation_verifier op st b = (st', Some e) -> reported e.
Proof.
  unfold rotation_verifier. assert (K : forall st st' e, rot_visit_all op st b = (st', Some e) -> reported e).
  { clear st st' e. induction W as [|a l Wa Wl IH]; intros st st' e H; [discriminate|]. destruct a as [d| |]; cbn [rot_visit_all] in H; [|now apply IH in H|now apply IH in H].
    destruct (rot_visit op st d) as [s1 [e1|]] eqn:E; [|now apply IH in H]. injection H as <- <-. destruct Wa as (N & _).
    unfold rot_visit in E. destruct (String.eqb _ "S"); [destruct op; inv E; exact I|]. destruct (d_value d) as [v|] eqn:V; [|discriminate].
    destruct (String.eqb _ "M").
    - destruct (stoi v) eqn:E2; [destruct (_ || _); [destruct op; inv E; exact I|discriminate]|]. inv E. rewrite (word_stoi d v _ N V E2). exact I.
    - destruct (_ && _); [|discriminate]. destruct (stoi v) eqn:E2; [destruct (_ || _); discriminate|]. inv E. rewrite (word_stoi d v _ N V E2). exact I. }
  destruct (rot_visit_all op st b) as [s1 [e1|]] eqn:E; [intro H; inv H; eapply K; eauto|].
  destruct (_ && _); [|discriminate]. destruct (_ && _); [intro H; inv H; exact I|]. destruct (_ && _); [intro H; inv H; exact I|].
  destruct (_ && _); [intro H; inv H; exact I|discriminate].
Qed.

Lemma groups_step_reported mv line w m rm s a e : word_read t a -> groups_step mv line w m rm s a = Exc e -> reported e.
Proof.
  unfold groups_step. destruct a as [d| |]; try discriminate. intros (N & _). unfold word_code. destruct (negb (String.eqb _ _)); [discriminate|].
  destruct (d_value d) as [v|] eqn:V; [|discriminate]. cbn [bind].
  assert (K : forall c, match find_groups m c with
    | None => if rm then Exc (ECodeGroups ["MissingInCodeGroups"; cgv_text w c]) else Ok s
    | Some gs => visit_groups w c s gs end = Exc e -> reported e).
  { intros c. destruct (find_groups m c) as [gs|]; [|destruct rm; [intro H; inv H; exact I|discriminate]].
    revert s. induction gs as [|g gs IH]; intro s; cbn [visit_groups]; [discriminate|]. destruct (assoc g s); [intro H; inv H; exact I|apply IH]. }
  destruct (stoi v) eqn:E2; cbn [bind]; [|intro H; inv H; rewrite (word_stoi d v _ N V E2); exact I].
  pose proof N as (_ & _ & V2 & _ & _ & M & _). rewrite M. destruct (d_value2 d) as [v2|]; cbn [bind]; [|apply K].
  destruct (stoi v2) eqn:E3; cbn [bind]; [apply K|]. intro H. inv H. destruct V2 as [D1 D2]. rewrite (stoi_reported v2 _ D1 D2 E3). exact I.
Qed.

Lemma groups_reported mv gg mg line rm e : code_groups_verifier mv gg mg line rm b = Exc e -> reported e.
Proof.
  unfold code_groups_verifier, bind. destruct (foldM _ _ _) eqn:E1; [|intro H; inv H; revert E1; apply each_reported; intros; eapply groups_step_reported; eauto].
  destruct (foldM (groups_step mv line "M" mg rm) [] b) eqn:E2; [discriminate|]. intro H; inv H; revert E2; apply each_reported; intros; eapply groups_step_reported; eauto.
Qed.

Lemma system_reported mv line mv' e : system_assign mv line b = (mv', Some e) -> reported e.
Proof.
  revert mv. induction W as [|a l Wa Wl IH]; intros mv H; [discriminate|]. cbn [system_assign] in H.
  destruct (system_ops line a) as [ops|e1] eqn:E; [now apply IH in H|]. inv H. unfold system_ops in E. destruct a as [d| |]; try discriminate.
  destruct Wa as (N & _). destruct (assoc (d_word d) word_macros) eqn:A; [|discriminate]. unfold bind in E. destruct (stod _) eqn:E2; [discriminate|]. inv E.
  rewrite (value_text_reported d e N); [exact I| |exact E2]. clear - A. unfold word_macros in A. cbn [assoc] in A.
  repeat (match type of A with context [String.eqb ?x ?y] => destruct (String.eqb_spec x y) as [->|_] end; [now apply letter|]). discriminate.
Qed.

Lemma selector_reported m a e : word_read t a -> selector_step m a = Exc e -> reported e.
Proof.
  unfold selector_step. destruct a as [d| |]; try discriminate. intros (N & _). destruct (negb _); [discriminate|]. destruct (d_value d) as [v|] eqn:V; [|discriminate].
  destruct (stoi v) eqn:E2; [discriminate|]. intro H. inv H. rewrite (word_stoi d v _ N V E2). exact I.
Qed.
End Block.

Lemma axis_reported k zp wrm e : axis_verifier k zp wrm = Exc e -> reported e.
Proof.
  unfold axis_verifier. induction wrm as [|[w [[lo cur] hi]] wrm IH]; [discriminate|]. cbn [foldM axis_step].
  destruct (assoc w (kin_axes k)) as [[a c]|]; [|exact IH]. destruct (_ || _); [intro H; inv H; exact I|exact IH].
Qed.

(** ** A line *)

Section Lines.
Variable lit : string -> dbl.
Variable libm : string -> dbl -> dbl.
Variables atan log cabs : dbl -> dbl.
Variable stale : Z.
Variable cf : config.
Variable mc : machine.
Variable lines : list string.
Hypothesis tables : tables_complete (cf_grammar cf) (cf_ops cf).
Hypothesis axes : Forall address (mc_axes mc).
Hypothesis plain : Forall unmarked lines.
Hypothesis safe : harmless (cd_motion (mc_cnc mc)) (map fst (mc_exchange_point mc)) lines.

Definition ok_code (n : Z) : Prop := n = 0 \/ n = 80 \/ in_force (cd_motion (mc_cnc mc)) lines n.

Definition good (p : parser) : Prop :=
  quiet (pr_gs p) /\
  (exists wm, pr_grammar p = Some (make_grammar (cf_grammar cf) (cf_ops cf) wm) /\ (wm = metric (cf_grammar cf) \/ wm = imperial (cf_grammar cf))) /\
  exists c, pr_calc p = Some c /\ cl_machine c = mc /\ fit ok_code (cl_calc c).

Definition answered (o : option answer) : Prop := match o with Some (Escapes _) => False | _ => True end.

Definition calm (s : step) : Prop := forall p p' o, good p -> s p = (p', o) -> good p' /\ answered o.

Lemma answered_caught e : reported e -> answered (Some (caught e)).
Proof. intro R. destruct (caught_reported e R) as (r & m & ->). exact I. Qed.

Lemma calm_then a b : calm a -> calm b -> calm (andthen a b).
Proof.
  intros A B p p' o G. unfold andthen. destruct (a p) as [p1 [x|]] eqn:E; destruct (A _ _ _ G E) as [G1 R1]; intro H; [inv H; auto|]. eapply B; eauto.
Qed.

Lemma calm_on c s : calm s -> calm (on c s).
Proof. destruct c; [auto|]. intros _ p p' o G H. inv H. split; [exact G|exact I]. Qed.

Lemma calm_check {A} (r : parser -> res A) : (forall p e, r p = Exc e -> reported e) -> calm (check r).
Proof. intros K p p' o G H. unfold check in H. inv H. split; [exact G|]. destruct (r p') eqn:E; [exact I|]. apply answered_caught. eauto. Qed.

Lemma calm_select t b : Forall (word_read t) b -> calm (select_grammar b).
Proof.
  intros W. induction W as [|a b Wa Wb IH]; intros p p' o G H; cbn [select_grammar] in H; [inv H; split; [exact G|exact I]|].
  destruct (selector_step (pr_metric p) a) eqn:E; [eapply IH; [|exact H]; exact G|]. inv H. split; [exact G|]. apply answered_caught. eapply selector_reported; eauto.
Qed.

Lemma code_zero : ok_code 0. Proof. now left. Qed.
Lemma code_cancel : ok_code 80. Proof. right. now left. Qed.

Lemma code_force n : ok_code n -> n <> 0 -> n <> 80 -> in_force (cd_motion (mc_cnc mc)) lines n.
Proof. unfold ok_code. intuition. Qed.

Lemma absent t v w : found_ok t v -> contains w t = false -> assoc w (v_values v) = None.
Proof. intros F C. destruct (assoc w (v_values v)) eqn:E; [|reflexivity]. rewrite (fo_values t v F w) in C; [discriminate|]. now rewrite E. Qed.

Lemma present t v w : found_ok t v -> assoc w (v_values v) <> None -> contains w t = true.
Proof. intros F. exact (fo_values t v F w). Qed.

Lemma exchange_has w : In w (map fst (mc_exchange_point mc)) -> assoc w (mc_exchange_point mc) <> None.
Proof.
  generalize (mc_exchange_point mc). intro m. induction m as [|[k x] m IH]; cbn; [easy|]. intros [->|H].
  - now rewrite String.eqb_refl.
  - destruct (String.eqb w k); [discriminate|auto].
Qed.

Lemma found_keeps t v inch : In t lines -> found_ok t v -> keeps ok_code (evaluate_found atan log cabs stale mc inch v) any.
Proof.
  intros It F. apply evaluate_keeps.
  - apply code_zero.
  - apply code_cancel.
  - intros n E. right. right. right. exists t. split; [exact It|]. eapply fo_g; eauto.
  - intros n O I. apply (no_pecking _ _ _ safe n); [|exact I]. apply code_force; [exact O| |]; intros ->; cbn in I; intuition lia.
  - intros n O I. eapply absent; [exact F|]. eapply (no_repeats _ _ _ safe); [|exact It]. exists n. split; [|exact I].
    apply code_force; [exact O| |]; intros ->; cbn in I; intuition lia.
  - intros O X Y Z.
    assert (N : contains "X" t && contains "Y" t && contains "Z" t && (contains "R" t || (contains "I" t && contains "J" t && contains "K" t)) = false).
    { eapply (no_helix _ _ _ safe); [|exact It]. destruct O as [O|O]; [left|right]; (apply code_force; [exact O|lia|lia]). }
    rewrite (present t v _ F X), (present t v _ F Y), (present t v _ F Z) in N. cbn [andb] in N. apply orb_false_iff in N as [R N].
    split; [eapply absent; eauto|]. apply andb_false_iff in N as [N|N]; [|right; right; eapply absent; eauto].
    apply andb_false_iff in N as [N|N]; [left|right; left]; eapply absent; eauto.
  - intros H w Iw. apply exchange_has. destruct (home_point _ _ _ safe) as (HX & HY & HZ); [exists t; split; [exact It|]; eapply fo_home; eauto|].
    cbn in Iw. destruct Iw as [<-|[<-|[<-|[]]]]; assumption.
  - eapply fo_tools; eauto.
Qed.

Lemma calm_path t b line zero : In t lines -> Forall (word_read t) b -> calm (path_step atan log cabs stale zero line b).
Proof.
  intros It W p p' o (Q & L & c & C & M & F) H. unfold path_step in H. rewrite C, M in H.
  destruct (evaluate atan log cabs stale mc (negb (pr_metric p)) line b (cl_calc c) (pr_macros p)) as [[cl mv] r] eqn:E.
  assert (K : fit ok_code cl /\ forall e, r = Some e -> reported e).
  { unfold evaluate in E. assert (F0 : fit ok_code (no_motion (cl_calc c))) by exact F. destruct b as [|a b]; [injection E as <- _ <-; split; [exact F0|discriminate]|].
    pose proof (found_read mc t axes (a :: b) _ (found_start t) W) as R. destruct (foldM _ _ _) as [v|e].
    - destruct (evaluate_found _ _ _ _ _ _ v _) as [c' r'] eqn:EF. injection E as <- _ <-.
      destruct (found_keeps t v _ It R _ _ _ F0 EF) as [F1 F2]. split; [exact F1|]. intros e O. destruct r'; cbn in O; try discriminate. injection O as ->. exact F2.
    - injection E as <- _ <-. split; [exact F0|]. intros e1 X. injection X as <-. rewrite R. exact I. }
  destruct K as [K1 K2].
  assert (G : good (with_macros mv (with_calc (Some (mkCalculator mc (cl_kin c) cl)) p))).
  { split; [exact Q|]. split; [exact L|]. eexists. split; [reflexivity|]. split; [reflexivity|exact K1]. }
  destruct r as [e|]; [injection H as <- <-; split; [exact G|]; apply answered_caught; auto|].
  destruct zero; injection H as <- <-; (split; [exact G|]); [|exact I].
  destruct (axis_verifier _ _ _) eqn:A; [exact I|]. apply answered_caught. eapply axis_reported; eauto.
Qed.

Lemma calm_settings t b : Forall (word_read t) b -> calm (settings_step b).
Proof.
  intros W p p' o G H. pose proof G as (Q & L & c & C & M & F). unfold settings_step in H. rewrite C in H.
  destruct (range_verifier _ _ b) eqn:R; [|injection H as <- <-; split; [exact G|]; apply answered_caught; eapply range_reported; eauto].
  destruct (rotation_verifier _ _ b) as [st [e|]] eqn:V; injection H as <- <-; (split; [exact G|]); [|exact I].
  apply answered_caught. eapply rotation_reported; eauto.
Qed.

Lemma calm_system t b line : Forall (word_read t) b -> calm (system_step line b).
Proof.
  intros W p p' o G H. unfold system_step in H. destruct (system_assign _ _ b) as [mv [e|]] eqn:V; injection H as <- <-; (split; [exact G|]); [|exact I].
  apply answered_caught. eapply system_reported; eauto.
Qed.

Lemma calm_later t b st line : In t lines -> Forall (word_read t) b -> calm (later_steps atan log cabs stale cf st line b).
Proof.
  intros It W. unfold later_steps. repeat apply calm_then.
  - eapply calm_system; eauto.
  - apply calm_on. eapply calm_settings; eauto.
  - apply calm_on. apply calm_check. intros p e. eapply groups_reported; eauto.
  - apply calm_on. apply calm_check. intros p e. eapply same_reported; eauto.
  - apply calm_on. eapply calm_path; eauto.
  - eapply calm_select; eauto.
Qed.

Lemma symbols_metric w : In w (decimal_symbols (metric (cf_grammar cf)) (cf_ops cf)) \/ In w (assignable_symbols (metric (cf_grammar cf))) ->
  In w (map fst (metric (cf_grammar cf))) \/ In w (cf_ops cf).
Proof.
  unfold decimal_symbols, assignable_symbols. intros [H|H]; [apply in_app_iff in H as [H|H]|].
  - left. apply in_map_iff in H as (x & <- & H). apply filter_In in H as [H _]. apply in_map. exact H.
  - right. apply filter_In in H as [H _]. exact H.
  - left. apply in_map_iff in H as (x & <- & H). apply filter_In in H as [H _]. apply in_map. exact H.
Qed.

Definition settled (a : answer) : Prop := exists r m, a = Answer r m.

Lemma settled_caught e : reported e -> settled (caught e). Proof. apply caught_reported. Qed.

Lemma settled_answered a : answered (Some a) -> settled a.
Proof. destruct a; [unfold settled; eauto|contradiction]. Qed.

Lemma line_parsed st line t p p' v a : In t lines -> good p -> parse lit libm atan log cabs stale cf st line t p = (p', v, a) ->
  good p' /\ settled a.
Proof.
  intros It G H. pose proof G as (Q & (wm & L & M) & K). unfold parse in H. rewrite L in H.
  destruct (grammar_parse _ t (pr_gs p)) as [[gs V] r] eqn:E. unfold grammar_parse in E.
  pose proof tables as [T1 T2 T3].
  destruct (phrase_read wm (decimal_symbols (metric (cf_grammar cf)) (cf_ops cf)) (assignable_symbols (metric (cf_grammar cf)))) with (6 := E) as (Q' & W & X); cbn [lg_map lg_decimal lg_assignable make_grammar].
  { intros w I. apply T1. now apply symbols_metric. }
  { intros w A I. apply symbols_metric in I. destruct (T2 w A I). destruct M as [->| ->]; assumption. }
  { intros w g A. apply (T3 w). destruct M as [->| ->]; auto. }
  { exact Q. }
  { apply unmarked_free. rewrite Forall_forall in plain. auto. }
  assert (G1 : good (with_gs gs p)) by (split; [exact Q'|]; split; [exists wm; split; [exact L|exact M]|exact K]).
  assert (ST : forall ret, (let '(p1, a1) := steps lit libm atan log cabs stale cf st line V ret (with_gs gs p) in (p1, V, a1)) = (p', v, a) -> good p' /\ settled a).
  { intros ret S. clear H. destruct (steps _ _ _ _ _ _ _ _ _ _ _ _) as [p1 a1] eqn:S1. injection S as <- <- <-. unfold steps in S1.
    destruct (unique_code _ V) eqn:U; [|injection S1 as <- <-; split; [exact G1|]; apply settled_caught; eapply unique_reported; eauto].
    destruct (negb _); [injection S1 as <- <-; split; [exact G1|]; unfold settled; eauto|].
    pose proof (read_plain _ _ W) as P. unfold macro_step in S1. rewrite (plain_no_assignment lit libm _ line _ P) in S1.
    unfold macro_steps in S1. rewrite (plain_unmodified (cf_ops cf) _ line _ P) in S1.
    destruct (later_steps _ _ _ _ _ _ _ _ _) as [q o] eqn:LS. destruct (calm_later t V st line It W _ _ _ G1 LS) as [GQ AQ].
    destruct o as [x|]; injection S1 as <- <-; (split; [exact GQ|]); [now apply settled_answered|unfold settled; eauto]. }
  destruct r as [| |rest|e]; [now apply (ST true)|now apply (ST false)| |].
  - injection H as <- <- <-. split; [exact G1|]. unfold settled, expectation. eauto.
  - injection H as <- <- <-. split; [exact G1|]. apply settled_caught. rewrite (X e eq_refl). exact I.
Qed.
End Lines.

(** ** A document *)

Lemma trimmed_contains s t c : trimmed s t -> contains (String c "") t = true -> contains (String c "") s = true.
Proof. intros [(b & -> & _) _] C. now rewrite contains_app_char, C. Qed.

Lemma trimmed_code s t n : trimmed s t -> g_code t n -> g_code s n.
Proof.
  intros [(w & -> & B) _] (a & g & ds & b & -> & Gg & D & N). exists a, g, ds, (b ++ w). split; [now rewrite !string_app_assoc|].
  split; [exact Gg|]. split; [exact D|]. intros c r E. destruct b as [|c' b]; [|injection E as -> _; now apply (N c b)].
  cbn in E. subst w. cbn in B. apply andb_true_iff in B as [B _]. destruct c as [[] [] [] [] [] [] [] []]; try reflexivity; discriminate.
Qed.

Lemma trimmed_unmarked s t : trimmed s t -> unmarked s -> unmarked t.
Proof.
  intros T (A & B & C). repeat split; match goal with |- ?x = false => destruct x eqn:E; [|reflexivity] end; apply (trimmed_contains s) in E; auto; congruence.
Qed.

Lemma trimmed_harmless start ex segs ls : Forall2 trimmed segs ls -> harmless start ex segs -> harmless start ex ls.
Proof.
  intros F [A B C D].
  assert (S : forall l, In l ls -> exists s, In s segs /\ trimmed s l).
  { clear - F. induction F as [|s l segs ls T F IH]; intros x H; [destruct H|]. destruct H as [<-|H]; [exists s; split; [now left|exact T]|].
    destruct (IH x H) as (y & Y1 & Y2). exists y. split; [now right|exact Y2]. }
  assert (FO : forall n, in_force start ls n -> in_force start segs n).
  { intros n [->|(l & I & G)]; [now left|]. right. destruct (S l I) as (s & Is & T). exists s. split; [exact Is|]. eapply trimmed_code; eauto. }
  constructor.
  - intros n H. apply A. auto.
  - intros (n & H & I) l Il. destruct (S l Il) as (s & Is & T). destruct (contains "K" l) eqn:E; [|reflexivity]. rewrite <- (B (ex_intro _ n (conj (FO n H) I)) s Is).
    symmetry. eapply trimmed_contains; eauto.
  - intros H l Il. destruct (S l Il) as (s & Is & T). assert (H' : in_force start segs 2 \/ in_force start segs 3) by (destruct H; auto). specialize (C H' s Is).
    match goal with |- ?x = false => destruct x eqn:E; [|reflexivity] end. rewrite <- C. symmetry.
    repeat rewrite andb_true_iff in E. repeat rewrite orb_true_iff in E. repeat rewrite andb_true_iff in E.
    repeat rewrite andb_true_iff. repeat rewrite orb_true_iff. repeat rewrite andb_true_iff.
    pose proof (trimmed_contains s l) as K. intuition (auto using K).
  - intros (l & Il & G). destruct (S l Il) as (s & Is & T). apply D. exists s. split; [exact Is|]. eapply trimmed_code; eauto.
Qed.

(** The summary of path and time fails only on numbers it cannot write. *)
Definition unwritable (e : exn) : Prop := e = EUB "double to int64 out of range" \/ e = EUB "read behind the snprintf buffer".

Lemma summary_fails pr tr line a e : doc_summary pr tr line a = Exc e -> unwritable e.
Proof.
  assert (T : forall x e, format_time x = Exc e -> unwritable e).
  { intros x e0. unfold format_time. destruct (d_trunc _); [|intro H; inv H; now left]. destruct (_ && _); [destruct (0 <? _); discriminate|]. intro H; inv H; now left. }
  assert (S : forall r x e, snprintf_append r x = Exc e -> unwritable e).
  { intros r x e0. unfold snprintf_append. destruct (_ <? _)%nat; [discriminate|]. intro H; inv H; now right. }
  unfold doc_summary. destruct (dneqb _ _); [|discriminate]. unfold bind at 1. destruct (format_path_time _ _ _ _ _ _) as [s|e1] eqn:E; [discriminate|].
  intro H. injection H as ->. revert E. unfold format_path_time, bind.
  repeat match goal with
    | |- context [if ?c then _ else _] => destruct c
    | |- context [match format_time ?x with _ => _ end] => let E := fresh in destruct (format_time x) eqn:E; [|intro X; injection X as ->; eauto]
    | |- context [match snprintf_append ?r ?x with _ => _ end] => let E := fresh in destruct (snprintf_append r x) eqn:E; [|intro X; injection X as ->; eauto]
    end; try discriminate; eauto.
Qed.

Lemma loop_ends p pt (inv : lp_state p -> Prop) ls :
  (forall n l st, In l ls -> inv st -> exists r m st', lp_parse p st n l = Ok (r, m, st') /\ inv st') ->
  forall n st a, inv st -> match doc_loop p pt n ls st a with Ok (_, st') => inv st' | Exc e => pt = true /\ unwritable e end.
Proof.
  induction ls as [|l ls IH]; intros K n st a I; [exact I|]. cbn [doc_loop].
  assert (K' : forall n l st, In l ls -> inv st -> exists r m st', lp_parse p st n l = Ok (r, m, st') /\ inv st') by (intros; apply K; [now right|assumption]).
  destruct l as [|c l]; [now apply IH|]. destruct (K (n + 1) (String c l) st (or_introl eq_refl) I) as (r & m & st' & E & I'). rewrite E. cbn [bind].
  destruct pt; cbn [bind]; [|now apply IH].
  match goal with |- context [doc_summary ?x ?y ?z ?u] => destruct (doc_summary x y z u) eqn:D end; cbn [bind]; [now apply IH|].
  split; [reflexivity|]. eapply summary_fails; eauto.
Qed.

Section Document.
Variable lit : string -> dbl.
Variable libm : string -> dbl -> dbl.
Variables atan log cabs : dbl -> dbl.
Variable stale : Z.
Variable range_what : string.

Theorem document_ends n code lines fg ops p :
  nc_grammar n = Some (fg, ops) -> tables_complete fg ops ->
  let s := sr_settings (nc_settings n) in
  Forall address (mc_axes (machine_of s)) ->
  document_parser n = Ok p -> segments code lines -> Forall unmarked lines ->
  harmless (cd_motion (mc_cnc (machine_of s))) (map fst (mc_exchange_point (machine_of s))) lines ->
  match run_document lit libm atan log cabs stale range_what code n with
  | Ok _ => True
  | Exc e => nc_path_time n = true /\ unwritable e
  end.
Proof.
  intros NG TC s AX DP SG UN HL. unfold run_document. rewrite DP. cbn [bind]. unfold parse_document.
  unfold document_parser in DP. fold s in DP. set (mc := machine_of s) in *. unfold set_ncsettings in DP.
  destruct (point_values (se_zero s) (mc_exchange_point mc)) as [ex|] eqn:PE; [|discriminate].
  destruct (point_values (se_zero s) (mc_base_point mc)) as [base|] eqn:PB; [|discriminate].
  injection DP as <-. destruct (lines_spec code) as (segs & SG' & F). rewrite (segments_unique _ _ SG'), <- (segments_unique _ _ SG) in F. clear SG'.
  set (ls := split_lines code) in *. set (mc' := with_points ex base mc).
  assert (HL' : harmless (cd_motion (mc_cnc mc')) (map fst (mc_exchange_point mc')) ls).
  { apply (trimmed_harmless _ _ lines); [exact F|]. cbn [mc' with_points mc_cnc mc_exchange_point]. destruct (values_spec _ _ _ PE) as [-> _]. exact HL. }
  assert (UN' : Forall unmarked ls).
  { clear - F UN. induction F as [|x y xs ys T F IH]; [constructor|]. apply Forall_cons_iff in UN as [U1 U2]. constructor; [|auto]. eapply trimmed_unmarked; eauto. }
  match goal with |- context [doc_loop _ _ _ _ ?st0 _] => set (st := st0) end.
  assert (TC' : tables_complete (cf_grammar (config_of n)) (cf_ops (config_of n))) by (unfold config_of; rewrite NG; exact TC).
  assert (G : good (config_of n) mc' ls st).
  { split; [reflexivity|]. split.
    - eexists. split; [reflexivity|]. unfold active_map. cbn [pr_metric]. destruct (negb _); auto.
    - eexists. split; [reflexivity|]. split; [reflexivity|]. cbn [cl_calc]. unfold calc_new. apply fit_copy. split; [reflexivity|]. right. right. now left. }
  pose proof (loop_ends (fanuc_line_parser lit libm atan log cabs stale range_what (config_of n)) (nc_path_time n) (good (config_of n) mc' ls) ls) as K.
  specialize (K (fun k l q I Gq => ltac:(idtac; 
    cbn [lp_parse fanuc_line_parser]; destruct (parse lit libm atan log cabs stale (config_of n) server_settings k l q) as [[q' v] a] eqn:E;
    destruct (line_parsed lit libm atan log cabs stale (config_of n) mc' ls TC' AX UN' HL' server_settings k l q q' v a I Gq E) as [G' (r & m & ->)];
    exists r, (message_text range_what English m), q'; split; [reflexivity|exact G']))).
  specialize (K 0 st doc_init G). destruct (doc_loop _ _ _ _ _ _) as [[a st']|e]; cbn [bind]; [exact I|exact K].
Qed.
End Document.
