(** The verdict and the message of [parse]. *)
From Verif Require Import Model.Base Model.Attr Model.Double Model.Macro Model.Grammar Model.MacroAssign Model.MacroEval Model.Verifiers Model.PathCalc Model.Parser.
From Verif Require Import Spec.Text Spec.GrammarSpec Spec.ParserSpec.
From Verif Require Import Proofs.Tactics Proofs.TextProofs Proofs.GrammarLex Proofs.GrammarTail Proofs.GrammarProofs Proofs.PrintProofs Proofs.StatusProofs Proofs.ParserGrammar.

(** ** Lines without "#" *)

Definition no_hash (c : ascii) : bool := negb (Ascii.eqb c "#").

Definition plain_attr (a : attr) : Prop := match a with ADec d => d_macro d = None /\ d_word d <> "#"%string | _ => True end.

Definition rest_plain (x : gstate * rule_result) : Prop :=
  match snd x with ROk a r => plain_attr a /\ all_chars no_hash r = true | _ => True end.

Lemma orelse_plain x f : rest_plain x -> (forall s, rest_plain (f s)) -> rest_plain (orelse x f).
Proof. destruct x as [s [| | |]]; cbn; auto. Qed.

Lemma chars_app p a b : all_chars p (a ++ b) = true -> all_chars p a = true /\ all_chars p b = true.
Proof. induction a as [|c a IH]; cbn; [auto|]. intro H. apply andb_true_iff in H as [H1 H2]. apply IH in H2 as [H2 H3]. now rewrite H1, H2. Qed.

Lemma checked_plain wm wo w asgn b d r s : number_tail wo w asgn b = (d, r) -> w <> "#"%string -> all_chars no_hash b = true ->
  rest_plain (checked wm d r s).
Proof.
  intros NT NW A. destruct (number_tail_chars no_hash _ _ _ _ _ _ NT A) as [A1 A2].
  apply number_tail_spec in NT as (W & _ & (_ & _ & _ & M & _) & _).
  unfold checked. destruct (verify wm d s) as [s' [| |]]; cbn; auto. split; [|exact A2].
  split; [|congruence]. destruct M as [M|M]; [exact M|]. exfalso.
  apply tail_parts in A1 as (_ & A1 & _). rewrite M in A1. discriminate.
Qed.

Lemma sym_plain l t w : sym_match l t = Some w -> all_chars no_hash t = true -> w <> "#"%string /\ all_chars no_hash (drop (String.length w) t) = true.
Proof.
  intros M A. apply sym_match_some in M as (_ & P & _). split; [|now apply chars_drop].
  apply prefix_iff in P as (b & ->). apply chars_app in A as [A _]. intros ->. discriminate.
Qed.

Lemma attribute_plain wm dec asg t s : all_chars no_hash t = true -> rest_plain (line_attribute wm dec asg t s).
Proof.
  intro A. pose proof (chars_skip no_hash t A) as AS. unfold line_attribute.
  apply orelse_plain.
  { unfold rest_plain. cbn. unfold char_rule. destruct t as [|c t]; [exact I|]. destruct c as [[] [] [] [] [] [] [] []]; try exact I.
    cbn in A. destruct (chars_span no_hash is_blank t A) as [_ B]. destruct (span is_blank t) as [[|? ?] r]; cbn in *; auto. }
  intro s1. apply orelse_plain.
  { unfold decimal_rule. destruct (assign_ahead asg (skip t)); [exact I|]. destruct (sym_match dec (skip t)) as [w|] eqn:M; [|exact I].
    destruct (sym_plain _ _ _ M AS) as [NW AD]. destruct (number_tail true w None (drop (String.length w) (skip t))) as [d r] eqn:NT. eapply checked_plain; eauto. }
  assert (SL : forall o s, rest_plain (slash_rule wm o t s)).
  { intros o s2. unfold slash_rule. destruct (skip t) as [|c b]; [exact I|].
    destruct (ascii_dec c "/") as [->|N].
    2:{ destruct c as [[] [] [] [] [] [] [] []]; try exact I. now contradiction N. }
    cbn in AS. assert (K : rest_plain (let '(d, r') := number_tail o "/" None b in checked wm d r' s2)).
    { destruct (number_tail o "/" None b) as [d r] eqn:NT. eapply checked_plain; eauto. discriminate. }
    destruct (skip b) as [|x y]; [exact K|]. destruct x as [[] [] [] [] [] [] [] []]; try exact K. exact I. }
  intro s2. apply orelse_plain; [apply SL|]. intro s3. apply orelse_plain.
  { unfold assignable_rule. destruct (sym_match asg (skip t)) as [w|] eqn:M; [|exact I]. destruct (sym_plain _ _ _ M AS) as [NW AD].
    pose proof (chars_skip no_hash _ AD) as AD2. destruct (skip (drop (String.length w) (skip t))) as [|q z]; [exact I|].
    destruct (ascii_dec q "=") as [->|N].
    2:{ destruct q as [[] [] [] [] [] [] [] []]; try exact I. now contradiction N. }
    cbn in AD2. destruct (number_tail true w (Some "="%char) z) as [d r] eqn:NT. eapply checked_plain; eauto. }
  intro s4. apply orelse_plain; [apply SL|]. intro s5. apply orelse_plain.
  { unfold rest_plain. cbn. unfold comment_rule. destruct (skip t) as [|c b]; [exact I|]. destruct c as [[] [] [] [] [] [] [] []]; try exact I.
    cbn in AS. destruct (chars_span no_hash (fun c => negb (Ascii.eqb c ")")) b AS) as [_ B].
    destruct (span (fun c => negb (Ascii.eqb c ")")) b) as [v [|x r]]; [exact I|]. cbn in *. apply andb_true_iff in B as [_ B]. auto. }
  intro s6. apply orelse_plain.
  { unfold rest_plain. cbn. unfold start_program_rule. destruct (skip t) as [|c b]; [exact I|]. destruct c as [[] [] [] [] [] [] [] []]; try exact I.
    destruct (skip b); [cbn; auto|exact I]. }
  intro s7. unfold rest_plain. cbn. unfold program_name_rule. destruct (skip t) as [|c b]; [exact I|]. destruct c as [[] [] [] [] [] [] [] []]; try exact I.
  cbn in AS. destruct (chars_span no_hash is_name_char b AS) as [_ B]. destruct (span is_name_char b) as [[|x y] r]; [exact I|]. cbn in *. split; [exact I|].
  apply chars_span. apply chars_span. exact B.
Qed.

Lemma attributes_plain wm dec asg f : forall t v s s' V r, all_chars no_hash t = true -> Forall plain_attr v ->
  line_attributes wm dec asg f t v s = (s', V, r) -> Forall plain_attr V.
Proof.
  induction f as [|f IH]; intros t v s s' V r A F H; cbn [line_attributes] in H; [inv H; exact F|].
  pose proof (attribute_plain wm dec asg t s A) as P. destruct (line_attribute wm dec asg t s) as [x R]. destruct R as [|a r'| |]; cbn in P.
  - destruct v as [|a0 v]; [inv H; constructor|]. destruct (skip t); inv H; exact F.
  - destruct P as [P1 P2]. eapply IH; [exact P2| |exact H]. rewrite Forall_app. auto.
  - inv H. exact F.
  - inv H. exact F.
Qed.

Lemma no_macro_chars t : no_macro t -> all_chars no_hash t = true.
Proof. apply contains_char. Qed.

Lemma parse_plain lg t s s' v r : no_macro t -> grammar_parse lg t s = (s', v, r) -> Forall plain_attr v.
Proof. intros N H. unfold grammar_parse, phrase_parse in H. eapply attributes_plain; [apply no_macro_chars; exact N|constructor|exact H]. Qed.

Lemma plain_unmodified ops mv line b : Forall plain_attr b -> evaluated_code ops mv line b = Ok ""%string.
Proof.
  intro F. unfold evaluated_code.
  assert (G : forall s, ec_modified s = false -> exists s', foldM (ec_step ops mv line) s b = Ok s' /\ ec_modified s' = false).
  { induction F as [|a b P F IH]; intros s E; cbn [foldM]; [eauto|].
    destruct a as [d| |]; cbn [ec_step]; [|apply IH; exact E|apply IH; exact E].
    destruct P as [P _]. unfold ec_visit. rewrite P. cbn [is_some]. rewrite andb_false_r. apply IH. exact E. }
  destruct (G ec_init eq_refl) as (s' & E & M). rewrite E. cbn. now rewrite M.
Qed.

Lemma plain_no_assignment lit libm mv line b : Forall plain_attr b -> macro_evaluate lit libm mv line b = Ok (mv, None).
Proof.
  intro F. unfold macro_evaluate. replace (foldM ma_step ma_init b) with (Ok ma_init); [reflexivity|].
  symmetry. induction F as [|a b P F IH]; [reflexivity|]. cbn [foldM]. destruct a as [d| |]; cbn [ma_step]; try exact IH.
  destruct P as [_ P]. unfold ma_visit. destruct (String.eqb (d_word d) "#") eqn:E; [apply String.eqb_eq in E; contradiction|]. exact IH.
Qed.

(** ** Steps *)

Definition rejecting (a : answer) : Prop := match a with Answer r m => r = false /\ has_message m = true | Escapes _ => True end.

Definition rejects (s : step) : Prop := forall p p' a, s p = (p', Some a) -> rejecting a.

Lemma caught_rejecting e : rejecting (caught e).
Proof. destruct e; cbn; auto. Qed.

Lemma rejects_andthen a b : rejects a -> rejects b -> rejects (andthen a b).
Proof. intros A B p p' x. unfold andthen. destruct (a p) as [q [y|]] eqn:E; intro H; [inv H; eapply A; eauto|eapply B; eauto]. Qed.

Lemma rejects_on b s : rejects s -> rejects (on b s).
Proof. destruct b; cbn; [auto|]. intros _ p p' a H. discriminate. Qed.

Lemma rejects_check {A} (r : parser -> res A) : rejects (check r).
Proof. intros p p' a. unfold check. destruct (r p); intro H; inv H. apply caught_rejecting. Qed.

Lemma rejects_select b : rejects (select_grammar b).
Proof.
  induction b as [|x b IH]; intros p p' a; cbn [select_grammar]; [discriminate|]. destruct (selector_step (pr_metric p) x).
  - apply IH.
  - intro H. inv H. apply caught_rejecting.
Qed.

Section Run.
Variable lit : string -> dbl.
Variable libm : string -> dbl -> dbl.
Variables atan log cabs : dbl -> dbl.
Variable stale : Z.
Variable cf : config.

Lemma rejects_later st line b : rejects (later_steps atan log cabs stale cf st line b).
Proof.
  unfold later_steps. apply rejects_andthen; [|apply rejects_andthen; [|apply rejects_andthen; [|apply rejects_andthen; [|apply rejects_andthen]]]].
  - intros p p' a. unfold system_step. destruct (system_assign (pr_macros p) line b) as [mv [e|]]; intro H; inv H. apply caught_rejecting.
  - apply rejects_on. intros p p' a. unfold settings_step. destruct (pr_calc p) as [c|]; [|intro H; inv H; exact I].
    destruct (range_verifier (mc_type (cl_machine c)) (cl_kin c) b).
    + destruct (rotation_verifier (cd_operator_rotation (mc_cnc (cl_machine c))) (pr_rot p) b) as [r [e|]]; intro H; inv H. apply caught_rejecting.
    + intro H. inv H. apply caught_rejecting.
  - apply rejects_on, rejects_check.
  - apply rejects_on, rejects_check.
  - apply rejects_on. intros p p' a. unfold path_step. destruct (pr_calc p) as [c|]; [|discriminate].
    destruct (evaluate atan log cabs stale (cl_machine c) (negb (pr_metric p)) line b (cl_calc c) (pr_macros p)) as [[cl mv] [e|]].
    + intro H. inv H. apply caught_rejecting.
    + destruct (ps_zero_point st); [|discriminate]. destruct (axis_verifier (cl_kin c) (pr_zp p) (c_range cl)); intro H; inv H. apply caught_rejecting.
  - apply rejects_select.
Qed.

Let PA := parse lit libm atan log cabs stale cf.

Section Line.
Variable lg : line_grammar.
Hypothesis TO : tables_ok (lg_map lg) (lg_decimal lg) (lg_assignable lg).

(** A line accepted with a message was read again with its macros replaced. *)
Lemma accepted_message st line data p p' v m : pr_grammar p = Some lg ->
  PA st line data p = (p', v, Answer true m) -> has_message m = true ->
  ps_evaluate_macro st = true /\ exists mv code gs gs' v2 rest ms, m = MExpect (text_before code rest) rest ms /\ evaluated_code (cf_ops cf) mv line v = Ok code /\ code <> ""%string /\
    phrase_parse (lg_map lg) (lg_decimal lg) (lg_assignable lg) code gs = (gs', v2, PThrow rest).
Proof.
  intros G H M. unfold PA, parse in H. rewrite G in H.
  destruct (grammar_parse lg data (pr_gs p)) as [[gs v0] r] eqn:E.
  assert (K : forall ret, ret = true \/ ret = false -> (ret = true -> r = PTrue) -> (let '(p'0, a) := steps lit libm atan log cabs stale cf st line v0 ret (with_gs gs p) in (p'0, v0, a)) = (p', v, Answer true m) ->
     ps_evaluate_macro st = true /\ exists mv code gs gs' v2 rest ms, m = MExpect (text_before code rest) rest ms /\ evaluated_code (cf_ops cf) mv line v = Ok code /\ code <> ""%string /\
    phrase_parse (lg_map lg) (lg_decimal lg) (lg_assignable lg) code gs = (gs', v2, PThrow rest)).
  { intros ret _ RT. unfold steps. destruct (unique_code (active_map cf (with_gs gs p)) v0) as [[]|e].
    2:{ intro X. injection X as _ _ X. pose proof (caught_rejecting e) as R. rewrite X in R. destruct R as [R _]. discriminate R. }
    destruct (ps_evaluate_macro st); cbn [negb].
    2:{ intro X. injection X as X1 X2 X3 X4. specialize (RT X3). subst ret m. subst r. apply (parse_silent _ _ _ _ _ TO) in E as [E _]. cbn in M. rewrite E in M. discriminate M. }
    intro X. split; [reflexivity|]. revert X.
    destruct (macro_step lit libm line v0 (with_gs gs p)) as [q [a|]] eqn:MS.
    { intro X. injection X as _ _ ->. unfold macro_step in MS. destruct (macro_evaluate lit libm (pr_macros (with_gs gs p)) line v0) as [[mv [e|]]|e].
      - discriminate.
      - discriminate.
      - injection MS as _ MS. pose proof (caught_rejecting e) as R. rewrite MS in R. destruct R as [R _]. discriminate R. }
    assert (Gq : pr_grammar q = Some lg).
    { unfold macro_step in MS. destruct (macro_evaluate lit libm (pr_macros (with_gs gs p)) line v0) as [[mv [e|]]|e]; try discriminate MS. injection MS as <-. exact G. }
    unfold macro_steps. destruct (evaluated_code (cf_ops cf) (pr_macros q) line v0) as [code|e] eqn:EC.
    2:{ intro X. injection X as _ _ X. pose proof (caught_rejecting e) as R. rewrite X in R. destruct R as [R _]. discriminate R. }
    assert (FIN : forall re q0 b (x : parser * option answer), (forall a, snd x = Some a -> rejecting a) ->
      (let '(p'0, a) := match x with (p'1, None) => (p'1, Answer re MNone) | (p'1, Some a) => (p'1, a) end in (p'0, b, a)) = (q0, v, Answer true m) -> False).
    { intros re q0 b [x [a|]] R X; [|injection X as _ _ _ <-; discriminate M]. injection X as _ _ ->. destruct (R _ eq_refl) as [C _]. discriminate C. }
    destruct code as [|c0 code0].
    { intro X. exfalso. refine (FIN _ _ _ _ _ X). intros a Ha. destruct (later_steps atan log cabs stale cf st line v0 q) as [q1 o] eqn:LS. cbn in Ha. subst o. eapply rejects_later; exact LS. }
    rewrite Gq. destruct (phrase_parse (lg_map lg) (lg_decimal lg) (lg_assignable lg) (String c0 code0) (pr_gs q)) as [[gs2 v2] r2] eqn:PP.
    destruct r2 as [| |rest|e].
    - intro X. exfalso. refine (FIN _ _ _ _ _ X). intros a Ha. destruct (andthen (select_grammar v2) (later_steps atan log cabs stale cf st line v2) (with_gs gs2 q)) as [q1 o] eqn:LS. cbn in Ha. subst o.
      eapply (rejects_andthen _ _ (rejects_select v2) (rejects_later st line v2)); exact LS.
    - intro X. exfalso. refine (FIN _ _ _ _ _ X). intros a Ha. destruct (andthen (select_grammar v2) (later_steps atan log cabs stale cf st line v2) (with_gs gs2 q)) as [q1 o] eqn:LS. cbn in Ha. subst o.
      eapply (rejects_andthen _ _ (rejects_select v2) (rejects_later st line v2)); exact LS.
    - intro X. injection X as _ <- _ <-. repeat eexists; eauto. discriminate.
    - intro X. injection X as _ _ X. pose proof (caught_rejecting e) as R. rewrite X in R. destruct R as [R _]. discriminate R. }
  destruct r as [| |rest|e].
  - apply (K true); auto.
  - apply (K false); auto. discriminate.
  - discriminate.
  - injection H as _ _ X. pose proof (caught_rejecting e) as R. rewrite X in R. destruct R as [R _]. discriminate R.
Qed.

Lemma accepted_without_macro st line data p p' v m : pr_grammar p = Some lg -> no_macro data ->
  PA st line data p = (p', v, Answer true m) -> has_message m = false.
Proof.
  intros G N H. destruct (has_message m) eqn:M; [|reflexivity]. exfalso.
  destruct (accepted_message _ _ _ _ _ _ _ G H M) as (_ & mv & code & gs & gs' & v2 & rest & ms & _ & E & NE & _).
  assert (P : Forall plain_attr v).
  { unfold PA, parse in H. rewrite G in H. destruct (grammar_parse lg data (pr_gs p)) as [[gs0 v0] r] eqn:E0. apply parse_plain in E0; [|exact N].
    destruct r; [| |inv H; exact E0|inv H; exact E0];
    destruct (steps lit libm atan log cabs stale cf st line v0 _ (with_gs gs0 p)) as [q a]; injection H as _ <- _; exact E0. }
  rewrite (plain_unmodified (cf_ops cf) mv line v P) in E. inv E. now apply NE.
Qed.

Definition accepts (r : parse_result) : bool := match r with PTrue => true | _ => false end.

(** What happens to a line without macros. *)
Lemma plain_line st line data p p' v a : pr_grammar p = Some lg -> no_macro data -> PA st line data p = (p', v, a) ->
  exists gs r, grammar_parse lg data (pr_gs p) = (gs, v, r) /\ Forall plain_attr v /\
  ((p' = with_gs gs p /\ exists rest ms, a = Answer false (MExpect (text_before data rest) rest ms) /\ r = PThrow rest) \/
   (p' = with_gs gs p /\ exists e, a = caught e) \/
   (p' = with_gs gs p /\ ps_evaluate_macro st = false /\ (r = PTrue \/ r = PFalse) /\ a = Answer (accepts r) (MGrammar (gs_message gs))) \/
   (ps_evaluate_macro st = true /\ (r = PTrue \/ r = PFalse) /\ exists o, later_steps atan log cabs stale cf st line v (with_gs gs p) = (p', o) /\
      a = match o with None => Answer (accepts r) MNone | Some x => x end)).
Proof.
  intros G N H. unfold PA, parse in H. rewrite G in H. destruct (grammar_parse lg data (pr_gs p)) as [[gs v0] r] eqn:E.
  pose proof (parse_plain _ _ _ _ _ _ N E) as P.
  assert (K : forall ret, ret = accepts r -> (r = PTrue \/ r = PFalse) -> (let '(p'0, a) := steps lit libm atan log cabs stale cf st line v0 ret (with_gs gs p) in (p'0, v0, a)) = (p', v, a) ->
    exists gs0 r0, (gs, v0, r) = (gs0, v, r0) /\ Forall plain_attr v /\
  ((p' = with_gs gs0 p /\ exists rest ms, a = Answer false (MExpect (text_before data rest) rest ms) /\ r0 = PThrow rest) \/
   (p' = with_gs gs0 p /\ exists e, a = caught e) \/
   (p' = with_gs gs0 p /\ ps_evaluate_macro st = false /\ (r0 = PTrue \/ r0 = PFalse) /\ a = Answer (accepts r0) (MGrammar (gs_message gs0))) \/
   (ps_evaluate_macro st = true /\ (r0 = PTrue \/ r0 = PFalse) /\ exists o, later_steps atan log cabs stale cf st line v (with_gs gs0 p) = (p', o) /\
      a = match o with None => Answer (accepts r0) MNone | Some x => x end))).
  { intros ret -> RR. unfold steps. destruct (unique_code (active_map cf (with_gs gs p)) v0) as [[]|e].
    2:{ intro X. injection X as <- <- <-. exists gs, r. split; [reflexivity|]. split; [exact P|]. right; left. eauto. }
    destruct (ps_evaluate_macro st) eqn:EM; cbn [negb].
    2:{ intro X. injection X as <- <- <-. exists gs, r. split; [reflexivity|]. split; [exact P|]. right; right; left. auto. }
    unfold macro_step. rewrite (plain_no_assignment lit libm _ line _ P). unfold macro_steps.
    rewrite (plain_unmodified (cf_ops cf) _ line _ P).
    replace (with_macros (pr_macros (with_gs gs p)) (with_gs gs p)) with (with_gs gs p) by (destruct p; reflexivity).
    destruct (later_steps atan log cabs stale cf st line v0 (with_gs gs p)) as [q o] eqn:LS.
    intro X. exists gs, r. assert (v0 = v) as <- by (destruct o; injection X as _ <- _; reflexivity). split; [reflexivity|]. split; [exact P|]. right; right; right.
    split; [reflexivity|]. split; [exact RR|]. exists o. destruct o; injection X as <- <-; auto. }
  destruct r as [| |rest|e].
  - exact (K true eq_refl (or_introl eq_refl) H).
  - exact (K false eq_refl (or_intror eq_refl) H).
  - injection H as <- <- <-. exists gs, (PThrow rest). split; [reflexivity|]. split; [exact P|]. left. split; [reflexivity|]. eexists _, _. split; reflexivity.
  - injection H as <- <- <-. exists gs, (PExc e). split; [reflexivity|]. split; [exact P|]. right; left. eauto.
Qed.

Lemma nothing_read s' t s v : grammar_parse lg t s = (s', v, PFalse) -> v = [].
Proof.
  unfold grammar_parse, phrase_parse. generalize (S (String.length t)) as f. intro f. generalize (@nil attr) at 1 as v0. intro v0. revert t s' v v0. generalize (mkGS (gs_status s) []) as s0.
  intros s0 t s' v v0. revert s0 t s' v v0. induction f as [|f IH]; intros s0 t s' v v0 H; cbn [line_attributes] in H; [discriminate|].
  destruct (line_attribute (lg_map lg) (lg_decimal lg) (lg_assignable lg) t s0) as [x R]. destruct R as [|a r| |]; try discriminate.
  - destruct v0; [inv H; reflexivity|]. destruct (skip t); discriminate.
  - eapply IH; exact H.
Qed.

(** A rejected line of which something was read has a message. *)
Lemma rejected_message st line data p p' v m : pr_grammar p = Some lg -> no_macro data ->
  PA st line data p = (p', v, Answer false m) -> v <> [] -> has_message m = true.
Proof.
  intros G N H NV. destruct (plain_line _ _ _ _ _ _ _ G N H) as (gs & r & E & _ & [(_ & rest & ms & A & _)|[(_ & e & A)|[(_ & _ & R & A)|(_ & R & o & LS & A)]]]).
  - injection A as ->. reflexivity.
  - pose proof (caught_rejecting e) as C. rewrite <- A in C. apply C.
  - exfalso. destruct R as [-> | ->]; [discriminate A|]. apply NV. eapply nothing_read; eauto.
  - destruct o as [x|].
    + subst x. pose proof (rejects_later st line v _ _ _ LS) as [_ C]. exact C.
    + exfalso. destruct R as [-> | ->]; [discriminate A|]. apply NV. eapply nothing_read; eauto.
Qed.

End Line.
End Run.
