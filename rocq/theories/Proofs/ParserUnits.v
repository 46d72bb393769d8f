(** The unit system and the path calculation after a rejected line. *)
From Verif Require Import Model.Base Model.Attr Model.Double Model.Macro Model.Grammar Model.MacroAssign Model.MacroEval Model.Verifiers Model.PathCalc Model.Parser.
From Verif Require Import Spec.Text Spec.GrammarSpec Spec.SelectSpec Spec.ParserSpec.
From Verif Require Import Proofs.Tactics Proofs.GrammarTail Proofs.ParserProofs.

(** ** Every word read has been checked *)

Definition passed (wm : word_map) (a : attr) : Prop :=
  match a with ADec d => (exists s s', verify wm d s = (s', VTrue)) /\ exists wo, tail_ok wo d | _ => True end.

Definition rest_passed (wm : word_map) (x : gstate * rule_result) : Prop :=
  match snd x with ROk a _ => passed wm a | _ => True end.

Lemma orelse_passed wm x f : rest_passed wm x -> (forall s, rest_passed wm (f s)) -> rest_passed wm (orelse x f).
Proof. destruct x as [s [| | |]]; cbn; auto. Qed.

Lemma checked_passed wm wo w asgn b d r s : number_tail wo w asgn b = (d, r) -> rest_passed wm (checked wm d r s).
Proof.
  intro NT. apply number_tail_spec in NT as (_ & _ & OK & _).
  unfold checked, rest_passed. destruct (verify wm d s) as [s' [| |]] eqn:E; cbn; eauto.
Qed.

Lemma slash_passed wm o t s : rest_passed wm (slash_rule wm o t s).
Proof.
  unfold slash_rule. destruct (skip t) as [|c b]; [exact I|]. destruct c as [[] [] [] [] [] [] [] []]; try exact I.
  assert (K : rest_passed wm (let '(d, r') := number_tail o "/" None b in checked wm d r' s)).
  { destruct (number_tail o "/" None b) as [d r] eqn:NT. eapply checked_passed; exact NT. }
  destruct (skip b) as [|x y]; [exact K|]. destruct x as [[] [] [] [] [] [] [] []]; try exact K. exact I.
Qed.

Lemma attribute_passed wm dec asg t s : rest_passed wm (line_attribute wm dec asg t s).
Proof.
  unfold line_attribute. apply orelse_passed.
  { unfold rest_passed. cbn. unfold char_rule. destruct t as [|c t]; [exact I|]. destruct c as [[] [] [] [] [] [] [] []]; try exact I.
    destruct (span is_blank t) as [[|? ?] r]; cbn; auto. }
  intro s1. apply orelse_passed.
  { unfold decimal_rule. destruct (assign_ahead asg (skip t)); [exact I|]. destruct (sym_match dec (skip t)) as [w|]; [|exact I].
    destruct (number_tail true w None (drop (String.length w) (skip t))) as [d r] eqn:NT. eapply checked_passed; exact NT. }
  intro s2. apply orelse_passed; [apply slash_passed|]. intro s3. apply orelse_passed.
  { unfold assignable_rule. destruct (sym_match asg (skip t)) as [w|]; [|exact I].
    destruct (skip (drop (String.length w) (skip t))) as [|q z]; [exact I|]. destruct q as [[] [] [] [] [] [] [] []]; try exact I.
    destruct (number_tail true w (Some "="%char) z) as [d r] eqn:NT. eapply checked_passed; exact NT. }
  intro s4. apply orelse_passed; [apply slash_passed|]. intro s5. apply orelse_passed.
  { unfold rest_passed. cbn. unfold comment_rule. destruct (skip t) as [|c b]; [exact I|]. destruct c as [[] [] [] [] [] [] [] []]; try exact I.
    destruct (span (fun c => negb (Ascii.eqb c ")")) b) as [v [|x r]]; exact I. }
  intro s6. apply orelse_passed.
  { unfold rest_passed. cbn. unfold start_program_rule. destruct (skip t) as [|c b]; [exact I|]. destruct c as [[] [] [] [] [] [] [] []]; try exact I.
    destruct (skip b); exact I. }
  intro s7. unfold rest_passed. cbn. unfold program_name_rule. destruct (skip t) as [|c b]; [exact I|]. destruct c as [[] [] [] [] [] [] [] []]; try exact I.
  destruct (span is_name_char b) as [[|x y] r]; exact I.
Qed.

Lemma attributes_passed wm dec asg f : forall t v s s' V r, Forall (passed wm) v ->
  line_attributes wm dec asg f t v s = (s', V, r) -> Forall (passed wm) V.
Proof.
  induction f as [|f IH]; intros t v s s' V r F H; cbn [line_attributes] in H; [inv H; exact F|].
  pose proof (attribute_passed wm dec asg t s) as P. destruct (line_attribute wm dec asg t s) as [x R]. destruct R as [|a r'| |]; cbn in P.
  - destruct v as [|a0 v]; [inv H; constructor|]. destruct (skip t); inv H; exact F.
  - eapply IH; [|exact H]. rewrite Forall_app. auto.
  - inv H. exact F.
  - inv H. exact F.
Qed.

Lemma phrase_passed wm dec asg t s s' v r : phrase_parse wm dec asg t s = (s', v, r) -> Forall (passed wm) v.
Proof. apply attributes_passed. constructor. Qed.

Lemma parse_passed lg t s s' v r : grammar_parse lg t s = (s', v, r) -> Forall (passed (lg_map lg)) v.
Proof. apply phrase_passed. Qed.

(** A checked word of the grammar without a macro has a number that fits an int. *)
Lemma passed_number wm d v : passed wm (ADec d) -> d_macro d = None -> assoc (d_word d) wm <> None -> d_word d <> "/"%string ->
  d_value d = Some v -> exists n, stoi v = Ok n.
Proof.
  intros ((s & s' & V) & _) M A NS E. unfold verify in V. destruct (assoc (d_word d) wm) as [g|]; [|contradiction].
  cbn zeta in V. match type of V with (if ?b then _ else _) = _ => destruct b; [discriminate|] end. rewrite M in V.
  destruct (String.eqb (d_word d) "/") eqn:S; [apply String.eqb_eq in S; contradiction|]. cbn [andb] in V.
  unfold verify_value in V. rewrite E in V. destruct (stoi v) as [n|]; [eauto|discriminate].
Qed.

(** The integer part is made of digits. *)
Lemma passed_digits wm d v : passed wm (ADec d) -> d_value d = Some v -> exists n, denotes v n.
Proof.
  intros (_ & wo & (_ & _ & _ & _ & R & _)) E. rewrite E in R. destruct R as [N R]. exists (digits_val v). repeat split; auto.
Qed.

(** ** Steps that leave a member alone *)

Definition leaves {T} (f : parser -> T) (s : step) : Prop := forall p p' o, s p = (p', o) -> f p' = f p.

Lemma leaves_andthen {T} (f : parser -> T) a b : leaves f a -> leaves f b -> leaves f (andthen a b).
Proof.
  intros A B p p' o. unfold andthen. destruct (a p) as [q [x|]] eqn:E; intro H; [injection H as <- <-; eapply A; eauto|].
  rewrite (B _ _ _ H). eapply A; eauto.
Qed.

Lemma leaves_on {T} (f : parser -> T) b s : leaves f s -> leaves f (on b s).
Proof. destruct b; cbn; [auto|]. intros _ p p' o H. injection H as <- <-. reflexivity. Qed.

Lemma leaves_check {T A} (f : parser -> T) (r : parser -> res A) : leaves f (check r).
Proof. intros p p' o H. injection H as <- <-. reflexivity. Qed.

Lemma leaves_system {T} (f : parser -> T) line b : (forall x p, f (with_macros x p) = f p) -> leaves f (system_step line b).
Proof. intros K p p' o. unfold system_step. destruct (system_assign (pr_macros p) line b) as [mv r]. intro H. injection H as <- <-. apply K. Qed.

Lemma leaves_settings {T} (f : parser -> T) b : (forall x p, f (with_rot x p) = f p) -> leaves f (settings_step b).
Proof.
  intros K p p' o. unfold settings_step. destruct (pr_calc p) as [c|]; [|intro H; injection H as <- <-; reflexivity].
  destruct (range_verifier (mc_type (cl_machine c)) (cl_kin c) b); [|intro H; injection H as <- <-; reflexivity].
  destruct (rotation_verifier (cd_operator_rotation (mc_cnc (cl_machine c))) (pr_rot p) b) as [st r]. intro H. injection H as <- <-. apply K.
Qed.

Lemma leaves_select {T} (f : parser -> T) b : (forall x p, f (with_metric x p) = f p) -> leaves f (select_grammar b).
Proof.
  intros K. induction b as [|a b IH]; intros p p' o; cbn [select_grammar]; [intro H; injection H as <- <-; reflexivity|].
  destruct (selector_step (pr_metric p) a) as [m|e]; [|intro H; injection H as <- <-; reflexivity].
  intro H. rewrite (IH _ _ _ H). apply K.
Qed.

(** Words with numbers are always selected from. *)
Lemma select_goes wm b : Forall (passed wm) b -> Forall plain_attr b -> assoc "G" wm <> None ->
  forall p, exists u, select_grammar b p = (with_metric u p, None) /\ grammar_selector (pr_metric p) b = Ok u.
Proof.
  intros F P A. induction F as [|a b Pa F IH]; intro p; cbn [select_grammar].
  { exists (pr_metric p). split; [destruct p; reflexivity|reflexivity]. }
  inversion P as [|? ? P1 P2]; subst. specialize (IH P2).
  assert (S : exists u, selector_step (pr_metric p) a = Ok u).
  { destruct a as [d| |]; [|cbn; eauto|cbn; eauto]. cbn [selector_step]. destruct (String.eqb (d_word d) "G") eqn:E; [|cbn; eauto]. cbn [negb].
    apply String.eqb_eq in E. destruct (d_value d) as [v|] eqn:V; [|eauto].
    destruct (passed_number wm d v Pa) as [n N]; [apply P1|rewrite E; exact A|rewrite E; discriminate|exact V|]. rewrite N. cbn. eauto. }
  destruct S as [u S]. rewrite S. destruct (IH (with_metric u p)) as (u' & E & G). exists u'. split; [rewrite E; destruct p; reflexivity|].
  unfold grammar_selector. cbn [foldM]. rewrite S. exact G.
Qed.

Section Line.
Variable lit : string -> dbl.
Variable libm : string -> dbl -> dbl.
Variables atan log cabs : dbl -> dbl.
Variable stale : Z.
Variable cf : config.
Let PA := parse lit libm atan log cabs stale cf.

Lemma path_leaves {T} (f : parser -> T) zero line b : (forall x y p, f (with_macros x (with_calc y p)) = f p) -> leaves f (path_step atan log cabs stale zero line b).
Proof.
  intros K p p' o. unfold path_step. destruct (pr_calc p) as [c|]; [|intro H; injection H as <- <-; reflexivity].
  destruct (evaluate atan log cabs stale (cl_machine c) (negb (pr_metric p)) line b (cl_calc c) (pr_macros p)) as [[cl mv] [e|]].
  { intro H. injection H as <- <-. apply K. }
  destruct zero; intro H; injection H as <- <-; apply K.
Qed.

(** Before the path calculation. *)
Definition verifying (st : parser_settings) (line : Z) (b : block) : step :=
  andthen (system_step line b)
  (andthen (on (ps_ncsettings st) (settings_step b))
  (andthen (on (ps_verify_code_groups st)
               (check (fun p => code_groups_verifier (pr_macros p) (cf_gcodes cf) (cf_mcodes cf) line false b)))
           (on (cf_haas cf) (check (fun _ => same_word "M" b))))).

Lemma andthen_assoc a b c p : andthen (andthen a b) c p = andthen a (andthen b c) p.
Proof. unfold andthen. destruct (a p) as [q [x|]]; reflexivity. Qed.

Lemma andthen_ext a b b' p : (forall q, b q = b' q) -> andthen a b p = andthen a b' p.
Proof. intro E. unfold andthen. destruct (a p) as [q [x|]]; [reflexivity|apply E]. Qed.

Lemma later_parts st line b p : later_steps atan log cabs stale cf st line b p =
  andthen (verifying st line b) (andthen (on (ps_calculate_path st) (path_step atan log cabs stale (ps_zero_point st) line b)) (select_grammar b)) p.
Proof.
  unfold later_steps, verifying. rewrite andthen_assoc. apply andthen_ext. intro q1.
  rewrite andthen_assoc. apply andthen_ext. intro q2. rewrite andthen_assoc. reflexivity.
Qed.

Lemma verifying_leaves {T} (f : parser -> T) st line b : (forall x p, f (with_macros x p) = f p) -> (forall x p, f (with_rot x p) = f p) ->
  leaves f (verifying st line b).
Proof.
  intros A B. unfold verifying. apply leaves_andthen; [now apply leaves_system|]. apply leaves_andthen; [apply leaves_on; now apply leaves_settings|].
  apply leaves_andthen; apply leaves_on, leaves_check.
Qed.

(** ** The unit system *)

Lemma rejected_unit lg st line data p p' v a : pr_grammar p = Some lg -> no_macro data -> assoc "G" (lg_map lg) <> None ->
  PA st line data p = (p', v, a) -> (forall m, a <> Answer true m) -> pr_metric p' = pr_metric p.
Proof.
  intros G N A H R. destruct (plain_line _ _ _ _ _ _ _ _ _ _ _ _ _ _ _ G N H) as (gs & r & E & P & [(-> & _)|[(-> & _)|[(-> & _)|(_ & RR & o & LS & AN)]]]); try reflexivity.
  rewrite later_parts in LS. unfold andthen in LS at 1. destruct (verifying st line v (with_gs gs p)) as [q o1] eqn:V.
  pose proof (verifying_leaves pr_metric st line v (fun _ _ => eq_refl) (fun _ _ => eq_refl) _ _ _ V) as M1.
  destruct o1; [injection LS as <- <-; exact M1|].
  unfold andthen in LS. destruct (on (ps_calculate_path st) (path_step atan log cabs stale (ps_zero_point st) line v) q) as [q2 o2] eqn:PS.
  pose proof (leaves_on pr_metric _ _ (path_leaves pr_metric _ line v (fun _ _ _ => eq_refl)) _ _ _ PS) as M2.
  destruct o2; [injection LS as <- <-; cbn in M1; congruence|].
  destruct (select_goes _ _ (parse_passed _ _ _ _ _ _ E) P A q2) as (u & S & SEL). rewrite S in LS. injection LS as <- <-. cbn in *.
  destruct RR as [-> | ->]; [destruct (R _ AN)|]. apply (nothing_read lg) in E as ->. cbn in SEL. injection SEL as <-. congruence.
Qed.

Lemma accepted_unit lg st line data p p' v m : pr_grammar p = Some lg -> no_macro data -> assoc "G" (lg_map lg) <> None -> ps_evaluate_macro st = true ->
  PA st line data p = (p', v, Answer true m) ->
  grammar_selector (pr_metric p) v = Ok (pr_metric p') /\ Forall (fun t => exists n, denotes t n) (g_values v).
Proof.
  intros G N A EM H. destruct (plain_line _ _ _ _ _ _ _ _ _ _ _ _ _ _ _ G N H) as (gs & r & E & P & [(_ & rest & ms & C & _)|[(_ & e & C)|[(_ & C & _)|(_ & RR & o & LS & AN)]]]).
  - discriminate.
  - pose proof (caught_rejecting e) as D. rewrite <- C in D. destruct D. discriminate.
  - congruence.
  - pose proof (rejects_later atan log cabs stale cf st line v) as RJ.
    destruct o as [x|]. { subst x. destruct (RJ _ _ _ LS). discriminate. } clear RJ.
    rewrite later_parts in LS. unfold andthen in LS at 1. destruct (verifying st line v (with_gs gs p)) as [q o1] eqn:V.
    pose proof (verifying_leaves pr_metric st line v (fun _ _ => eq_refl) (fun _ _ => eq_refl) _ _ _ V) as M1. destruct o1; [discriminate|].
    unfold andthen in LS. destruct (on (ps_calculate_path st) (path_step atan log cabs stale (ps_zero_point st) line v) q) as [q2 o2] eqn:PS.
    pose proof (leaves_on pr_metric _ _ (path_leaves pr_metric _ line v (fun _ _ _ => eq_refl)) _ _ _ PS) as M2. destruct o2; [discriminate|].
    destruct (select_goes _ _ (parse_passed _ _ _ _ _ _ E) P A q2) as (u & S & SEL). rewrite S in LS. injection LS as <-. cbn in M1, M2 |- *.
    split; [congruence|]. pose proof (parse_passed _ _ _ _ _ _ E) as F. clear -F. apply Forall_forall. intros t I. unfold g_values in I. apply in_flat_map in I as (x & I1 & I2).
    rewrite Forall_forall in F. specialize (F x I1). destruct x as [d| |]; try destruct I2. destruct (String.eqb (d_word d) "G"); [|destruct I2].
    destruct (d_value d) as [v0|] eqn:V0; [|destruct I2]. destruct I2 as [<-|[]]. eapply passed_digits; eauto.
Qed.

End Line.
