(** The messages of the parser are placed where they belong. *)
From Verif Require Import Model.Base Model.Attr Model.Double Model.Enums Model.Macro Model.Calc Model.Grammar Model.MacroAssign Model.MacroEval Model.NCText Model.Verifiers Model.PathCalc.
From Verif Require Import Model.Parser Model.Messages Model.Settings Model.Document.
From Verif Require Import Spec.Text Spec.GrammarSpec Spec.NCTextSpec Spec.ParserSpec Spec.DocumentSpec.
From Verif Require Import Proofs.Tactics Proofs.TextProofs Proofs.StringFacts Proofs.GrammarLex Proofs.GrammarTail Proofs.PrintProofs Proofs.StatusProofs.
From Verif Require Import Proofs.ParserProofs Proofs.NCTextProofs Proofs.DiagProofs Proofs.MessageProofs.
Local Open Scope string_scope.
Local Open Scope Z_scope.

(** ** What is read consists of characters of the line *)

Section Chars.
Variable p : ascii -> bool.

Definition dec_chars (d : decimal) : Prop := all_chars p (d_word d) = true /\ all_chars p (tail_text d) = true.
Definition attr_chars (a : attr) : Prop := match a with ADec d => dec_chars d | _ => True end.
Definition rest_chars (x : gstate * rule_result) : Prop :=
  match snd x with ROk a r => attr_chars a /\ all_chars p r = true | _ => True end.

Lemma orelse_chars x f : rest_chars x -> (forall s, rest_chars (f s)) -> rest_chars (orelse x f).
Proof. destruct x as [s [| | |]]; cbn; auto. Qed.

Lemma checked_chars wm wo w asgn b d r s : number_tail wo w asgn b = (d, r) -> all_chars p w = true -> all_chars p b = true ->
  rest_chars (checked wm d r s).
Proof.
  intros NT NW A. destruct (number_tail_chars p _ _ _ _ _ _ NT A) as [A1 A2].
  apply number_tail_spec in NT as (W & _). unfold checked. destruct (verify wm d s) as [s' [| |]]; cbn; auto.
  split; [|exact A2]. split; [congruence|exact A1].
Qed.

Lemma sym_chars l t w : sym_match l t = Some w -> all_chars p t = true -> all_chars p w = true /\ all_chars p (drop (String.length w) t) = true.
Proof.
  intros M A. apply sym_match_some in M as (_ & P & _). split; [|now apply chars_drop].
  apply prefix_iff in P as (b & ->). now apply chars_app in A as [A _].
Qed.

Lemma attribute_chars wm dec asg t s : all_chars p t = true -> rest_chars (line_attribute wm dec asg t s).
Proof.
  intro A. pose proof (chars_skip p t A) as AS. unfold line_attribute.
  apply orelse_chars.
  { unfold rest_chars. cbn. unfold char_rule. destruct t as [|c t]; [exact I|]. destruct c as [[] [] [] [] [] [] [] []]; try exact I.
    cbn in A. apply andb_true_iff in A as [_ A]. destruct (chars_span p is_blank t A) as [_ B]. destruct (span is_blank t) as [[|? ?] r]; cbn in *; auto. }
  intro s1. apply orelse_chars.
  { unfold decimal_rule. destruct (assign_ahead asg (skip t)); [exact I|]. destruct (sym_match dec (skip t)) as [w|] eqn:M; [|exact I].
    destruct (sym_chars _ _ _ M AS) as [NW AD]. destruct (number_tail true w None (drop (String.length w) (skip t))) as [d r] eqn:NT. eapply checked_chars; eauto. }
  assert (SL : forall o s, rest_chars (slash_rule wm o t s)).
  { intros o s2. unfold slash_rule. destruct (skip t) as [|c b]; [exact I|].
    destruct (ascii_dec c "/") as [->|N].
    2:{ destruct c as [[] [] [] [] [] [] [] []]; try exact I. now contradiction N. }
    cbn [all_chars] in AS. apply andb_true_iff in AS as [AS0 AS]. assert (K : rest_chars (let '(d, r') := number_tail o "/" None b in checked wm d r' s2)).
    { destruct (number_tail o "/" None b) as [d r] eqn:NT. eapply checked_chars; eauto. cbn. now rewrite AS0. }
    destruct (skip b) as [|x y]; [exact K|]. destruct x as [[] [] [] [] [] [] [] []]; try exact K. exact I. }
  intro s2. apply orelse_chars; [apply SL|]. intro s3. apply orelse_chars.
  { unfold assignable_rule. destruct (sym_match asg (skip t)) as [w|] eqn:M; [|exact I]. destruct (sym_chars _ _ _ M AS) as [NW AD].
    pose proof (chars_skip p _ AD) as AD2. destruct (skip (drop (String.length w) (skip t))) as [|q z]; [exact I|].
    destruct (ascii_dec q "=") as [->|N].
    2:{ destruct q as [[] [] [] [] [] [] [] []]; try exact I. now contradiction N. }
    cbn [all_chars] in AD2. apply andb_true_iff in AD2 as [_ AD2].
    destruct (number_tail true w (Some "="%char) z) as [d r] eqn:NT. eapply checked_chars; eauto. }
  intro s4. apply orelse_chars; [apply SL|]. intro s5. apply orelse_chars.
  { unfold rest_chars. cbn. unfold comment_rule. destruct (skip t) as [|c b]; [exact I|]. destruct c as [[] [] [] [] [] [] [] []]; try exact I.
    cbn [all_chars] in AS. apply andb_true_iff in AS as [_ AS]. destruct (chars_span p (fun c => negb (Ascii.eqb c ")")) b AS) as [_ B].
    destruct (span (fun c => negb (Ascii.eqb c ")")) b) as [v [|x r]]; [exact I|]. cbn in *. apply andb_true_iff in B as [_ B]. auto. }
  intro s6. apply orelse_chars.
  { unfold rest_chars. cbn. unfold start_program_rule. destruct (skip t) as [|c b]; [exact I|]. destruct c as [[] [] [] [] [] [] [] []]; try exact I.
    destruct (skip b); [cbn; auto|exact I]. }
  intro s7. unfold rest_chars. cbn. unfold program_name_rule. destruct (skip t) as [|c b]; [exact I|]. destruct c as [[] [] [] [] [] [] [] []]; try exact I.
  cbn [all_chars] in AS. apply andb_true_iff in AS as [_ AS]. destruct (chars_span p is_name_char b AS) as [_ B]. destruct (span is_name_char b) as [[|x y] r]; [exact I|]. cbn in *. split; [exact I|].
  apply chars_span. apply chars_span. exact B.
Qed.

Lemma attributes_chars wm dec asg f : forall t v s s' V r, all_chars p t = true -> Forall attr_chars v ->
  line_attributes wm dec asg f t v s = (s', V, r) -> Forall attr_chars V.
Proof.
  induction f as [|f IH]; intros t v s s' V r A F H; cbn [line_attributes] in H; [inv H; exact F|].
  pose proof (attribute_chars wm dec asg t s A) as P. destruct (line_attribute wm dec asg t s) as [x R]. destruct R as [|a r'| |]; cbn in P.
  - destruct v as [|a0 v]; [inv H; constructor|]. destruct (skip t); inv H; exact F.
  - destruct P as [P1 P2]. eapply IH; [exact P2| |exact H]. rewrite Forall_app. auto.
  - inv H. exact F.
  - inv H. exact F.
Qed.

Lemma evaluated_chars ops mv line b t : (forall x, all_chars p (to_string_trunc x) = true) -> Forall attr_chars b ->
  evaluated_code ops mv line b = Ok t -> all_chars p t = true.
Proof.
  intros N F. unfold evaluated_code. unfold bind. destruct (foldM (ec_step ops mv line) ec_init b) as [s|] eqn:E; [|discriminate].
  intros H. inv H. cut (all_chars p (ec_text s) = true); [destruct (ec_modified s); auto|].
  assert (G : forall s0, all_chars p (ec_text s0) = true -> foldM (ec_step ops mv line) s0 b = Ok s -> all_chars p (ec_text s) = true).
  { clear E. induction F as [|a b P F IH]; intros s0 A E; cbn [foldM] in E; [inv E; exact A|].
    unfold bind in E. destruct (ec_step ops mv line s0 a) as [s1|] eqn:S1; [|discriminate]. eapply IH; [|exact E]. clear E IH.
    destruct a as [d| |]; cbn [ec_step] in S1; [|inv S1; exact A|inv S1; exact A]. destruct P as [P1 P2].
    unfold tail_text in P2. rewrite !all_chars_app, !andb_true_iff in P2. destruct P2 as (Q1 & Q2 & Q3 & Q4 & Q5 & Q6 & Q7).
    assert (T : forall c, all_chars p (opt_chr c) = true -> True) by auto. clear T.
    unfold ec_visit in S1. destruct (_ && is_some _).
    - destruct (d_value d) as [v|]; [|discriminate]. unfold bind in S1. destruct (stoi v); [|discriminate]. destruct (macro_lookup _ _ _); [|discriminate].
      inv S1. cbn [ec_text]. rewrite !all_chars_app, A, P1, Q1, Q2, Q7, N. reflexivity.
    - inv S1. cbn [ec_text]. rewrite !all_chars_app, A, P1, Q1, Q2, Q4, Q5, Q6, Q7. reflexivity. }
  eapply G; [|exact E]. reflexivity.
Qed.
End Chars.

(** ** The text of a number *)

Definition same_line (c : ascii) : bool := negb (is_line_end c).

Lemma chars_impl (p q : ascii -> bool) t : (forall c, p c = true -> q c = true) -> all_chars p t = true -> all_chars q t = true.
Proof. intros I. induction t as [|c t IH]; cbn; [auto|]. rewrite !andb_true_iff. intros [H1 H2]. auto. Qed.

Lemma digit_same c : is_digit c = true -> same_line c = true.
Proof. destruct c as [[] [] [] [] [] [] [] []]; try discriminate; reflexivity. Qed.

Lemma nat_same n : 0 <= n -> all_chars same_line (nat_to_string n) = true.
Proof. intros H. eapply chars_impl; [exact digit_same|]. now apply nat_to_string_spec in H. Qed.

Lemma trim_chars p c t : all_chars p t = true -> all_chars p (trim_right c t) = true.
Proof.
  induction t as [|a t IH]; cbn; [auto|]. rewrite andb_true_iff. intros [H1 H2]. specialize (IH H2). destruct (trim_right c t) as [|x y] eqn:E.
  - destruct (Ascii.eqb a c); cbn; now rewrite ?H1.
  - cbn [all_chars] in *. now rewrite H1, IH.
Qed.

Lemma point_chars p t : all_chars p t = true -> all_chars p (drop_point t) = true.
Proof.
  induction t as [|a t IH]; [auto|]. cbn [all_chars]. rewrite andb_true_iff. intros [H1 H2]. specialize (IH H2). cbn [drop_point]. destruct t as [|x y].
  - destruct (Ascii.eqb a "."); cbn; now rewrite ?H1.
  - cbn [all_chars]. rewrite H1. exact IH.
Qed.

Lemma fixed_same n : 0 <= n -> all_chars same_line (fixed_string n 6) = true.
Proof.
  intros H. unfold fixed_string. cbn [Z.eqb Pos.eqb]. rewrite !all_chars_app, !nat_same; [|apply Z.mod_pos_bound; lia|apply Z.div_pos; lia].
  assert (Z : forall k, all_chars same_line (zero_pad k) = true) by (induction k as [|k IH]; [reflexivity|exact IH]). rewrite Z. reflexivity.
Qed.

Lemma round_nonneg n d : 0 <= n -> 0 < d -> 0 <= round_div_even n d.
Proof. intros. unfold round_div_even. assert (0 <= n / d) by (apply Z.div_pos; lia). destruct (_ ?= _); [destruct (Z.even _)| |]; lia. Qed.

Lemma scaled_nonneg m e : 0 <= scaled_round (Zpos m) e 6.
Proof.
  unfold scaled_round. destruct (Z.leb_spec 0 e).
  - assert (0 < 2 ^ e) by (apply Z.pow_pos_nonneg; lia). nia.
  - apply round_nonneg; [lia|apply Z.pow_pos_nonneg; lia].
Qed.

Lemma trunc_same x : all_chars same_line (to_string_trunc x) = true.
Proof.
  destruct x as [s|s| |s m e]; try (destruct s; reflexivity); try reflexivity.
  unfold to_string_trunc, d_to_string, d_to_fixed. apply point_chars, trim_chars. rewrite all_chars_app, fixed_same; [|apply scaled_nonneg]. destruct s; reflexivity.
Qed.

(** ** The place of an expectation failure *)

Lemma lines_one prev t : all_chars same_line t = true -> count_lines prev t = 1.
Proof.
  revert prev. induction t as [|c t IH]; intros prev H; [reflexivity|]. cbn [all_chars] in H. apply andb_true_iff in H as [H1 H2].
  cbn [count_lines]. unfold same_line in H1. apply negb_true_iff in H1. rewrite H1, IH by exact H2. reflexivity.
Qed.

Lemma columns_from col t : 1 <= col -> 1 <= columns col t.
Proof.
  revert col. induction t as [|c t IH]; intros col H; [exact H|]. cbn [columns]. apply IH. destruct (Ascii.eqb c "009"); [|lia].
  assert (0 <= (col - 1) mod 4 < 4) by (apply Z.mod_pos_bound; lia). lia.
Qed.

Lemma column_from before : 1 <= column before.
Proof. apply columns_from. lia. Qed.

Lemma substring_same p : forall t n, all_chars p t = true -> all_chars p (substring 0 n t) = true.
Proof. induction t as [|c t IH]; intros n H; destruct n; cbn in *; auto. apply andb_true_iff in H as [H1 H2]. now rewrite H1, IH. Qed.

Definition on_line (m : message) : Prop := match m with MExpect before _ _ => all_chars same_line before = true | _ => True end.

Section Parse.
Variable lit : string -> dbl.
Variable libm : string -> dbl -> dbl.
Variables atan log cabs : dbl -> dbl.
Variable stale : Z.
Variable cf : config.

Definition a_on_line (a : answer) : Prop := match a with Answer _ m => on_line m | Escapes _ => True end.
Definition s_on_line (r : parser * option answer) : Prop := match snd r with Some a => a_on_line a | None => True end.
Definition step_on_line (s : step) : Prop := forall p, s_on_line (s p).

Lemma caught_on_line e : a_on_line (caught e).
Proof. destruct e; exact I. Qed.

Lemma andthen_on_line a b : step_on_line a -> step_on_line b -> step_on_line (andthen a b).
Proof. intros A B p. unfold andthen. specialize (A p). destruct (a p) as [p' [x|]]; [exact A|apply B]. Qed.

Lemma on_on_line b s : step_on_line s -> step_on_line (on b s).
Proof. intros H. destruct b; [exact H|]. intros p. exact I. Qed.

Lemma check_on_line {A} (r : parser -> res A) : step_on_line (check r).
Proof. intros p. unfold check, s_on_line. cbn. destruct (r p); [exact I|apply caught_on_line]. Qed.

Lemma select_on_line b : step_on_line (select_grammar b).
Proof.
  induction b as [|a b IH]; intros p; cbn [select_grammar]; [exact I|]. destruct (selector_step (pr_metric p) a); [apply IH|apply caught_on_line].
Qed.

Lemma later_on_line st line b : step_on_line (later_steps atan log cabs stale cf st line b).
Proof.
  unfold later_steps. apply andthen_on_line.
  { intros p. unfold system_step. destruct (system_assign (pr_macros p) line b) as [mv [e|]]; [apply caught_on_line|exact I]. }
  apply andthen_on_line.
  { apply on_on_line. intros p. unfold settings_step. destruct (pr_calc p) as [c|]; [|exact I].
    destruct (range_verifier _ _ b); [|apply caught_on_line]. destruct (rotation_verifier _ _ b) as [q [e|]]; [apply caught_on_line|exact I]. }
  apply andthen_on_line; [apply on_on_line, check_on_line|]. apply andthen_on_line; [apply on_on_line, check_on_line|].
  apply andthen_on_line; [|apply select_on_line].
  apply on_on_line. intros p. unfold path_step. destruct (pr_calc p) as [c|]; [|exact I].
  destruct (evaluate _ _ _ _ _ _ _ _ _ _) as [[cl mv] [e|]]; [apply caught_on_line|].
  destruct (ps_zero_point st); [|exact I]. unfold s_on_line. cbn. destruct (axis_verifier _ _ _); [exact I|apply caught_on_line].
Qed.

(** Only the reading of the grammar names a place. *)
Definition no_expect (r : parser * option answer) : Prop := match snd r with Some (Answer _ (MExpect _ _ _)) => False | _ => True end.

Lemma caught_no_expect (p : parser) e : no_expect (p, Some (caught e)).
Proof. destruct e; exact I. Qed.

Lemma select_on_expect b : forall p, no_expect (select_grammar b p).
Proof. induction b as [|a b IH]; intros p; cbn [select_grammar]; [exact I|]. destruct (selector_step (pr_metric p) a); [apply IH|apply caught_no_expect]. Qed.

Lemma later_no_expect st line b p : no_expect (later_steps atan log cabs stale cf st line b p).
Proof.
  assert (T : forall x y, (forall p, no_expect (x p)) -> (forall p, no_expect (y p)) -> forall p, no_expect (andthen x y p)).
  { intros x y X Y q. unfold andthen. specialize (X q). destruct (x q) as [q' [a|]]; [exact X|apply Y]. }
  assert (U : forall c x, (forall p, no_expect (x p)) -> forall p, no_expect (on c x p)) by (intros [] x X q; [apply X|exact I]).
  assert (V : forall A (r : parser -> res A) p, no_expect (check r p)) by (intros A r q; unfold check; destruct (r q); [exact I|apply caught_no_expect]).
  revert p. unfold later_steps. apply T.
  { intros p. unfold system_step. destruct (system_assign (pr_macros p) line b) as [mv [e|]]; [apply caught_no_expect|exact I]. }
  apply T.
  { apply U. intros p. unfold settings_step. destruct (pr_calc p) as [c|]; [|exact I].
    destruct (range_verifier _ _ b); [|apply caught_no_expect]. destruct (rotation_verifier _ _ b) as [q [e|]]; [apply caught_no_expect|exact I]. }
  apply T; [apply U, V|]. apply T; [apply U, V|].
  apply T; [|apply select_on_expect].
  apply U. intros p. unfold path_step. destruct (pr_calc p) as [c|]; [|exact I].
  destruct (evaluate _ _ _ _ _ _ _ _ _ _) as [[cl mv] [e|]]; [apply caught_no_expect|].
  destruct (ps_zero_point st); [|exact I]. destruct (axis_verifier _ _ _); [exact I|apply caught_no_expect].
Qed.

Lemma finish_on_line ret (r : parser * option answer) : s_on_line r ->
  a_on_line (snd (match r with (p', None) => (p', Answer ret MNone) | (p', Some a) => (p', a) end)).
Proof. intros H. destruct r as [p' [a|]]; [exact H|exact I]. Qed.

Lemma steps_on_line st line v ret p : Forall (attr_chars same_line) v -> a_on_line (snd (steps lit libm atan log cabs stale cf st line v ret p)).
Proof.
  intros F. unfold steps. destruct (unique_code _ v); [|apply caught_on_line]. destruct (negb _); [exact I|].
  unfold macro_step. destruct (macro_evaluate lit libm (pr_macros p) line v) as [[mv [m|]]|e]; [exact I| |apply caught_on_line].
  unfold macro_steps. destruct (evaluated_code _ _ line v) as [t|e] eqn:EC; [|apply caught_on_line].
  apply evaluated_chars with (p := same_line) in EC; [|exact trunc_same|exact F].
  destruct t as [|ch t]; [apply finish_on_line, later_on_line|]. destruct (pr_grammar _) as [lg|]; [|exact I].
  destruct (phrase_parse _ _ _ _ _) as [[gs v2] r].
  destruct r as [| |rest|e]; [| |apply substring_same, EC|apply caught_on_line]; apply finish_on_line; (apply andthen_on_line; [apply select_on_line|apply later_on_line]).
Qed.

Lemma parse_on_line st line data p p' v ret m : all_chars same_line data = true ->
  parse lit libm atan log cabs stale cf st line data p = (p', v, Answer ret m) -> on_line m.
Proof.
  intros A. unfold parse. destruct (pr_grammar p) as [lg|]; [|discriminate]. destruct (grammar_parse _ _ _) as [[gs w] r] eqn:P.
  apply attributes_chars with (p := same_line) in P; [|exact A|constructor]. destruct r as [| |rest|e].
  - pose proof (steps_on_line st line w true (with_gs gs p) P) as H. destruct (steps _ _ _ _ _ _ _ _ _ _ _ _) as [q a]. intros E. injection E as _ _ ->. exact H.
  - pose proof (steps_on_line st line w false (with_gs gs p) P) as H. destruct (steps _ _ _ _ _ _ _ _ _ _ _ _) as [q a]. intros E. injection E as _ _ ->. exact H.
  - intros E. injection E as _ _ _ <-. now apply substring_same.
  - intros E. injection E as _ _ E. pose proof (caught_on_line e) as H. rewrite E in H. exact H.
Qed.
End Parse.

(** ** Texts *)

Lemma item_letter l m : shown m \/ m = ["stoi"] -> starts_with_letter (item_text l m).
Proof. intros [H| ->]; [now apply shown_text|]. destruct l; reflexivity. Qed.

Lemma grammar_letter l ms : Forall (fun m => shown m \/ m = ["stoi"]) ms -> ms = [] \/ starts_with_letter (grammar_text l ms).
Proof. intros F. inversion F as [|m r H1 H2]; subst; [now left|]. right. cbn [grammar_text]. now apply starts_app, item_letter. Qed.

Lemma letter_plain s : starts_with_letter s -> exists a r, s = String a r /\ is_space a = false /\ is_digit a = false /\ a <> "+"%char /\ a <> "-"%char.
Proof.
  destruct s as [|a r]; [intros []|]. intros H. exists a, r. split; [reflexivity|]. cbn in H.
  destruct a as [[] [] [] [] [] [] [] []]; try discriminate; repeat split; discriminate.
Qed.

Lemma what_letter rw l e : starts_with_letter rw -> shown_exn e -> reported e -> starts_with_letter (what rw l e).
Proof.
  intros R H P. destruct e as [| |w|m|t|m|m|w|m|m|z|m|f|u]; cbn in H, P |- *; try contradiction; auto; try (destruct l; reflexivity); try (now apply shown_text).
  - destruct m as [|name args]; [destruct H|]. destruct (String.eqb_spec name "MissingValue") as [->|N]; [destruct l; reflexivity|].
    destruct H as [[H _]|(I & w & r & more & W & ->)]; [contradiction|]. unfold make_message2.
    assert (T : exists p, assoc name (texts l) = Some p).
    { destruct I as [I|[I|[]]]; injection I as <- _; destruct l; eexists; reflexivity. }
    destruct T as (p & ->). cbn [weave]. destruct W as [-> | ->]; reflexivity.
  - destruct (_ =? 3)%nat; destruct l; reflexivity.
Qed.

(** A message has a text. *)
Lemma message_has_text rw l m : starts_with_letter rw -> shown_message m -> message_text rw l m <> "" <-> has_message m = true.
Proof.
  intros R S. destruct m as [|ms|before rest ms|e]; cbn [message_text has_message].
  - split; congruence.
  - destruct ms as [|x ms]; [cbn; split; congruence|]. cbn in S. destruct (grammar_letter l _ S) as [?|H]; [discriminate|].
    split; [reflexivity|]. intros _ E. rewrite E in H. exact H.
  - split; [reflexivity|]. intros _. unfold expectation_text. destruct (nat_to_string (count_lines None before)); discriminate.
  - cbn in S. destruct S as [S P]. pose proof (what_letter rw l e R S P) as H. split; [reflexivity|]. intros _ E. rewrite E in H. exact H.
Qed.

Lemma digits_front a b x y : all_chars is_digit a = true -> all_chars is_digit b = true -> a ++ ":" ++ x = b ++ ":" ++ y -> a = b.
Proof.
  revert b. induction a as [|c a IH]; intros [|d b] A B H; cbn in *; auto.
  - injection H as <- _. discriminate.
  - injection H as -> _. discriminate.
  - apply andb_true_iff in A as [_ A]. apply andb_true_iff in B as [_ B]. injection H as -> H. f_equal. now apply IH.
Qed.

Lemma colon_split s : exists text rest, s = text ++ rest /\ without ":" text /\ (rest = "" \/ exists r, rest = ":" ++ r).
Proof.
  induction s as [|c s (text & rest & -> & W & R)]; [exists "", ""; repeat split; auto using without_nil|].
  destruct (ascii_dec c ":") as [->|N].
  - exists "", (String ":" (text ++ rest)). repeat split; [apply without_nil|]. right. now eexists.
  - exists (String c text), rest. repeat split; auto. now apply without_cons.
Qed.

Lemma text_located rw l n data m : starts_with_letter rw -> shown_message m -> on_line m -> clear n data (message_text rw l m) ->
  exists ch, located n data (message_text rw l m) ch.
Proof.
  intros R S O (C1 & C2 & C3).
  assert (K : forall t, t = message_text rw l m -> t = "" \/ starts_with_letter t -> exists ch, located n data t ch).
  { intros t E. rewrite <- E in *. assert (NC : forall cs r, t = "1:" ++ cs ++ ":" ++ r -> t = "" \/ starts_with_letter t -> False).
    { intros cs r -> [H|H]; discriminate. }
    intros [->|L].
    - exists 0. apply at_nothing; [reflexivity|]. destruct C2 as [C2|[[C2 _]|(cs & c & r & C2 & _)]]; auto. discriminate.
    - exists 0. destruct (letter_plain _ L) as (a & r & E1 & E2 & E3 & E4 & E5). eapply at_text; eauto.
      destruct C2 as [C2|[[_ C2]|(cs & c & r0 & C2 & _)]]; auto. exfalso. eapply NC; eauto. }
  destruct m as [|ms|before rest ms|e]; [apply K; auto| | |].
  - apply K; [reflexivity|]. cbn in S |- *. destruct (grammar_letter l ms S) as [->|H]; auto.
  - clear K. cbn [message_text] in *. unfold expectation_text in *. cbn in O. rewrite (lines_one None before O) in *.
    change (nat_to_string 1) with "1" in *. set (g := if String.eqb _ _ then _ else _) in *.
    pose proof (column_from before) as CF. destruct (nat_to_string_spec (column before)) as (N1 & N2 & N3 & _); [lia|].
    set (cs := nat_to_string (column before)) in *. destruct (colon_split (" " ++ rest ++ g)) as (text & rest' & E & W & T).
    change ("1" ++ ":" ++ cs ++ ": " ++ rest ++ g) with ("1:" ++ cs ++ ":" ++ (" " ++ rest ++ g)) in *. rewrite E in *.
    assert (D : denotes cs (column before)) by (repeat split; auto).
    exists (column before - 1). apply (at_column n data _ (column before) cs text rest'); auto.
    + split; [exact CF|]. eapply C3; [reflexivity|exact D].
    + destruct C2 as [C2|[[_ C2]|(cs2 & c & r & C2 & (D1 & D2 & D3) & C4)]]; auto.
      * exfalso. apply (C2 "1" (cs ++ ":" ++ text ++ rest')). reflexivity.
      * right. left. cbn [append] in C2. injection C2 as C2. change (String ":" (text ++ rest')) with (":" ++ (text ++ rest')) in C2. change (String ":" r) with (":" ++ r) in C2.
        apply digits_front in C2; auto. subst cs2. lia.
    + rewrite <- E. discriminate.
  - apply K; [reflexivity|]. right. apply what_letter; [exact R|apply S|apply S].
Qed.

(** ** The rest of a line *)

Definition tail_of (r t : string) : Prop := exists b, t = b ++ r.

Lemma tail_refl t : tail_of t t. Proof. now exists "". Qed.
Lemma tail_trans r t u : tail_of r t -> tail_of t u -> tail_of r u.
Proof. intros (a & ->) (b & ->). exists (b ++ a). now rewrite string_app_assoc. Qed.
Lemma tail_cons c r : tail_of r (String c r). Proof. now exists (String c ""). Qed.
Lemma tail_skip t : tail_of (skip t) t. Proof. destruct (skip_spec t) as (b & E & _). now exists b. Qed.
Lemma tail_snd q t : tail_of (snd (span q t)) t.
Proof. pose proof (span_spec q t) as S. destruct (span q t) as [a b]. destruct S as (-> & _). now exists a. Qed.
Lemma tail_drop w t : prefix w t = true -> tail_of (drop (String.length w) t) t.
Proof. intros P. apply prefix_iff in P as (b & ->). rewrite drop_app. now exists w. Qed.
Lemma tail_chr cs t c r : opt_char cs t = (c, r) -> tail_of r t.
Proof. intros H. apply opt_char_spec in H as (-> & _). now exists (opt_chr c). Qed.
Lemma tail_run q t v r : opt_run q t = (v, r) -> tail_of r t.
Proof. intros H. apply opt_run_spec in H as (-> & _). now exists (opt_str v). Qed.

Lemma number_tail_tail wo w asg r d rest : number_tail wo w asg r = (d, rest) -> tail_of rest r.
Proof.
  unfold number_tail. intros H.
  destruct (opt_char "-+" (skip r)) as [sg R0] eqn:E0.
  destruct (if wo then opt_run (Ascii.eqb "[") (skip R0) else (None, R0)) as [op R1] eqn:E1.
  destruct (opt_char "#" (skip R1)) as [mac R2] eqn:E2.
  destruct (opt_run is_digit (skip R2)) as [v R3] eqn:E3.
  destruct (opt_char "." R3) as [dot R4] eqn:E4.
  destruct (opt_run is_digit R4) as [v2 R5] eqn:E5.
  destruct (opt_run (Ascii.eqb "]") (skip R5)) as [cl R6] eqn:E6. inv H.
  assert (K1 : tail_of R1 R0) by (destruct wo; [eapply tail_trans; [eapply tail_run; exact E1|apply tail_skip]|inv E1; apply tail_refl]).
  eapply tail_trans; [eapply tail_run; exact E6|]. eapply tail_trans; [apply tail_skip|]. eapply tail_trans; [eapply tail_run; exact E5|].
  eapply tail_trans; [eapply tail_chr; exact E4|]. eapply tail_trans; [eapply tail_run; exact E3|]. eapply tail_trans; [apply tail_skip|].
  eapply tail_trans; [eapply tail_chr; exact E2|]. eapply tail_trans; [apply tail_skip|]. eapply tail_trans; [exact K1|].
  eapply tail_trans; [eapply tail_chr; exact E0|apply tail_skip].
Qed.

Definition rest_tail (t : string) (x : gstate * rule_result) : Prop := match snd x with ROk _ r | RThrow r => tail_of r t | _ => True end.

Lemma orelse_tail t x f : rest_tail t x -> (forall s, rest_tail t (f s)) -> rest_tail t (orelse x f).
Proof. destruct x as [s [| | |]]; cbn; auto. Qed.

Lemma checked_tail wm d r s t : tail_of r t -> rest_tail t (checked wm d r s).
Proof. intros T. unfold checked. destruct (verify wm d s) as [s' [| |]]; cbn; auto. Qed.

Lemma sym_tail l t w : sym_match l t = Some w -> tail_of (drop (String.length w) t) t.
Proof. intros M. apply sym_match_some in M as (_ & P & _). now apply tail_drop. Qed.

Lemma attribute_tail wm dec asg t s : rest_tail t (line_attribute wm dec asg t s).
Proof.
  pose proof (tail_skip t) as TS. unfold line_attribute.
  apply orelse_tail.
  { unfold rest_tail. cbn. unfold char_rule. destruct t as [|c t]; [exact I|]. destruct c as [[] [] [] [] [] [] [] []]; try exact I.
    pose proof (tail_snd is_blank t) as B. destruct (span is_blank t) as [[|? ?] r]; cbn in *; auto. eapply tail_trans; [exact B|apply tail_cons]. }
  intro s1. apply orelse_tail.
  { unfold decimal_rule. destruct (assign_ahead asg (skip t)); [exact I|]. destruct (sym_match dec (skip t)) as [w|] eqn:M; [|exact I].
    apply sym_tail in M. destruct (number_tail true w None (drop (String.length w) (skip t))) as [d r] eqn:NT. apply number_tail_tail in NT.
    apply checked_tail. eapply tail_trans; [exact NT|]. eapply tail_trans; [exact M|exact TS]. }
  assert (SL : forall o s, rest_tail t (slash_rule wm o t s)).
  { intros o s2. unfold slash_rule. destruct (skip t) as [|c b]; [exact I|].
    destruct (ascii_dec c "/") as [->|N].
    2:{ destruct c as [[] [] [] [] [] [] [] []]; try exact I. now contradiction N. }
    assert (TB : tail_of b t) by (eapply tail_trans; [apply tail_cons|exact TS]).
    assert (K : rest_tail t (let '(d, r') := number_tail o "/" None b in checked wm d r' s2)).
    { destruct (number_tail o "/" None b) as [d r] eqn:NT. apply number_tail_tail in NT. apply checked_tail. eapply tail_trans; [exact NT|exact TB]. }
    destruct (skip b) as [|x y]; [exact K|]. destruct x as [[] [] [] [] [] [] [] []]; try exact K. exact TB. }
  intro s2. apply orelse_tail; [apply SL|]. intro s3. apply orelse_tail.
  { unfold assignable_rule. destruct (sym_match asg (skip t)) as [w|] eqn:M; [|exact I]. apply sym_tail in M.
    assert (TD : tail_of (skip (drop (String.length w) (skip t))) t).
    { eapply tail_trans; [apply tail_skip|]. eapply tail_trans; [exact M|exact TS]. }
    destruct (skip (drop (String.length w) (skip t))) as [|q z]; [exact TD|].
    destruct (ascii_dec q "=") as [->|N].
    2:{ destruct q as [[] [] [] [] [] [] [] []]; try exact TD. now contradiction N. }
    destruct (number_tail true w (Some "="%char) z) as [d r] eqn:NT. apply number_tail_tail in NT. apply checked_tail.
    eapply tail_trans; [exact NT|]. eapply tail_trans; [apply tail_cons|exact TD]. }
  intro s4. apply orelse_tail; [apply SL|]. intro s5. apply orelse_tail.
  { unfold rest_tail. cbn. unfold comment_rule. destruct (skip t) as [|c b]; [exact I|]. destruct c as [[] [] [] [] [] [] [] []]; try exact I.
    pose proof (tail_snd (fun c => negb (Ascii.eqb c ")")) b) as B.
    destruct (span (fun c => negb (Ascii.eqb c ")")) b) as [v [|x r]]; cbn in B.
    - exists t. now rewrite string_app_nil.
    - eapply tail_trans; [apply tail_cons|]. eapply tail_trans; [exact B|]. eapply tail_trans; [apply tail_cons|exact TS]. }
  intro s6. apply orelse_tail.
  { unfold rest_tail. cbn. unfold start_program_rule. destruct (skip t) as [|c b]; [exact I|]. destruct c as [[] [] [] [] [] [] [] []]; try exact I.
    destruct (skip b); [|exact I]. exists t. now rewrite string_app_nil. }
  intro s7. unfold rest_tail. cbn. unfold program_name_rule. destruct (skip t) as [|c b]; [exact I|]. destruct c as [[] [] [] [] [] [] [] []]; try exact I.
  assert (TB : tail_of b t) by (eapply tail_trans; [apply tail_cons|exact TS]).
  pose proof (tail_snd is_name_char b) as B. destruct (span is_name_char b) as [[|x y] r]; [exact TB|]. cbn in B.
  eapply tail_trans; [apply tail_snd|]. eapply tail_trans; [apply tail_snd|]. eapply tail_trans; [exact B|exact TB].
Qed.

Lemma attributes_tail wm dec asg f : forall t v s s' V r, line_attributes wm dec asg f t v s = (s', V, PThrow r) -> tail_of r t.
Proof.
  induction f as [|f IH]; intros t v s s' V r H; cbn [line_attributes] in H; [discriminate|].
  pose proof (attribute_tail wm dec asg t s) as P. destruct (line_attribute wm dec asg t s) as [x R]. destruct R as [|a r'| |]; cbn in P.
  - pose proof (tail_skip t) as TS. destruct v as [|a0 v]; [discriminate|]. destruct (skip t); inv H. exact TS.
  - apply IH in H. eapply tail_trans; [exact H|exact P].
  - inv H. exact P.
  - discriminate.
Qed.

Lemma substring_app a b : substring 0 (String.length a) (a ++ b) = a.
Proof. induction a as [|c a IH]; cbn; [now destruct b|now rewrite IH]. Qed.

Lemma length_app a b : String.length (a ++ b) = (String.length a + String.length b)%nat.
Proof. induction a; cbn; auto. Qed.

Lemma before_rest a b : text_before (a ++ b) b = a.
Proof. unfold text_before. rewrite length_app, Nat.add_sub. apply substring_app. Qed.

Lemma grammar_throws lg t s s' v r : grammar_parse lg t s = (s', v, PThrow r) -> t = text_before t r ++ r.
Proof. intros H. apply attributes_tail in H as (b & ->). now rewrite before_rest. Qed.

(** A rejected line with a place: the place was found by the first reading.  The
    second one comes after a complete first one, and its failures do not reject
    the line. *)
Lemma rejected_expect lit libm atan log cabs stale cf st line data p p' v before rest ms lg : pr_grammar p = Some lg ->
  parse lit libm atan log cabs stale cf st line data p = (p', v, Answer false (MExpect before rest ms)) ->
  exists gs, grammar_parse lg data (pr_gs p) = (gs, v, PThrow rest) /\ before = text_before data rest.
Proof.
  intros G. unfold parse. rewrite G. destruct (grammar_parse lg data (pr_gs p)) as [[gs w] r] eqn:E.
  assert (F : forall ret (q : parser * option answer), no_expect q ->
    snd (match q with (p', None) => (p', Answer ret MNone) | (p', Some a) => (p', a) end) <> Answer false (MExpect before rest ms)).
  { intros ret [q [a|]] N H; [|discriminate]. cbn in H. subst a. exact N. }
  assert (K : forall ret w, (ret = true \/ w = []) -> snd (steps lit libm atan log cabs stale cf st line w ret (with_gs gs p)) <> Answer false (MExpect before rest ms)).
  { clear E. intros ret w0 RW. unfold steps. destruct (unique_code _ w0) as [u|e]; [|destruct e; discriminate]. destruct (negb _); [discriminate|].
    unfold macro_step. destruct (macro_evaluate lit libm _ line w0) as [[mv [m|]]|e]; [discriminate| |destruct e; discriminate].
    unfold macro_steps. destruct (evaluated_code (cf_ops cf) _ line w0) as [t|e] eqn:EC; [|destruct e; discriminate].
    destruct t as [|ch t]; [apply F, later_no_expect|]. destruct (pr_grammar _) as [lg'|]; [|discriminate].
    destruct (phrase_parse _ _ _ _ _) as [[gs2 v2] r2].
    assert (A : forall p, no_expect (andthen (select_grammar v2) (later_steps atan log cabs stale cf st line v2) p)).
    { intros q. unfold andthen. pose proof (select_on_expect v2 q) as S. destruct (select_grammar v2 q) as [q' [a|]]; [exact S|apply later_no_expect]. }
    destruct r2 as [| |rest2|e]; [apply F, A|apply F, A| |destruct e; discriminate].
    destruct RW as [->| ->]; [discriminate|]. discriminate EC. }
  destruct r as [| |r|e].
  - specialize (K true w (or_introl eq_refl)). destruct (steps _ _ _ _ _ _ _ _ _ _ _ _) as [q a]. intros H. injection H as _ _ H. contradiction.
  - apply nothing_read in E. specialize (K false w (or_intror E)). destruct (steps _ _ _ _ _ _ _ _ _ _ _ _) as [q a]. intros H. injection H as _ _ H. contradiction.
  - intros H. injection H as _ <- <- <- _. eauto.
  - intros H. destruct e; discriminate.
Qed.

Lemma columns_plain t : without "009" t -> forall col, columns col t = col + Z.of_nat (String.length t).
Proof.
  induction t as [|c t IH]; intros W col; cbn [columns String.length]; [lia|]. apply without_cons in W as [W1 W2]. destruct (Ascii.eqb_spec c "009"); [contradiction|].
  rewrite IH by exact W2. lia.
Qed.

Lemma last_line_same t : all_chars same_line t = true -> forall cur, last_line cur t = cur ++ t.
Proof.
  induction t as [|c t IH]; intros A cur; cbn [last_line]; [now rewrite string_app_nil|]. cbn [all_chars] in A. apply andb_true_iff in A as [A1 A2].
  unfold same_line in A1. apply negb_true_iff in A1. rewrite A1, IH by exact A2. now rewrite string_app_assoc.
Qed.

Lemma column_plain t : all_chars same_line t = true -> without "009" t -> column t = 1 + Z.of_nat (String.length t).
Proof. intros A W. unfold column. rewrite last_line_same by exact A. now apply columns_plain. Qed.

(** ** Documents *)

Lemma without_chars c t : without c t -> all_chars (fun x => negb (Ascii.eqb x c)) t = true.
Proof.
  induction t as [|x t IH]; [auto|]. intros H. apply without_cons in H as [H1 H2]. cbn. rewrite IH by exact H2.
  destruct (Ascii.eqb_spec x c); [contradiction|reflexivity].
Qed.

Lemma without_check c l : forallb (fun t => negb (contains (String c "") t)) l = true -> Forall (without c) l.
Proof.
  intros H. apply Forall_forall. intros t I. rewrite forallb_forall in H. specialize (H t I). apply negb_true_iff in H.
  intros a b E. rewrite E in H. clear -H. induction a as [|x a IH]; cbn [append contains] in H.
  - assert (P : prefix (String c "") (String c b) = true) by (cbn; destruct (ascii_dec c c); [now destruct b|contradiction]). rewrite P in H. discriminate.
  - apply IH. destruct (prefix _ (String x _)); [discriminate|exact H].
Qed.

Lemma occurs_check p m : replace_first p "" m = None -> ~ occurs p m.
Proof.
  intros H (a & b & ->). revert H. assert (P : prefix p (p ++ b) = true) by (apply prefix_iff; eauto).
  induction a as [|c a IH]; cbn [append]; intros H.
  - destruct (p ++ b); cbn [replace_first] in H; rewrite P in H; discriminate.
  - cbn [replace_first] in H. destruct (prefix p (String c (a ++ p ++ b))); [discriminate|].
    destruct (replace_first p "" (a ++ p ++ b)) eqn:E; [discriminate|]. auto.
Qed.

Lemma without_same t : without lf t -> without "013" t -> all_chars same_line t = true.
Proof.
  induction t as [|x t IH]; [auto|]. intros H K. apply without_cons in H as [H1 H2]. apply without_cons in K as [K1 K2]. cbn. rewrite IH by auto.
  unfold same_line, is_line_end. destruct (Ascii.eqb_spec x "010"); [contradiction|]. destruct (Ascii.eqb_spec x "013"); [contradiction|reflexivity].
Qed.

Lemma lines_without_lf code l : In l (split_lines code) -> without lf l.
Proof.
  destruct (lines_spec code) as (segs & (F & _) & T). intros I. induction T as [|s t segs ts Hst T IH]; [destruct I|].
  inversion F as [|? ? F1 F2]; subst. destruct I as [->|I]; [|now apply IH]. destruct Hst as ((w & E & _) & _). rewrite E in F1. eapply without_app_l; exact F1.
Qed.

Section Document.
Variable lit : string -> dbl.
Variable libm : string -> dbl -> dbl.
Variables atan log cabs : dbl -> dbl.
Variable stale : Z.
Variable range_what : string.
Notation flp := (fanuc_line_parser lit libm atan log cabs stale range_what).

Lemma parse_has_text l st line data cf p p' v ret m : starts_with_letter range_what ->
  parse lit libm atan log cabs stale cf st line data p = (p', v, Answer ret m) -> message_text range_what l m <> "" <-> has_message m = true.
Proof. intros R P. apply message_has_text; [exact R|]. eapply parse_shown; exact P. Qed.

Lemma rejected_text cf : forall lines st n x l m, (forall l, In l lines -> all_chars same_line l = true) ->
  In (x, l, m) (rejected (verdicts (flp cf) st n lines)) ->
  exists msg, m = message_text range_what English msg /\ shown_message msg /\ on_line msg.
Proof.
  induction lines as [|l0 lines IH]; intros st n x l m C I; cbn [verdicts rejected] in I; [destruct I|].
  destruct (String.eqb l0 ""); [eapply IH; [|exact I]; cbn in C; auto|]. cbn in I, C.
  destruct (parse lit libm atan log cabs stale cf server_settings n l0 st) as [[p' v] [ret msg|e]] eqn:P; [|destruct I].
  destruct ret; cbn [rejected] in I; [eapply IH; [|exact I]; auto|]. destruct I as [I|I]; [|eapply IH; [|exact I]; auto].
  injection I as _ _ <-. exists msg. split; [reflexivity|]. split; [eapply parse_shown; exact P|]. eapply parse_on_line; [|exact P]. auto.
Qed.

(** A message with a place quotes the line from there. *)
Definition quotes (l m : string) : Prop :=
  starts_with_letter m \/ m = "" \/ exists before rest more, l = before ++ rest /\ all_chars same_line before = true /\
    m = "1:" ++ nat_to_string (column before) ++ ": " ++ rest ++ more.

Lemma rejected_quotes cf : starts_with_letter range_what -> forall lines st n x l m, (forall l, In l lines -> all_chars same_line l = true) ->
  In (x, l, m) (rejected (verdicts (flp cf) st n lines)) -> quotes l m.
Proof.
  intros R. induction lines as [|l0 lines IH]; intros st n x l m C I; cbn [verdicts rejected] in I; [destruct I|].
  destruct (String.eqb l0 ""); [eapply IH; [|exact I]; cbn in C; auto|]. cbn in I, C.
  destruct (parse lit libm atan log cabs stale cf server_settings n l0 st) as [[p' v] [ret msg|e]] eqn:P; [|destruct I].
  destruct ret; cbn [rejected] in I; [eapply IH; [|exact I]; auto|]. destruct I as [I|I]; [|eapply IH; [|exact I]; auto].
  injection I as _ <- <-. pose proof (parse_shown _ _ _ _ _ _ _ _ _ _ _ _ _ _ _ P) as S.
  pose proof (parse_on_line _ _ _ _ _ _ _ _ _ _ _ _ _ _ _ (C _ (or_introl eq_refl)) P) as O. unfold quotes.
  destruct msg as [|ms|before rest ms|e]; cbn in S, O |- *.
  - auto.
  - destruct (grammar_letter English ms S) as [->|H]; auto.
  - right. right. destruct (pr_grammar st) as [lg|] eqn:G; [|unfold parse in P; rewrite G in P; discriminate].
    destruct (rejected_expect _ _ _ _ _ _ _ _ _ _ _ _ _ _ _ _ _ G P) as (gs & E & ->). apply grammar_throws in E.
    exists (text_before l0 rest), rest. eexists. split; [exact E|]. split; [exact O|].
    unfold expectation_text. rewrite (lines_one None _ O). reflexivity.
  - left. apply (what_letter range_what English e R); apply S.
Qed.

Lemma quoted_place l m n ch : without "009" l -> quotes l m -> located n l m ch -> (ch = 0 /\ ~ exists r, m = "1:" ++ r) \/ points_at l m ch.
Proof.
  intros W [Q|[Q|(before & rest & more & E & A & Q)]] L.
  - left. assert (Z : ~ exists t, m = "1:" ++ t) by (intros (t & H); rewrite H in Q; discriminate). split; [|exact Z].
    inversion L as [M|c cs text r M|a r M]; [reflexivity| |reflexivity]. exfalso. apply Z. eexists. exact M.
  - left. rewrite Q in *. inversion L; subst; try discriminate. split; [reflexivity|]. intros (q & HQ). discriminate.
  - right. assert (WB : without "009" before) by (rewrite E in W; eapply without_app_l; exact W). pose proof (column_from before) as CF.
    destruct (nat_to_string_spec (column before)) as (N1 & N2 & N3 & _); [lia|]. pose proof (column_plain before A WB) as CP.
    assert (CH : ch = column before - 1).
    { inversion L as [M|c cs text r M D|a r M S D]; subst; try discriminate.
      - destruct D as (D1 & D2 & D3). cbn [append] in M. injection M as M. change (String ":" (text ++ r)) with (":" ++ (text ++ r)) in M.
        change (String ":" (String " " (rest ++ more))) with (":" ++ (String " " (rest ++ more))) in M. apply digits_front in M; auto. subst cs. lia.
      - cbn in M. injection M as <- _. discriminate. }
    exists before, rest, more, (nat_to_string (column before)). split; [exact E|]. split; [lia|]. split; [exact Q|].
    split; [exact N1|]. split; [exact N2|]. lia.
Qed.

Lemma rejected_located cf code st : starts_with_letter range_what -> (forall l, In l (split_lines code) -> without "013" l) ->
  let r := rejected (verdicts (flp cf) st 1 (split_lines code)) in
  (forall n l m, In (n, l, m) r -> clear n l m) -> forall n l m, In (n, l, m) r -> exists ch, located n l m ch.
Proof.
  intros R C r H n l m I. pose proof (H n l m I) as K. unfold r in I. apply rejected_text in I as (msg & -> & S & O).
  - now apply text_located.
  - intros t It. apply without_same; [eapply lines_without_lf; exact It|now apply C].
Qed.

Lemma server_placed cf path_time st code ms su st' : starts_with_letter range_what ->
  parse_document (flp cf) path_time st code = Ok (ms, su, st') ->
  Z.of_nat (List.length (split_lines code)) <= int_max -> (forall l, In l (split_lines code) -> without "013" l) ->
  let r := rejected (verdicts (flp cf) st 1 (split_lines code)) in
  (forall n l m, In (n, l, m) r -> clear n l m) ->
  exists ds, diagnostics ms = Ok ds /\
    Forall2 (fun '(n, l, m) d => dg_line d = n - 1 /\ located n l m (dg_char d) /\
      (without "009" l -> (dg_char d = 0 /\ ~ exists t, m = "1:" ++ t) \/ points_at l m (dg_char d))) r ds.
Proof.
  intros R H B C r K. destruct (diagnostics_placed (flp cf) path_time st code ms su st' H B) as (_ & ds & D & F); [now apply rejected_located|].
  exists ds. split; [exact D|]. change (rejected _) with r in F.
  assert (Q : forall n l m, In (n, l, m) r -> quotes l m).
  { intros n l m I. eapply rejected_quotes; [exact R| |exact I]. intros t It. apply without_same; [eapply lines_without_lf; exact It|now apply C]. }
  clear - F Q. induction F as [|[[n l] m] d r ds [H1 H2] F IH]; constructor.
  - split; [exact H1|]. split; [exact H2|]. intros W. eapply quoted_place; [exact W| |exact H2]. eapply Q. now left.
  - apply IH. intros n' l' m' I. apply (Q n' l' m'). now right.
Qed.
End Document.
