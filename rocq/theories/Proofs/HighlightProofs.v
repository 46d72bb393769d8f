(** What the editor colours as a comment is what the parser reads as one. *)
From Verif Require Import Model.Base Model.Attr Model.Grammar Model.Highlight Spec.HighlightSpec.
From Verif Require Import Proofs.Tactics Proofs.StringFacts Proofs.TextProofs Proofs.GrammarLex.
Local Open Scope string_scope. Local Open Scope list_scope. Local Open Scope Z_scope.

Definition okc (c : ascii) : bool := negb (Ascii.eqb c "(" || Ascii.eqb c ";").
Notation free := (all_chars okc).

Lemma all_app p a b : all_chars p (a ++ b)%string = all_chars p a && all_chars p b.
Proof. induction a as [|c a IH]; cbn; auto. now rewrite IH, Bool.andb_assoc. Qed.

Lemma all_weaken (p q : ascii -> bool) a : (forall c, p c = true -> q c = true) -> all_chars p a = true -> all_chars q a = true.
Proof. intro H. induction a as [|c a IH]; cbn; auto. rewrite !Bool.andb_true_iff. intros [A B]. auto. Qed.

(** [r] is what is left of [t] behind harmless text. *)
Definition behind (t r : string) : Prop := exists p, t = (p ++ r)%string /\ free p = true.

Lemma behind_refl t : behind t t. Proof. exists "". auto. Qed.
Lemma behind_trans a b c : behind a b -> behind b c -> behind a c.
Proof.
  intros (p & -> & P) (q & -> & Q). exists (p ++ q)%string. split; [now rewrite string_app_assoc|]. now rewrite all_app, P, Q.
Qed.

Ltac each_char := intros [[] [] [] [] [] [] [] []]; vm_compute; congruence.

Lemma blank_ok : forall c, is_blank c = true -> okc c = true. Proof. each_char. Qed.
Lemma digit_ok : forall c, is_digit c = true -> okc c = true. Proof. each_char. Qed.

Lemma behind_skip t : behind t (skip t).
Proof. destruct (skip_spec t) as (b & E & A & _). exists b. split; auto. eapply all_weaken; [exact blank_ok|exact A]. Qed.

Lemma behind_char cs t o r : opt_char cs t = (o, r) -> (forall c, in_set cs c = true -> okc c = true) -> behind t r.
Proof.
  intros E H. apply opt_char_spec in E as [-> O]. destruct o as [x|]; cbn; [|apply behind_refl].
  exists (String x ""). split; auto. cbn. now rewrite (H _ O).
Qed.

Lemma behind_run p t o r : opt_run p t = (o, r) -> (forall c, p c = true -> okc c = true) -> behind t r.
Proof.
  intros E H. apply opt_run_spec in E as (-> & O & _). destruct o as [x|]; cbn; [|apply behind_refl].
  exists x. split; auto. eapply all_weaken; [exact H|tauto].
Qed.

Lemma eqb_ok x c : okc x = true -> Ascii.eqb x c = true -> okc c = true.
Proof. intros H E. apply Ascii.eqb_eq in E. now subst. Qed.

Lemma number_behind b w asg t d r : number_tail b w asg t = (d, r) -> behind t r.
Proof.
  unfold number_tail. destruct (opt_char "-+" (skip t)) as [sg t1] eqn:E1.
  destruct (if b then opt_run (Ascii.eqb "[") (skip t1) else (None, t1)) as [op t2] eqn:E2.
  destruct (opt_char "#" (skip t2)) as [mc t3] eqn:E3. destruct (opt_run is_digit (skip t3)) as [v t4] eqn:E4.
  destruct (opt_char "." t4) as [dt t5] eqn:E5. destruct (opt_run is_digit t5) as [v2 t6] eqn:E6.
  destruct (opt_run (Ascii.eqb "]") (skip t6)) as [cl t7] eqn:E7. intro H. injection H as <- <-.
  eapply behind_trans; [apply behind_skip|]. eapply behind_trans; [eapply behind_char; [exact E1|each_char]|].
  assert (X : behind t1 t2).
  { destruct b; [|injection E2 as _ <-; apply behind_refl]. eapply behind_trans; [apply behind_skip|].
    eapply behind_run; [exact E2|]. intros c Q. eapply eqb_ok; [|exact Q]. reflexivity. }
  eapply behind_trans; [exact X|]. eapply behind_trans; [apply behind_skip|]. eapply behind_trans; [eapply behind_char; [exact E3|each_char]|].
  eapply behind_trans; [apply behind_skip|]. eapply behind_trans; [eapply behind_run; [exact E4|exact digit_ok]|].
  eapply behind_trans; [eapply behind_char; [exact E5|each_char]|]. eapply behind_trans; [eapply behind_run; [exact E6|exact digit_ok]|].
  eapply behind_trans; [apply behind_skip|]. eapply behind_run; [exact E7|]. intros c Q. eapply eqb_ok; [|exact Q]. reflexivity.
Qed.

Section Line.
Variable wm : word_map.
Variables dec asg : list string.
Hypothesis Hdec : no_comment_signs dec.
Hypothesis Hasg : no_comment_signs asg.

Lemma behind_sym l t w : no_comment_signs l -> sym_match l t = Some w -> behind t (drop (String.length w) t).
Proof.
  intros H E. apply sym_match_some in E as (I & P & _). apply prefix_iff in P as (x & ->). rewrite drop_app.
  exists w. split; [reflexivity|exact (H _ I)].
Qed.

Lemma checked_behind d r s s' a r' : checked wm d r s = (s', ROk a r') -> a = ADec d /\ r' = r.
Proof. unfold checked. destruct (verify wm d s) as [s1 [| |e]]; intro H; inv H; auto. Qed.

(** What a rule reads: a comment, or harmless text. *)
Definition reads (t : string) (a : attr) (r : string) : Prop :=
  (comments [a] = [] /\ behind t r) \/
  exists p v, t = (p ++ "(" ++ v ++ ")" ++ r)%string /\ free p = true /\ all_chars (fun c => negb (Ascii.eqb c ")")) v = true /\ comments [a] = [v].

Lemma decimal_reads t s s' a r : decimal_rule wm dec asg t s = (s', ROk a r) -> reads t a r.
Proof.
  unfold decimal_rule. destruct (assign_ahead asg (skip t)); [discriminate|].
  destruct (sym_match dec (skip t)) as [w|] eqn:E; [|discriminate].
  destruct (number_tail true w None (drop (String.length w) (skip t))) as [d r1] eqn:N. intro H.
  apply checked_behind in H as [-> ->]. left. split; [reflexivity|].
  eapply behind_trans; [apply behind_skip|]. eapply behind_trans; [eapply behind_sym; [exact Hdec|exact E]|]. eapply number_behind; exact N.
Qed.

Lemma slash_reads b t s s' a r : slash_rule wm b t s = (s', ROk a r) -> reads t a r.
Proof.
  unfold slash_rule. destruct (skip t) as [|c t1] eqn:E; [discriminate|].
  destruct (Ascii.eqb_spec c "/") as [->|N].
  - destruct (number_tail b "/" None t1) as [d r1] eqn:T. intro H.
    assert (K : checked wm d r1 s = (s', ROk a r)).
    { destruct (skip t1) as [|c2 t2]; [exact H|]. revert H. destruct c2 as [[] [] [] [] [] [] [] []]; try (intro H; exact H); discriminate. }
    apply checked_behind in K as [-> ->]. left. split; [reflexivity|].
    eapply behind_trans; [apply behind_skip|]. rewrite E. eapply behind_trans; [|eapply number_behind; exact T].
    exists "/". auto.
  - intro H. exfalso. revert H. destruct c as [[] [] [] [] [] [] [] []]; try discriminate. now destruct N.
Qed.

Lemma assignable_reads t s s' a r : assignable_rule wm asg t s = (s', ROk a r) -> reads t a r.
Proof.
  unfold assignable_rule. destruct (sym_match asg (skip t)) as [w|] eqn:E; [|discriminate].
  destruct (skip (drop (String.length w) (skip t))) as [|c t1] eqn:F; [discriminate|].
  destruct (Ascii.eqb_spec c "=") as [->|N].
  - destruct (number_tail true w (Some "="%char) t1) as [d r1] eqn:T. intro H.
    apply checked_behind in H as [-> ->]. left. split; [reflexivity|].
    eapply behind_trans; [apply behind_skip|]. eapply behind_trans; [eapply behind_sym; [exact Hasg|exact E]|].
    eapply behind_trans; [apply behind_skip|]. rewrite F. eapply behind_trans; [|eapply number_behind; exact T]. exists "=". auto.
  - intro H. exfalso. revert H. destruct c as [[] [] [] [] [] [] [] []]; try discriminate. now destruct N.
Qed.

Lemma comment_reads t a r : comment_rule t = ROk a r -> reads t a r.
Proof.
  unfold comment_rule. destruct (skip_spec t) as (b & Et & B & _). destruct (skip t) as [|c t1] eqn:E; [discriminate|].
  destruct (Ascii.eqb_spec c "(") as [->|N].
  - pose proof (span_spec (fun c => negb (Ascii.eqb c ")")) t1) as S. destruct (span _ t1) as [v r1]. destruct S as (-> & A & Z).
    destruct r1 as [|c r1]; [discriminate|]. intro H. injection H as <- <-. right. exists b, v.
    apply Bool.negb_false_iff, Ascii.eqb_eq in Z as ->. split; [exact Et|]. split; [eapply all_weaken; [exact blank_ok|exact B]|].
    split; [exact A|reflexivity].
  - intro H. exfalso. revert H. destruct c as [[] [] [] [] [] [] [] []]; try discriminate. now destruct N.
Qed.

Lemma char_reads t a r : char_rule t = ROk a r -> reads t a r.
Proof.
  unfold char_rule. destruct t as [|c t1]; [discriminate|]. destruct (Ascii.eqb_spec c ",") as [->|N].
  - pose proof (span_spec is_blank t1) as S. destruct (span is_blank t1) as [x y]. destruct S as (-> & A & _).
    destruct x as [|x0 x]; [discriminate|]. intro H. injection H as <- <-. left. split; [reflexivity|].
    exists (String "," (String x0 x)). split; [reflexivity|]. change (okc "," && free (String x0 x) = true).
    rewrite (all_weaken _ _ _ blank_ok A). reflexivity.
  - intro H. exfalso. revert H. destruct c as [[] [] [] [] [] [] [] []]; try discriminate. now destruct N.
Qed.

Lemma name_ok : forall c, is_name_char c = true -> okc c = true. Proof. each_char. Qed.
Lemma alpha_ok : forall c, is_alpha c = true -> okc c = true. Proof. each_char. Qed.

Lemma behind_span p t : (forall c, p c = true -> okc c = true) -> behind t (snd (span p t)).
Proof.
  intro H. pose proof (span_spec p t) as S. destruct (span p t) as [x y]. destruct S as (-> & A & _). exists x. split; auto.
  eapply all_weaken; [exact H|exact A].
Qed.

Lemma name_reads t a r : program_name_rule t = ROk a r -> reads t a r.
Proof.
  unfold program_name_rule. pose proof (behind_skip t) as Bt. destruct (skip t) as [|c t1] eqn:E; [discriminate|].
  destruct (Ascii.eqb_spec c "O") as [->|N].
  - pose proof (behind_span is_name_char t1 name_ok) as Sp. destruct (span is_name_char t1) as [x y]. cbn [snd] in Sp.
    destruct x as [|x0 x]; [discriminate|]. intro H. injection H as <- <-. left. split; [reflexivity|].
    eapply behind_trans; [exact Bt|]. eapply behind_trans; [exists "O"; split; [reflexivity|reflexivity]|].
    eapply behind_trans; [exact Sp|]. eapply behind_trans; [apply (behind_span is_blank), blank_ok|]. apply behind_span, alpha_ok.
  - intro H. exfalso. revert H. destruct c as [[] [] [] [] [] [] [] []]; try discriminate. now destruct N.
Qed.

Lemma start_reads t a r : start_program_rule t = ROk a r -> reads t a r.
Proof.
  unfold start_program_rule. pose proof (behind_skip t) as Bt. destruct (skip t) as [|c t1] eqn:E; [discriminate|].
  destruct (Ascii.eqb_spec c "%") as [->|N].
  - pose proof (behind_skip t1) as B1. destruct (skip t1); [|discriminate]. intro H. injection H as <- <-. left. split; [reflexivity|].
    eapply behind_trans; [exact Bt|]. eapply behind_trans; [|exact B1]. exists "%". auto.
  - intro H. exfalso. revert H. destruct c as [[] [] [] [] [] [] [] []]; try discriminate. now destruct N.
Qed.

Lemma orelse_ok r f s' a x : orelse r f = (s', ROk a x) -> r = (s', ROk a x) \/ exists s, r = (s, RFail) /\ f s = (s', ROk a x).
Proof. destruct r as [s []]; cbn; intro H; auto; try discriminate. right. eauto. Qed.

Lemma attribute_reads t s s' a r : line_attribute wm dec asg t s = (s', ROk a r) -> reads t a r.
Proof.
  unfold line_attribute. intro H.
  apply orelse_ok in H as [H|(s1 & _ & H)]; [injection H as _ H; now apply char_reads|].
  apply orelse_ok in H as [H|(s2 & _ & H)]; [eapply decimal_reads; exact H|].
  apply orelse_ok in H as [H|(s3 & _ & H)]; [eapply slash_reads; exact H|].
  apply orelse_ok in H as [H|(s4 & _ & H)]; [eapply assignable_reads; exact H|].
  apply orelse_ok in H as [H|(s5 & _ & H)]; [eapply slash_reads; exact H|].
  apply orelse_ok in H as [H|(s6 & _ & H)]; [injection H as _ H; now apply comment_reads|].
  apply orelse_ok in H as [H|(s7 & _ & H)]; [injection H as _ H; now apply start_reads|].
  injection H as _ H. now apply name_reads.
Qed.

Lemma laid_out_behind t r cs marks : behind t r -> laid_out r cs marks -> exists marks', laid_out t cs marks'.
Proof.
  intros (p & -> & P) L. destruct L as [q Q|q v t cs marks Q V L].
  - eexists. apply lo_text. change (free (p ++ q)%string = true). rewrite all_app, P. exact Q.
  - eexists. rewrite <- string_app_assoc. eapply lo_comment; [|exact V|exact L].
    change (free (p ++ q)%string = true). rewrite all_app, P. exact Q.
Qed.

Lemma comments_app a b : comments (a ++ b) = comments a ++ comments b.
Proof. induction a as [|x a IH]; cbn; auto. destruct x as [|w v|]; auto. destruct (String.eqb w "("); cbn; now rewrite IH. Qed.

Lemma line_laid_out fuel : forall t v s s' b, line_attributes wm dec asg fuel t v s = (s', b, PTrue) ->
  exists b', b = v ++ b' /\ exists marks, laid_out t (comments b') marks.
Proof.
  induction fuel as [|fuel IH]; intros t v s s' b H; cbn [line_attributes] in H; [discriminate|].
  destruct (line_attribute wm dec asg t s) as [s1 [|a r|r|e]] eqn:E; try discriminate.
  - destruct v as [|v0 v]; [congruence|]. destruct (skip t) eqn:K; [|congruence]. injection H as _ <-. exists []. split; [now rewrite app_nil_r|].
    pose proof (behind_skip t) as B. rewrite K in B. eapply laid_out_behind; [exact B|]. apply (lo_text ""). reflexivity.
  - apply IH in H as (b' & -> & marks & L). exists (a :: b'). split; [now rewrite <- app_assoc|].
    apply attribute_reads in E. change (comments (a :: b')) with (comments ([a] ++ b')). rewrite comments_app.
    destruct E as [[-> B]|(p & x & -> & P & X & ->)].
    + eapply laid_out_behind; [exact B|exact L].
    + eexists. eapply lo_comment; [exact P|exact X|exact L].
Qed.
End Line.

(** ** The colours *)
Definition is_remark (sc : scope) : bool := match sc with Remark => true | _ => false end.
Definition closed (r : string) : Prop := match r with String c _ => c = "("%char | "" => True end.

Lemma prefix_free w : forall p r, free w = true -> closed r -> prefix w (p ++ r)%string = true -> (String.length w <= String.length p)%nat.
Proof.
  induction w as [|c w IH]; intros p r F C H; [cbn; lia|]. cbn in F. apply andb_prop in F as [Fc F].
  destruct p as [|d p]; cbn [append prefix] in H.
  - destruct r as [|d r]; [discriminate|]. cbn in C. subst d. destruct (ascii_dec c "(") as [->|N]; [vm_compute in Fc; discriminate Fc|].
    cbn in H. destruct (ascii_dec c "("); [contradiction|discriminate H].
  - cbn in H. destruct (ascii_dec c d); [|discriminate H]. cbn. apply le_n_S. eapply IH; eauto.
Qed.

Definition plain_place (st : place) (n : nat) : Prop :=
  match st with Between => True | Inside k sc => (S k <= n)%nat /\ sc <> Remark | _ => False end.


Lemma inside_plain w sc n : (String.length w <= S n)%nat -> sc <> Remark -> plain_place (inside w sc) n.
Proof. intros L S. unfold inside. destruct (String.length w) as [|[|k]]; cbn; auto. split; auto. lia. Qed.

Lemma top_plain c p r sc st : okc c = true -> closed r -> top_rule (String c p ++ r)%string = (sc, st) -> sc <> Remark /\ plain_place st (String.length p).
Proof.
  intros F C. unfold top_rule.
  assert (K : forall l w, forallb (all_chars okc) l = true -> find (fun w => prefix w (String c p ++ r)%string) l = Some w -> (String.length w <= S (String.length p))%nat).
  { intros l w Fl H. apply find_some in H as [I P]. rewrite forallb_forall in Fl. exact (prefix_free w (String c p) r (Fl _ I) C P). }
  destruct (find _ keywords) as [w|] eqn:E1; [intro H; injection H as <- <-|].
  { split; [discriminate|]. apply inside_plain; [|discriminate]. eapply K; [|exact E1]. reflexivity. }
  destruct (find _ axes) as [w|] eqn:E2; [intro H; injection H as <- <-|].
  { split; [discriminate|]. apply inside_plain; [|discriminate]. eapply K; [|exact E2]. reflexivity. }
  destruct (find _ numbering) as [w|] eqn:E3; [intro H; injection H as <- <-|].
  { split; [discriminate|]. apply inside_plain; [|discriminate]. eapply K; [|exact E3]. reflexivity. }
  cbn [append]. unfold okc in F. apply Bool.negb_true_iff in F. rewrite F. intro H. injection H as <- <-. split; [discriminate|exact I].
Qed.

Lemma colours_text p : forall st r, free p = true -> closed r -> plain_place st (String.length p) ->
  exists l, colours st (p ++ r)%string = (l ++ fst (colours Between r), snd (colours Between r)) /\ map is_remark l = repeat false (String.length p).
Proof.
  induction p as [|c p IH]; intros st r F C P.
  - exists []. destruct st; cbn in P; try contradiction; [|lia]. cbn [append app map repeat String.length]. split; auto.
    now destruct (colours Between r).
  - cbn in F. apply andb_prop in F as [Fc F]. cbn [append colours].
    destruct st as [|k sc| |]; cbn in P; try contradiction.
    + change (String c (p ++ r))%string with (String c p ++ r)%string. destruct (top_rule (String c p ++ r)%string) as [sc st'] eqn:T.
      destruct (top_plain _ _ _ _ _ Fc C T) as [S P']. destruct (IH st' r F C P') as (l & -> & M).
      exists (sc :: l). split; [reflexivity|]. cbn. rewrite M. destruct sc; auto. congruence.
    + destruct P as [L S]. assert (P' : plain_place (match k with O => Between | S k' => Inside k' sc end) (String.length p)).
      { destruct k; cbn; auto. split; auto. lia. }
      destruct (IH _ r F C P') as (l & -> & M). exists (sc :: l). split; [reflexivity|]. cbn. rewrite M. destruct sc; auto. congruence.
Qed.

Lemma colours_remark v : forall r, all_chars (fun c => negb (Ascii.eqb c ")")) v = true -> all_chars (fun c => negb (Ascii.eqb c "\")) v = true ->
  exists l, colours InRemark (v ++ String ")" r)%string = (l ++ fst (colours Between r), snd (colours Between r)) /\ map is_remark l = repeat true (S (String.length v)).
Proof.
  induction v as [|c v IH]; intros r V B.
  - exists [Remark]. split; [|reflexivity]. cbn. now destruct (colours Between r).
  - cbn in V, B. apply andb_prop in V as [Vc V], B as [Bc B]. apply Bool.negb_true_iff in Vc, Bc.
    destruct (IH r V B) as (l & E & M). exists (Remark :: l). cbn [append colours]. unfold remark_rule. rewrite Vc, Bc. cbn [andb].
    rewrite E. split; [reflexivity|]. cbn [map is_remark String.length]. rewrite M. reflexivity.
Qed.

Lemma all_mid p a b c : all_chars p (a ++ b ++ c)%string = true -> all_chars p a = true /\ all_chars p b = true /\ all_chars p c = true.
Proof. rewrite !all_app, !Bool.andb_true_iff. tauto. Qed.


Lemma colours_laid_out t cs marks : laid_out t cs marks -> all_chars (fun c => negb (Ascii.eqb c "\")) t = true ->
  exists marks', laid_out t cs marks' /\ map is_remark (fst (colours Between t)) = marks' /\ snd (colours Between t) = Between.
Proof.
  intro L. induction L as [p P|p v t cs marks P V L IH]; intro B.
  - exists (repeat false (String.length p)). split; [now apply lo_text|].
    destruct (colours_text p Between "" P I I) as (l & E & M). rewrite string_app_nil in E. rewrite E. cbn. rewrite app_nil_r. auto.
  - change (p ++ "(" ++ v ++ ")" ++ t)%string with (p ++ String "(" (v ++ String ")" t))%string in *.
    rewrite all_app in B. cbn [all_chars] in B. rewrite all_app in B. cbn [all_chars] in B. rewrite !Bool.andb_true_iff in B. destruct B as (_ & _ & Bv & _ & Bt).
    destruct (IH Bt) as (mk & L' & M & Sn). exists (repeat false (String.length p) ++ repeat true (String.length v + 2) ++ mk).
    split; [now apply lo_comment|].
    destruct (colours_text p Between (String "(" (v ++ String ")" t)) P eq_refl I) as (l & -> & Ml).
    destruct (colours_remark v t V Bv) as (l2 & E2 & M2).
    assert (E : colours Between (String "(" (v ++ String ")" t)) = (Remark :: l2 ++ fst (colours Between t), snd (colours Between t))).
    { change (colours Between (String "(" (v ++ String ")" t)))
        with (let '(l, e) := colours InRemark (v ++ String ")" t)%string in (Remark :: l, e)). rewrite E2. reflexivity. }
    rewrite E. cbn [fst snd]. split; [|exact Sn]. rewrite map_app, Ml. cbn [map is_remark]. rewrite map_app, M2, M.
    replace (String.length v + 2)%nat with (S (S (String.length v))) by lia. reflexivity.
Qed.

(** ** Lines do not disturb each other *)
Lemma colours_end line : forall st, st <> Escaped -> (forall k sc, st = Inside k sc -> (S k <= String.length line)%nat) -> line_end (snd (colours st line)) = Between.
Proof.
  assert (PL : forall w t, prefix w t = true -> (String.length w <= String.length t)%nat).
  { induction w as [|c w IH]; intros [|d t0] H; cbn in *; try lia; try discriminate. destruct (ascii_dec c d); [|discriminate]. specialize (IH _ H). lia. }
  assert (IN : forall w sc t, (String.length w <= S (String.length t))%nat -> inside w sc <> Escaped /\ forall k sc', inside w sc = Inside k sc' -> (S k <= String.length t)%nat).
  { intros w sc t0 L. unfold inside. destruct (String.length w) as [|[|n]]; split; try discriminate; intros k sc' E; inv E. lia. }
  assert (K : forall t st, (forall k sc, st = Inside k sc -> (S k <= String.length t)%nat) -> (st = Escaped -> t <> "") -> line_end (snd (colours st t)) = Between).
  { induction t as [|c t IH]; intros st A E.
    - cbn. destruct st; auto; [specialize (A _ _ eq_refl); cbn in A; lia|now destruct E].
    - cbn [colours].
      match goal with |- context[let '(sc, st') := ?x in _] => destruct x as [sc st'] eqn:X end.
      assert (Q : (forall k sc, st' = Inside k sc -> (S k <= String.length t)%nat) /\ (st' = Escaped -> t <> "")).
      { destruct st as [|k sc0| |].
        - unfold top_rule in X.
          assert (FW : forall l w, find (fun w => prefix w (String c t)) l = Some w -> (String.length w <= S (String.length t))%nat).
          { intros l w H. apply find_some in H as [_ H]. apply PL in H. exact H. }
          destruct (find _ keywords) as [w|] eqn:E1; [injection X as _ <-; destruct (IN w Keyword t (FW _ _ E1)); split; [auto|congruence]|].
          destruct (find _ axes) as [w|] eqn:E2; [injection X as _ <-; destruct (IN w Axis t (FW _ _ E2)); split; [auto|congruence]|].
          destruct (find _ numbering) as [w|] eqn:E3; [injection X as _ <-; destruct (IN w Numbering t (FW _ _ E3)); split; [auto|congruence]|].
          destruct (_ || _) in X; injection X as _ <-; split; congruence.
        - injection X as _ <-. specialize (A _ _ eq_refl). cbn in A. destruct k; split; try congruence. intros k' sc' H. injection H as <- <-. lia.
        - injection X as _ <-. unfold remark_rule. destruct (Ascii.eqb c ")"); [split; congruence|].
          destruct (Ascii.eqb c "\" && negb (String.eqb t "")) eqn:Y; split; try congruence. intros _ ->. rewrite Bool.andb_false_r in Y. discriminate.
        - injection X as _ <-. split; congruence. }
      destruct Q as [Q1 Q2]. specialize (IH st' Q1 Q2). destruct (colours st' t). exact IH. }
  intros st N A. apply K; auto.
Qed.

Lemma lines_apart ls : colour_lines Between ls = map (fun l => fst (colours Between l)) ls.
Proof.
  induction ls as [|l ls IH]; cbn; auto. pose proof (colours_end l Between) as E. destruct (colours Between l) as [c e]. cbn in *.
  rewrite E; [|discriminate|discriminate]. now rewrite IH.
Qed.

Lemma colours_inside w : forall k sc r, String.length w = S k ->
  firstn (S k) (fst (colours (Inside k sc) (w ++ r)%string)) = repeat sc (S k).
Proof.
  induction w as [|c w IH]; intros k sc r L; [discriminate|]. cbn in L. injection L as L. cbn [append colours].
  destruct k as [|k].
  - destruct (colours Between (w ++ r)%string). reflexivity.
  - specialize (IH k sc r L). destruct (colours (Inside k sc) (w ++ r)%string) as [l e]. cbn [fst] in *.
    change (firstn (S (S k)) (sc :: l)) with (sc :: firstn (S k) l). rewrite IH. reflexivity.
Qed.
