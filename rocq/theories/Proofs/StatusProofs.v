(** What the line grammar remembers from line to line. *)
From Verif Require Import Model.Base Model.Attr Model.Grammar Spec.Text Spec.GrammarSpec.
From Verif Require Import Proofs.Tactics Proofs.TextProofs Proofs.StringFacts Proofs.GrammarLex Proofs.GrammarTail Proofs.GrammarProofs Proofs.PrintProofs.

Lemma chars_skip p t : all_chars p t = true -> all_chars p (skip t) = true.
Proof. destruct (skip_spec t) as (b & E & _). intro H. rewrite E, all_chars_app in H. now apply andb_true_iff in H. Qed.

Lemma chars_drop p u t : prefix u t = true -> all_chars p t = true -> all_chars p (drop (String.length u) t) = true.
Proof. intros P H. apply prefix_iff in P as (b & ->). rewrite drop_app. rewrite all_chars_app in H. now apply andb_true_iff in H. Qed.

Lemma chars_span p q t : all_chars p t = true -> all_chars p (fst (span q t)) = true /\ all_chars p (snd (span q t)) = true.
Proof. intro H. pose proof (span_spec q t) as S. destruct (span q t) as [a b]. destruct S as (-> & _). rewrite all_chars_app in H. now apply andb_true_iff in H. Qed.

Lemma number_tail_chars p wo w asg r d rest : number_tail wo w asg r = (d, rest) -> all_chars p r = true ->
  all_chars p (tail_text d) = true /\ all_chars p rest = true.
Proof.
  unfold number_tail. intros H A.
  destruct (opt_char "-+" (skip r)) as [sg R0] eqn:E0.
  destruct (if wo then opt_run (Ascii.eqb "[") (skip R0) else (None, R0)) as [op R1] eqn:E1.
  destruct (opt_char "#" (skip R1)) as [mac R2] eqn:E2.
  destruct (opt_run is_digit (skip R2)) as [v R3] eqn:E3.
  destruct (opt_char "." R3) as [dot R4] eqn:E4.
  destruct (opt_run is_digit R4) as [v2 R5] eqn:E5.
  destruct (opt_run (Ascii.eqb "]") (skip R5)) as [cl R6] eqn:E6. inv H. unfold tail_text. cbn [d_sign d_open d_macro d_value d_dot d_value2 d_close].
  apply opt_char_spec in E0 as (P0 & Q0). apply opt_char_spec in E2 as (P2 & Q2). apply opt_run_spec in E3 as (P3 & _).
  apply opt_char_spec in E4 as (P4 & _). apply opt_run_spec in E5 as (P5 & _). apply opt_run_spec in E6 as (P6 & _).
  pose proof (chars_skip _ _ A) as A0. rewrite P0, all_chars_app in A0. apply andb_true_iff in A0 as [B0 A0].
  assert (X1 : all_chars p (opt_str op) = true /\ all_chars p R1 = true).
  { destruct wo; [|inv E1; auto]. apply opt_run_spec in E1 as (P1 & _). pose proof (chars_skip _ _ A0) as A1. rewrite P1, all_chars_app in A1. now apply andb_true_iff in A1. }
  destruct X1 as [B1 A1]. pose proof (chars_skip _ _ A1) as A2. rewrite P2, all_chars_app in A2. apply andb_true_iff in A2 as [B2 A2].
  pose proof (chars_skip _ _ A2) as A3. rewrite P3, all_chars_app in A3. apply andb_true_iff in A3 as [B3 A3].
  rewrite P4, all_chars_app in A3. apply andb_true_iff in A3 as [B4 A4]. rewrite P5, all_chars_app in A4. apply andb_true_iff in A4 as [B5 A5].
  pose proof (chars_skip _ _ A5) as A6. rewrite P6, all_chars_app in A6. apply andb_true_iff in A6 as [B6 A6].
  split; [|exact A6]. rewrite !all_chars_app, B0, B1, B3, B4, B5, B6. rewrite andb_true_l, andb_true_l, !andb_true_r.
  destruct mac as [m|]; [|reflexivity]. apply in_set_1 in Q2. subst m. cbn in B2 |- *. exact B2.
Qed.

(** ** Lines without brackets and macros leave nothing behind *)

Definition mark_free (c : ascii) : bool := negb (contains (String c "") "[]#").

Definition quiet (s : gstate) : Prop := gs_status s = status_init.

Lemma tail_parts p d : all_chars p (tail_text d) = true -> all_chars p (opt_str (d_open d)) = true /\ all_chars p (opt_str (d_macro d)) = true /\ all_chars p (opt_str (d_close d)) = true.
Proof. unfold tail_text. rewrite !all_chars_app, !andb_true_iff. tauto. Qed.

Lemma mark_free_tail wo d : tail_ok wo d -> all_chars mark_free (tail_text d) = true -> d_open d = None /\ d_macro d = None /\ d_close d = None.
Proof.
  intros (_ & Ho & _ & Hm & _ & _ & _ & _ & Hc) A. apply tail_parts in A as (A1 & A2 & A3). split; [|split].
  - destruct (d_open d) as [x|]; [|reflexivity]. exfalso. destruct Ho as [N B]. destruct x as [|c x]; [contradiction|]. cbn [opt_str] in A1.
    apply andb_true_iff in A1 as [A1 _]. apply andb_true_iff in B as [B _]. apply is_open_eq in B. subst. discriminate.
  - destruct Hm as [Hm|Hm]; [exact Hm|]. rewrite Hm in A2. discriminate.
  - destruct (d_close d) as [x|]; [|reflexivity]. exfalso. destruct Hc as [N B]. destruct x as [|c x]; [contradiction|]. cbn [opt_str] in A3.
    apply andb_true_iff in A3 as [A3 _]. apply andb_true_iff in B as [B _]. apply is_close_eq in B. subst. discriminate.
Qed.

Lemma verify_quiet wm d s : quiet s -> d_open d = None -> d_macro d = None -> d_close d = None -> d_word d <> "#"%string -> quiet (fst (verify wm d s)).
Proof.
  intros Q O M C N. unfold verify. rewrite O, C. cbn [str_len is_some andb]. destruct s as [st ms]. unfold quiet in Q. cbn in Q. subst st. cbn [gs_status status_init was_macro was_macro_equal open_cnt close_cnt].
  rewrite M. replace (String.eqb (d_word d) "#") with false by (symmetry; now apply String.eqb_neq).
  destruct (assoc (d_word d) wm) as [g|]; [|reflexivity]. cbn [andb orb negb]. unfold set_status. cbn [gs_message gs_status].
  assert (VM : forall g s, gs_status (fst (verify_missing g d s)) = gs_status s) by (intros; unfold verify_missing; destruct (_ || _); reflexivity).
  assert (VD : forall g s, gs_status (fst (verify_decimals g d s)) = gs_status s).
  { intros. unfold verify_decimals. destruct (d_dot d) as [x|]; [|reflexivity].
    destruct (ascii_dec x ".") as [->|Nx].
    - destruct (stoi _); [|reflexivity]. destruct (_ || _); reflexivity.
    - destruct x as [[] [] [] [] [] [] [] []]; try reflexivity. now contradiction Nx. }
  assert (VR : forall g s, gs_status (fst (verify_rest g d s)) = gs_status s).
  { intros. unfold verify_rest. destruct (_ && _); [|apply VD]. destruct (negb _); [apply VM|reflexivity]. }
  cbn [was_macro was_macro_equal open_cnt close_cnt]. cbn [negb]. rewrite andb_true_r. destruct (String.eqb (d_word d) "/").
  - unfold quiet, verify_optional. destruct (d_value d) as [v|].
    + destruct (stoi v) as [n|]; [|reflexivity]. destruct (_ || _); [reflexivity|]. destruct (_ || _); reflexivity.
    + destruct (_ || _); reflexivity.
  - unfold quiet, verify_value. cbn [gs_status open_cnt was_macro was_macro_equal]. change (0 <? 0 + 0) with false. change (0 <? 0) with false.
    destruct (d_value d) as [v|].
    + destruct (stoi v) as [n|]; [|reflexivity]. destruct (_ || _); [reflexivity|]. rewrite andb_false_r.
      destruct (calc_word (d_word d) && _); [reflexivity|]. destruct (g_dto g =? 0); [|rewrite VR; reflexivity].
      destruct (is_some (d_dot d)); reflexivity.
    + destruct (g_dto g =? 0); [rewrite VM; reflexivity|rewrite VR; reflexivity].
Qed.

Section Quiet.
Variable wm : word_map.
Variables dec asg : list string.

Definition rest_free (x : gstate * rule_result) : Prop :=
  quiet (fst x) /\ match snd x with ROk _ r => all_chars mark_free r = true | _ => True end.

Lemma checked_free wo w asgn b d r s : quiet s -> all_chars mark_free w = true -> all_chars mark_free b = true -> number_tail wo w asgn b = (d, r) ->
  rest_free (checked wm d r s).
Proof.
  intros Q W B NT. destruct (number_tail_chars _ _ _ _ _ _ _ NT B) as [A R]. apply number_tail_spec in NT as (Ew & _ & OK & _).
  destruct (mark_free_tail _ _ OK A) as (O & M & C).
  assert (N : d_word d <> "#"%string) by (rewrite Ew; intros ->; discriminate W).
  pose proof (verify_quiet wm d s Q O M C N) as V. unfold checked, rest_free. destruct (verify wm d s) as [x [| |]]; cbn in *; auto.
Qed.

Lemma orelse_free x f : rest_free x -> (forall s, quiet s -> rest_free (f s)) -> rest_free (orelse x f).
Proof. intros [Q R] F. unfold orelse. destruct x as [s [| | |]]; auto; split; auto. Qed.

Lemma sym_free l t w : sym_match l t = Some w -> all_chars mark_free t = true ->
  all_chars mark_free w = true /\ all_chars mark_free (drop (String.length w) t) = true.
Proof.
  intros M A. apply sym_match_some in M as (_ & P & _). apply prefix_iff in P as (b & ->). rewrite drop_app. rewrite all_chars_app in A. now apply andb_true_iff in A.
Qed.

Lemma attribute_free t s : quiet s -> all_chars mark_free t = true -> rest_free (line_attribute wm dec asg t s).
Proof.
  intros Q A. pose proof (chars_skip _ _ A) as AS. unfold line_attribute. repeat (apply orelse_free; [|clear s Q; intros s Q]).
  - split; [exact Q|]. cbn [snd]. destruct (char_rule t) as [|a r| |] eqn:E; auto.
    unfold char_rule in E. destruct t as [|c t]; [discriminate|]. assert (c = ","%char) by (destruct c as [[] [] [] [] [] [] [] []]; (discriminate E || reflexivity)). subst c.
    apply andb_true_iff in A as [_ A]. pose proof (chars_span mark_free is_blank t A) as [_ S]. destruct (span is_blank t) as [[|? ?] r']; [discriminate|]. inv E. exact S.
  - unfold decimal_rule. destruct (assign_ahead asg (skip t)); [split; [exact Q|exact I]|].
    destruct (sym_match dec (skip t)) as [w|] eqn:M; [|split; [exact Q|exact I]]. destruct (sym_free _ _ _ M AS) as [W D].
    destruct (number_tail true w None (drop (String.length w) (skip t))) as [d r] eqn:NT. exact (checked_free _ _ _ _ _ _ _ Q W ltac:(eassumption) NT).
  - unfold slash_rule. destruct (skip t) as [|c b]; [split; [exact Q|exact I]|].
    destruct (ascii_dec c "/") as [->|N]; [|destruct c as [[] [] [] [] [] [] [] []]; try (split; [exact Q|exact I]); now contradiction N].
    apply andb_true_iff in AS as [_ AB]. assert (K : rest_free (let '(d, r') := number_tail true "/" None b in checked wm d r' s)).
    { destruct (number_tail true "/" None b) as [d r] eqn:NT. refine (checked_free _ "/" _ _ _ _ _ Q _ AB NT). reflexivity. }
    destruct (skip b) as [|x y]; [exact K|]. destruct x as [[] [] [] [] [] [] [] []]; try exact K. split; [exact Q|exact I].
  - unfold assignable_rule. destruct (sym_match asg (skip t)) as [w|] eqn:M; [|split; [exact Q|exact I]]. destruct (sym_free _ _ _ M AS) as [W D].
    pose proof (chars_skip _ _ D) as DS. destruct (skip (drop (String.length w) (skip t))) as [|x y]; [split; [exact Q|exact I]|].
    destruct (ascii_dec x "=") as [->|N]; [|destruct x as [[] [] [] [] [] [] [] []]; try (split; [exact Q|exact I]); now contradiction N].
    apply andb_true_iff in DS as [_ DY]. destruct (number_tail true w (Some "="%char) y) as [d r] eqn:NT. exact (checked_free _ _ _ _ _ _ _ Q W ltac:(eassumption) NT).
  - unfold slash_rule. destruct (skip t) as [|c b]; [split; [exact Q|exact I]|].
    destruct (ascii_dec c "/") as [->|N]; [|destruct c as [[] [] [] [] [] [] [] []]; try (split; [exact Q|exact I]); now contradiction N].
    apply andb_true_iff in AS as [_ AB]. assert (K : rest_free (let '(d, r') := number_tail false "/" None b in checked wm d r' s)).
    { destruct (number_tail false "/" None b) as [d r] eqn:NT. refine (checked_free _ "/" _ _ _ _ _ Q _ AB NT). reflexivity. }
    destruct (skip b) as [|x y]; [exact K|]. destruct x as [[] [] [] [] [] [] [] []]; try exact K. split; [exact Q|exact I].
  - split; [exact Q|]. cbn [snd]. destruct (comment_rule t) as [|a r| |] eqn:E; auto. unfold comment_rule in E. destruct (skip t) as [|c b]; [discriminate|].
    assert (c = "("%char) by (destruct c as [[] [] [] [] [] [] [] []]; (discriminate E || reflexivity)). subst c. apply andb_true_iff in AS as [_ AB].
    pose proof (chars_span mark_free (fun c => negb (Ascii.eqb c ")")) b AB) as [_ S]. destruct (span (fun c => negb (Ascii.eqb c ")")) b) as [v [|q z]]; [discriminate|]. inv E.
    now apply andb_true_iff in S.
  - split; [exact Q|]. cbn [snd]. destruct (start_program_rule t) as [|a r| |] eqn:E; auto. unfold start_program_rule in E. destruct (skip t) as [|c b]; [discriminate|].
    assert (c = "%"%char) by (destruct c as [[] [] [] [] [] [] [] []]; (discriminate E || reflexivity)). subst c. destruct (skip b); [|discriminate]. inv E. reflexivity.
  - split; [exact Q|]. cbn [snd]. destruct (program_name_rule t) as [|a r| |] eqn:E; auto. unfold program_name_rule in E. destruct (skip t) as [|c b]; [discriminate|].
    assert (c = "O"%char) by (destruct c as [[] [] [] [] [] [] [] []]; (discriminate E || reflexivity)). subst c. apply andb_true_iff in AS as [_ AB].
    pose proof (chars_span mark_free is_name_char b AB) as [_ S]. destruct (span is_name_char b) as [[|? ?] z]; [discriminate|]. inv E.
    cbn [snd] in S. apply chars_span. apply chars_span. exact S.
Qed.

Lemma attributes_free f : forall t v s s' V r, quiet s -> all_chars mark_free t = true -> line_attributes wm dec asg f t v s = (s', V, r) -> quiet s'.
Proof.
  induction f as [|f IH]; intros t v s s' V r Q A H; [inv H; exact Q|]. cbn [line_attributes] in H.
  pose proof (attribute_free t s Q A) as [Q1 R1]. destruct (line_attribute wm dec asg t s) as [s1 R]. cbn in Q1, R1. destruct R.
  - destruct v; [inv H; exact Q1|]. destruct (skip t); inv H; exact Q1.
  - eapply IH; eauto.
  - inv H. exact Q1.
  - inv H. exact Q1.
Qed.
End Quiet.

(** The state after some lines. *)
Definition after_lines (lg : line_grammar) (h : list string) (s : gstate) : gstate :=
  fold_left (fun s t => fst (fst (grammar_parse lg t s))) h s.

Lemma lines_quiet lg h : forall s, quiet s -> Forall (fun t => all_chars mark_free t = true) h -> quiet (after_lines lg h s).
Proof.
  induction h as [|t h IH]; intros s Q F; [exact Q|]. inv F. unfold after_lines. cbn [fold_left]. apply IH; [|assumption].
  unfold grammar_parse, phrase_parse. destruct (line_attributes (lg_map lg) (lg_decimal lg) (lg_assignable lg) (S (String.length t)) t [] (mkGS (gs_status s) [])) as [[s' V] r] eqn:E.
  cbn [fst]. refine (attributes_free _ _ _ _ _ _ _ _ _ _ _ _ E); [exact Q|assumption].
Qed.

Lemma same_start lg t s1 s2 : gs_status s1 = gs_status s2 -> grammar_parse lg t s1 = grammar_parse lg t s2.
Proof. intro H. unfold grammar_parse. now rewrite H. Qed.

(** ** Lines of plain words do not look at what was remembered *)

(** A word with a number, without brackets and no calculation. *)
Definition steady (a : attr) : Prop :=
  match a with
  | ADec d => ~ In (d_word d) ["+"; "-"; "*"; "/"]%string /\ d_open d = None /\ d_close d = None /\ d_value d <> None
  | _ => True
  end.

Lemma verify_steady wm d s1 s2 : steady (ADec d) -> snd (verify wm d s1) = snd (verify wm d s2).
Proof.
  intros (N & O & C & V). unfold verify. rewrite O, C. cbn [str_len is_some andb]. destruct (assoc (d_word d) wm) as [g|]; [|reflexivity].
  destruct (d_macro d) as [m|].
  { destruct (d_value d) as [v|]; [|reflexivity]. destruct (verify_string wm m v); reflexivity. }
  replace (String.eqb (d_word d) "/") with false by (symmetry; apply String.eqb_neq; intro E; apply N; rewrite E; cbn; tauto). cbn [andb].
  unfold verify_value. destruct (d_value d) as [v|] eqn:EV; [|contradiction]. destruct (stoi v) as [n|]; [|reflexivity].
  destruct (_ || _); [reflexivity|].
  assert (CW : calc_word (d_word d) = false) by (apply mem_str_not_In; exact N). rewrite CW. cbn [andb].
  destruct (g_dto g =? 0); [destruct (is_some (d_dot d)); reflexivity|]. unfold verify_rest. rewrite EV. cbn [is_some negb].
  destruct (_ && _); [reflexivity|]. unfold verify_decimals. destruct (d_dot d) as [x|]; [|reflexivity].
  destruct (ascii_dec x ".") as [->|Nx].
  - destruct (stoi _); [|reflexivity]. destruct (_ || _); reflexivity.
  - destruct x as [[] [] [] [] [] [] [] []]; try reflexivity. now contradiction Nx.
Qed.

Lemma checked_steady wm d r s1 s1' a rest s2 : checked wm d r s1 = (s1', ROk a rest) -> steady a -> exists s2', checked wm d r s2 = (s2', ROk a rest).
Proof.
  intros H S. apply checked_ok in H as (V & -> & ->). unfold checked. pose proof (verify_steady wm d s1 s2 S) as E. rewrite V in E. cbn in E.
  destruct (verify wm d s2) as [x y]. cbn in E. subst y. eauto.
Qed.

Section Steady.
Variable wm : word_map.
Variables dec asg : list string.
Hypothesis T : tables_ok wm dec asg.

Lemma slash_not_steady o t s s' a rest : slash_rule wm o t s = (s', ROk a rest) -> steady a -> False.
Proof.
  intros H S. apply slash_tail in H as (b & d & _ & _ & NT & -> & _). apply number_tail_spec in NT as (W & _). destruct S as [N _]. apply N. rewrite W. cbn. tauto.
Qed.

Lemma name_unmatched r : sym_match asg (String "O" r) = None.
Proof.
  apply sym_match_none. intros u U. destruct (prefix u (String "O" r)) eqn:P; [|reflexivity]. exfalso.
  destruct (to_chars _ _ _ T u) as (NE & _); [auto|]. destruct u as [|u0 u]; [contradiction|].
  apply prefix_iff in P as (b & P). cbn in P. inv P. apply (to_name _ _ _ T u). exact U.
Qed.

Lemma attribute_steady t s1 s1' a rest s2 : line_attribute wm dec asg t s1 = (s1', ROk a rest) -> steady a ->
  exists s2', line_attribute wm dec asg t s2 = (s2', ROk a rest).
Proof.
  intros H S. destruct (char_rule_cases t) as [C|(r & C)].
  2:{ unfold line_attribute in *. rewrite C in *. cbn [orelse] in *. inv H. eauto. }
  destruct (skip t) as [|c r] eqn:E; [rewrite (la_blank wm dec asg T) in H by exact E; discriminate|].
  destruct (ascii_dec c "/") as [->|N1]; [|destruct (ascii_dec c "(") as [->|N2]; [|destruct (ascii_dec c "%") as [->|N3]]].
  - rewrite (la_slash wm dec asg T t r s1 C E) in H. exfalso. destruct (slash_rule wm true t s1) as [x R] eqn:S1. destruct R; cbn [orelse] in H; try discriminate.
    + eapply slash_not_steady; eauto.
    + inv H. eapply slash_not_steady; eauto.
  - rewrite (la_comment wm dec asg T t r s1 C E) in H. rewrite (la_comment wm dec asg T t r s2 C E). inv H. rewrite H2. eauto.
  - rewrite (la_percent wm dec asg T t r s1 C E) in H. rewrite (la_percent wm dec asg T t r s2 C E). inv H. rewrite H2. eauto.
  - assert (OS : other_start c) by (repeat split; assumption). rewrite (la_word wm dec asg t c r s1 C E OS) in H. rewrite (la_word wm dec asg t c r s2 C E OS).
    unfold decimal_rule in *. rewrite E in *. destruct (assign_ahead asg (String c r)) eqn:AA.
    + cbn [orelse] in *. unfold assignable_rule in *. rewrite E in *. unfold assign_ahead in AA. destruct (sym_match asg (String c r)) as [u|] eqn:U; [|discriminate].
      destruct (skip (drop (String.length u) (String c r))) as [|q z]; [discriminate|].
      assert (q = "="%char) by (destruct q as [[] [] [] [] [] [] [] []]; (discriminate AA || reflexivity)). subst q.
      destruct (number_tail true u (Some "="%char) z) as [d rr]. destruct (checked wm d rr s1) as [x R] eqn:K.
      destruct R as [|a1 r1| |]; cbn [orelse] in H; try discriminate.
      * exfalso. inv H. unfold program_name_rule in H2. rewrite E in H2. assert (c = "O"%char) by (destruct c as [[] [] [] [] [] [] [] []]; (discriminate H2 || reflexivity)). subst c.
        rewrite name_unmatched in U. discriminate.
      * inv H. destruct (checked_steady _ _ _ _ _ _ _ s2 K S) as (s2' & K2). rewrite K2. cbn [orelse]. eauto.
    + destruct (sym_match dec (String c r)) as [w|] eqn:M.
      * destruct (number_tail true w None (drop (String.length w) (String c r))) as [d rr] eqn:NT. destruct (checked wm d rr s1) as [x R] eqn:K.
        destruct R as [|a1 r1| |]; cbn [orelse] in H; try discriminate.
        -- exfalso. unfold assignable_rule in H. rewrite E in H. unfold assign_ahead in AA. destruct (sym_match asg (String c r)) as [u|] eqn:U.
           { destruct (skip (drop (String.length u) (String c r))) as [|q z]; [discriminate H|].
             destruct q as [[] [] [] [] [] [] [] []]; discriminate. }
           cbn [orelse] in H. inv H. unfold program_name_rule in H2. rewrite E in H2. assert (c = "O"%char) by (destruct c as [[] [] [] [] [] [] [] []]; (discriminate H2 || reflexivity)). subst c.
           apply number_tail_spec in NT as (W & _). apply sym_match_some in M as (I & P & _). destruct (to_chars _ _ _ T w) as (NE & _); [auto|]. destruct w as [|w0 w]; [contradiction|].
           apply prefix_iff in P as (b & P). cbn in P. inv P. unfold checked, verify in K. rewrite W in K.
           destruct (to_name _ _ _ T w) as [Q1 _]. rewrite (Q1 I) in K. discriminate.
        -- inv H. destruct (checked_steady _ _ _ _ _ _ _ s2 K S) as (s2' & K2). rewrite K2. cbn [orelse]. eauto.
      * cbn [orelse] in *. unfold assignable_rule in *. rewrite E in *. unfold assign_ahead in AA. destruct (sym_match asg (String c r)) as [u|] eqn:U.
        { destruct (skip (drop (String.length u) (String c r))) as [|q z]; [discriminate H|]. destruct q as [[] [] [] [] [] [] [] []]; discriminate. }
        cbn [orelse] in *. inv H. rewrite H2. eauto.
Qed.

Lemma attributes_steady f : forall t v0 s1 s1' V s2, line_attributes wm dec asg f t v0 s1 = (s1', V, PTrue) -> Forall steady V ->
  exists s2', line_attributes wm dec asg f t v0 s2 = (s2', V, PTrue).
Proof.
  induction f as [|f IH]; intros t v0 s1 s1' V s2 H F; [discriminate|]. cbn [line_attributes] in *.
  destruct (line_attribute wm dec asg t s1) as [x R] eqn:E. destruct R as [|a r| |]; try discriminate.
  - destruct v0 as [|a0 v0]; [discriminate|]. destruct (skip t) eqn:ST; [|discriminate]. inv H. rewrite (la_blank wm dec asg T) by exact ST. eauto.
  - assert (SA : steady a).
    { destruct (line_again wm dec asg T _ _ _ _ _ _ H) as (w & -> & _). rewrite Forall_app in F. destruct F as [F _]. rewrite Forall_app in F. destruct F as [_ F]. now inv F. }
    destruct (attribute_steady _ _ _ _ _ s2 E SA) as (s2' & E2). rewrite E2. eauto.
Qed.
End Steady.

Lemma parse_steady lg t s1 s1' v s2 : tables_ok (lg_map lg) (lg_decimal lg) (lg_assignable lg) ->
  grammar_parse lg t s1 = (s1', v, PTrue) -> Forall steady v -> exists s2', grammar_parse lg t s2 = (s2', v, PTrue).
Proof. intros TO H F. unfold grammar_parse, phrase_parse in *. eapply attributes_steady; eauto. Qed.
