(** One numeric word and the line grammar. *)
From Verif Require Import Model.Base Model.Attr Model.Grammar Spec.Text Spec.GrammarSpec.
From Verif Require Import Proofs.Tactics Proofs.TextProofs Proofs.StringFacts Proofs.GrammarLex Proofs.GrammarTail.

Lemma contains_char c t : contains (String c "") t = false <-> all_chars (fun x => negb (Ascii.eqb x c)) t = true.
Proof.
  induction t as [|y t IH]; cbn; [destruct (String.prefix (String c "") ""); cbn; split; auto|].
  destruct (ascii_dec c y) as [E|E].
  - subst. cbn. rewrite Ascii.eqb_refl. replace (prefix "" t) with true by now destruct t. cbn. split; discriminate.
  - cbn. rewrite IH. replace (Ascii.eqb y c) with false by (symmetry; apply Ascii.eqb_neq; congruence). cbn. reflexivity.
Qed.

Lemma all_chars_in p t a c b : all_chars p t = true -> t = (a ++ String c b)%string -> p c = true.
Proof. intros A ->. rewrite all_chars_app in A. apply andb_true_iff in A as [_ A]. cbn in A. now apply andb_true_iff in A. Qed.

(** A text without "=" holds no assignment. *)
Lemma no_assign asym t : contains "=" t = false -> assign_ahead asym t = false /\
  match sym_match asym t with
  | Some u => match skip (drop (String.length u) t) with String "=" _ => False | _ => True end
  | None => True
  end.
Proof.
  intro H. unfold assign_ahead. destruct (sym_match asym t) as [u|] eqn:E; [|auto].
  apply sym_match_some in E as (_ & P & _). apply prefix_iff in P as (b & ->). rewrite drop_app.
  destruct (skip_spec b) as (bl & Eb & _). destruct (skip b) as [|c r] eqn:S; [auto|].
  assert (N : c <> "="%char).
  { apply contains_char in H. rewrite Eb, <- string_app_assoc in H. intro; subst c.
    pose proof (all_chars_in _ _ _ _ _ H eq_refl) as X. discriminate X. }
  clear -N. destruct c as [[] [] [] [] [] [] [] []]; auto. now contradiction N.
Qed.

Definition no_empty (lg : line_grammar) : Prop := ~ In ""%string (lg_decimal lg) /\ ~ In ""%string (lg_assignable lg).

Lemma sym_match_empty l : ~ In ""%string l -> sym_match l "" = None.
Proof. intro H. apply sym_match_none. intros u I. destruct u; [contradiction|reflexivity]. Qed.

Lemma attribute_empty lg s : no_empty lg -> line_attribute (lg_map lg) (lg_decimal lg) (lg_assignable lg) "" s = (s, RFail).
Proof.
  intros [A B]. unfold line_attribute, orelse. cbn [char_rule]. unfold decimal_rule. change (skip "") with ""%string.
  unfold assign_ahead. rewrite (sym_match_empty _ A), (sym_match_empty _ B). unfold slash_rule. change (skip "") with ""%string.
  unfold assignable_rule. change (skip "") with ""%string. rewrite (sym_match_empty _ B). reflexivity.
Qed.

Lemma attribute_blank lg t s : no_empty lg -> skip t = ""%string ->
  line_attribute (lg_map lg) (lg_decimal lg) (lg_assignable lg) t s = (s, RFail).
Proof.
  intros [A B] E. unfold line_attribute, orelse.
  replace (char_rule t) with RFail.
  2:{ destruct t as [|c t]; [reflexivity|]. cbn. destruct c as [[] [] [] [] [] [] [] []]; try reflexivity. discriminate E. }
  unfold decimal_rule, slash_rule, assignable_rule, comment_rule, start_program_rule, program_name_rule. rewrite E.
  unfold assign_ahead. rewrite (sym_match_empty _ A), (sym_match_empty _ B). reflexivity.
Qed.

(** What the check of one plain word says. *)
Definition word_dec (w : string) (sg : option ascii) (ip : string) (fp : option string) : decimal :=
  mkDec w None sg None None (Some ip) (match fp with Some _ => Some "."%char | None => None end)
              (match fp with Some ""%string => None | f => f end) None.

Definition frac_digits (fp : option string) : Prop := match fp with Some ds => all_chars is_digit ds = true | None => True end.

Lemma word_tail w sg ip fp n : is_sign sg -> denotes ip n -> frac_digits fp ->
  number_tail true w None (opt_chr sg ++ ip ++ match fp with Some ds => "." ++ ds | None => "" end)
  = (word_dec w sg ip fp, ""%string).
Proof.
  intros S (N & A & _) F. set (d := word_dec w sg ip fp).
  destruct (number_tail_text true w None d "") as (r & E & R).
  - unfold tail_ok, d, word_dec. cbn. split; [destruct S as [->|[->| ->]]; reflexivity|]. split; [exact I|]. split; [auto|]. split; [auto|].
    split; [auto|]. split; [destruct fp; auto|]. split.
    { destruct fp as [[|c ds]|]; cbn; auto. split; [discriminate|exact F]. }
    split; [destruct fp; [discriminate|auto]|exact I].
  - exact I.
  - discriminate.
  - rewrite string_app_nil in E. replace (tail_text d) with (opt_chr sg ++ ip ++ match fp with Some ds => "." ++ ds | None => "" end)%string in E.
    + rewrite E. unfold with_head, d, word_dec. cbn. f_equal. destruct R as [->| ->]; reflexivity.
    + unfold tail_text, d, word_dec. cbn. destruct fp as [[|c ds]|]; cbn; rewrite ?string_app_nil; reflexivity.
Qed.

Definition same_status (s : gstate) (ms : messages) : gstate := mkGS (gs_status s) (gs_message s ++ ms)%list.

(** What the check answers: the message, or an exception. *)
Definition word_verdict (g : word_grammar) (sg : option ascii) (n : Z) (fp : option string) : messages * vres :=
  if int_max <? n then ([], VExc EOutOfRange)
  else if (signed sg n <? g_from g) || (g_to g <? signed sg n)
  then ([["ValueNotInRange"; z_to_string (signed sg n); z_to_string (g_from g); z_to_string (g_to g); g_word g]%string], VFalse)
  else match fp with
  | None => ([], VTrue)
  | Some ds =>
      if g_dto g =? 0 then ([["ExpectedInteger"; g_word g]%string], VFalse)
      else if String.eqb ds "" then ([], VTrue)
      else if int_max <? digits_val ds then ([], VExc EOutOfRange)
      else if (digits_val ds <? g_dfrom g) || (g_dto g <? digits_val ds)
      then ([["ValueAfterDecimalSeparatorNotInRange"; ds; z_to_string (g_dfrom g); z_to_string (g_dto g); g_word g]%string], VFalse)
      else ([], VTrue)
  end.

Lemma verify_word wm w g sg ip fp n s : assoc w wm = Some g -> ordinary w -> is_sign sg -> denotes ip n -> frac_digits fp -> 0 <= g_dto g ->
  verify wm (word_dec w sg ip fp) s = (same_status s (fst (word_verdict g sg n fp)), snd (word_verdict g sg n fp)).
Proof.
  intros A (O & _) S D F B. unfold verify, word_dec. cbn [d_word d_open d_close d_macro str_len is_some andb]. rewrite A.
  assert (NE : forall x, In x ["#"; "="; "+"; "-"; "*"; "/"]%string -> String.eqb w x = false).
  { intros x I. apply String.eqb_neq. intros ->. contradiction. }
  rewrite !(NE _) by (cbn; tauto). cbn [andb]. rewrite !Z.add_0_r, andb_false_r, !orb_false_r.
  destruct s as [[m me o c] msg]. unfold set_status. cbn [gs_status was_macro was_macro_equal open_cnt close_cnt gs_message].
  unfold verify_value. cbn [d_value d_sign d_word d_dot d_close].
  assert (C : calc_word w = false).
  { unfold calc_word, mem_str. cbn. rewrite !(NE _) by (cbn; tauto). reflexivity. }
  rewrite (stoi_denotes _ _ D). unfold word_verdict. unfold same_status. cbn [gs_status gs_message].
  destruct (int_max <? n) eqn:I; [cbn; now rewrite app_nil_r|].
  fold (signed sg n). destruct ((signed sg n <? g_from g) || (g_to g <? signed sg n)) eqn:R; [reflexivity|].
  rewrite C. cbn [andb]. destruct (g_dto g =? 0) eqn:Z.
  - destruct fp; cbn; [reflexivity|]. now rewrite app_nil_r.
  - unfold verify_rest, verify_decimals. cbn [d_value2 d_value d_dot is_some negb].
    replace (0 <? g_dto g) with true by lia. destruct fp as [[|c0 ds]|]; cbn [is_some negb andb String.eqb fst snd]; rewrite ?app_nil_r; [reflexivity| |reflexivity].
    cbn [opt_str]. assert (D2 : denotes (String c0 ds) (digits_val (String c0 ds))) by (split; [discriminate|split; [exact F|reflexivity]]).
    rewrite (stoi_denotes _ _ D2). pose proof (denotes_nonneg _ _ D2). destruct (int_max <? digits_val (String c0 ds)) eqn:M; [cbn [fst snd]; now rewrite app_nil_r|].
    rewrite to_u32_id by lia. destruct ((digits_val (String c0 ds) <? g_dfrom g) || (g_dto g <? digits_val (String c0 ds))); cbn [fst snd]; [reflexivity|now rewrite app_nil_r].
Qed.

Lemma contains_app_char c a b : contains (String c "") (a ++ b) = contains (String c "") a || contains (String c "") b.
Proof.
  destruct (contains (String c "") (a ++ b)) eqn:E; symmetry.
  - apply orb_true_iff. destruct (contains (String c "") a) eqn:A; [auto|]. destruct (contains (String c "") b) eqn:B; [auto|].
    apply contains_char in A, B. assert (contains (String c "") (a ++ b) = false); [|congruence]. apply contains_char. now rewrite all_chars_app, A, B.
  - apply contains_char in E. rewrite all_chars_app in E. apply andb_true_iff in E as [A B]. apply contains_char in A, B. now rewrite A, B.
Qed.

Lemma digits_no c x : is_digit c = false -> all_chars is_digit x = true -> contains (String c "") x = false.
Proof.
  intros N A. apply contains_char. induction x as [|y x IH]; cbn in *; [reflexivity|]. apply andb_true_iff in A as [Y A].
  rewrite IH by exact A. replace (Ascii.eqb y c) with false; [reflexivity|]. symmetry. apply Ascii.eqb_neq. congruence.
Qed.

Lemma text_no_equal w sg ip fp n : ordinary w -> is_sign sg -> denotes ip n -> frac_digits fp -> contains "=" (word_text w sg ip fp) = false.
Proof.
  intros (_ & E & _) S (_ & A & _) F. unfold word_text. rewrite !contains_app_char, E. cbn [orb].
  replace (contains "=" (opt_chr sg)) with false by (destruct S as [->|[->| ->]]; reflexivity).
  rewrite (digits_no "=" ip) by auto. destruct fp as [ds|]; [|reflexivity].
  rewrite contains_app_char, (digits_no "=" ds) by auto. reflexivity.
Qed.

Lemma parse_word lg w g sg ip fp n s : longest w (word_text w sg ip fp) (lg_decimal lg) -> no_empty lg ->
  assoc w (lg_map lg) = Some g -> 0 <= g_dto g -> ordinary w -> is_sign sg -> denotes ip n -> frac_digits fp ->
  exists r, grammar_parse lg (word_text w sg ip fp) s =
    (mkGS (gs_status s) (fst (word_verdict g sg n fp)),
     match snd (word_verdict g sg n fp) with VTrue => [ADec (word_dec w sg ip fp)] | _ => [] end,
     match snd (word_verdict g sg n fp) with VTrue => PTrue | VExc e => PExc e | VFalse => r end) /\
    (r = PFalse \/ exists rest, r = PThrow rest) /\ ((forall u, In u (lg_assignable lg) -> prefix u (word_text w sg ip fp) = false) -> r = PFalse).
Proof.
  intros L E A B O S D F. pose proof (text_no_equal _ _ _ _ _ O S D F) as NEQ. set (t := word_text w sg ip fp) in *.
  unfold grammar_parse, phrase_parse. set (s0 := mkGS (gs_status s) []).
  pose proof O as (_ & _ & c & r & W & BL & NC).
  assert (ST : skip t = t) by (apply skip_none; unfold t, word_text; rewrite W; exact BL).
  destruct (no_assign (lg_assignable lg) t NEQ) as [NA NA'].
  assert (T0 : exists r', t = String c r') by (unfold t, word_text; rewrite W; cbn; eauto). destruct T0 as (r' & T0).
  assert (CH : char_rule t = RFail).
  { rewrite T0. cbn. destruct c as [[] [] [] [] [] [] [] []]; try reflexivity. exfalso. apply NC. cbn. tauto. }
  assert (DR : decimal_rule (lg_map lg) (lg_decimal lg) (lg_assignable lg) t s0 = checked (lg_map lg) (word_dec w sg ip fp) "" s0).
  { unfold decimal_rule. rewrite ST, NA. assert (M : sym_match (lg_decimal lg) t = Some w).
    { apply sym_match_some. destruct L as [I L]. split; [exact I|]. split; [unfold t, word_text; apply prefix_app|exact L]. }
    rewrite M. unfold t at 1, word_text. rewrite drop_app. now rewrite (word_tail w sg ip fp n). }
  assert (NS : forall X (f : string -> X) (k : X), match t with String "/" z => f z | _ => k end = k).
  { intros. rewrite T0. destruct c as [[] [] [] [] [] [] [] []]; try reflexivity. exfalso. apply NC. cbn. tauto. }
  assert (LA : line_attribute (lg_map lg) (lg_decimal lg) (lg_assignable lg) t s0 =
    match snd (word_verdict g sg n fp) with
    | VTrue => (same_status s0 (fst (word_verdict g sg n fp)), ROk (ADec (word_dec w sg ip fp)) "")
    | VExc e => (same_status s0 (fst (word_verdict g sg n fp)), RExc e)
    | VFalse => (same_status s0 (fst (word_verdict g sg n fp)),
        match sym_match (lg_assignable lg) t with Some u => RThrow (skip (drop (String.length u) t)) | None => RFail end)
    end).
  { unfold line_attribute. rewrite CH. unfold orelse at 1. rewrite DR. unfold checked. rewrite (verify_word _ w g sg ip fp n s0) by auto.
    destruct (word_verdict g sg n fp) as [ms v]. cbn [fst snd]. destruct v; [reflexivity| |reflexivity]. set (s1 := same_status s0 ms).
    unfold orelse at 1. unfold slash_rule at 1. rewrite ST, NS. unfold orelse at 1. unfold assignable_rule. rewrite ST.
    destruct (sym_match (lg_assignable lg) t) as [u|] eqn:U.
    - destruct (skip (drop (String.length u) t)) as [|x y] eqn:K; [reflexivity|]. destruct x as [[] [] [] [] [] [] [] []]; try reflexivity. contradiction.
    - unfold orelse at 1. unfold slash_rule. rewrite ST, NS. unfold orelse at 1. unfold comment_rule, start_program_rule, program_name_rule. rewrite ST, T0.
      clear -NC. unfold orelse. destruct c as [[] [] [] [] [] [] [] []]; try reflexivity; exfalso; apply NC; cbn; tauto. }
  cbn [line_attributes]. rewrite LA. destruct (word_verdict g sg n fp) as [ms v]. cbn [fst snd]. unfold same_status, s0. cbn [gs_status gs_message app]. destruct v.
  - exists PFalse. split; [|split; [auto|auto]]. replace (String.length t) with (Datatypes.S (String.length r')) by (rewrite T0; reflexivity).
    cbn [line_attributes app]. rewrite attribute_empty by exact E. reflexivity.
  - destruct (sym_match (lg_assignable lg) t) as [u|] eqn:U.
    + eexists. split; [reflexivity|]. split; [eauto|]. intro H. apply sym_match_some in U as (I & P & _). rewrite H in P by exact I. discriminate.
    + exists PFalse. split; [reflexivity|]. auto.
  - exists PFalse. split; [reflexivity|]. auto.
Qed.
