(** The Heidenhain parser: whole lines, the message, and what is turned down. *)
From Verif Require Import Model.Base Model.Attr Model.Enums Model.Grammar Model.Parser Model.Messages Model.Heidenhain Spec.Text Spec.NCTextSpec Spec.HeidenhainSpec.
From Verif Require Import Proofs.Tactics Proofs.TextProofs Proofs.StringFacts Proofs.GrammarLex Proofs.PlacedProofs Proofs.HeidenhainProofs Proofs.HeidenhainWrite.
Local Open Scope string_scope.
Local Open Scope Z_scope.

(** ** The state is an output only *)

Lemma word_state rid t was : word_rule rid t was =
  (was || match snd (word_rule rid t false) with HOk (HCycle _ _ _ _ _) _ => true | _ => false end, snd (word_rule rid t false)).
Proof.
  unfold word_rule. destruct (cycle_rule (skip t)) as [|a r|r] eqn:E; cbn [snd].
  - f_equal. destruct (either _ _ _) as [|a r|r] eqn:F; rewrite ?orb_false_r; try reflexivity.
    destruct a; rewrite ?orb_false_r; try reflexivity. exfalso. revert F. unfold either.
    destruct (param_rule rid (skip t)) as [|x y|y] eqn:P.
    2:{ intro F. inv F. revert P. unfold param_rule. intro P. apply andthen_ok in P as (? & ? & _ & P). apply must_ok in P as (? & ? & _ & P).
        apply must_ok in P as (? & ? & _ & P). repeat destruct (opt_char _ _) in P. repeat destruct (opt_run _ _) in P. repeat destruct (opt_char _ _) in P. repeat destruct (opt_run _ _) in P. discriminate. }
    2: discriminate.
    destruct (hcomment_rule (skip t)) as [|x y|y] eqn:C.
    2:{ intro F. inv F. revert C. unfold hcomment_rule. intro C. apply andthen_ok in C as (? & ? & _ & C). destruct (span _ _) as [? [|? [|? ?]]] in C; discriminate. }
    2: discriminate.
    destruct (program_rule (skip t)) as [|x y|y] eqn:G.
    2:{ intro F. inv F. revert G. unfold program_rule. intro G. apply andthen_ok in G as (? & ? & _ & G).
        do 3 apply must_ok in G as (? & ? & _ & G). destruct (span _ _) in G. do 4 apply must_ok in G as (? & ? & _ & G). discriminate. }
    2: discriminate.
    intro F. unfold general_rule in F. apply andthen_ok in F as (? & ? & _ & F).
    destruct (opt_char _ _) in F. destruct (opt_char _ _) in F. destruct (opt_run _ _) in F. destruct (opt_char _ _) in F. destruct (opt_run _ _) in F. destruct (opt_char _ _) in F. discriminate.
  - destruct a; try (rewrite orb_true_r; reflexivity); exfalso; revert E; unfold cycle_rule; intro E;
      apply andthen_ok in E as (? & ? & _ & E); do 2 apply must_ok in E as (? & ? & _ & E);
      destruct (opt_run _ _) in E; destruct (opt_char _ _) in E; destruct (opt_run _ _) in E; discriminate.
  - now rewrite orb_false_r.
Qed.

Lemma skipn_len {A} (v l : list A) : skipn (List.length v) (v ++ l)%list = l.
Proof. induction v; auto. Qed.

Lemma words_state rid ps fuel : forall first t v was,
  words rid ps fuel first t v was =
  let '(_, vs, x) := words rid ps fuel first t v false in (was || cycles (skipn (List.length v) vs), vs, x).
Proof.
  induction fuel as [|f IH]; intros first t v was; cbn [words].
  - rewrite skipn_all. now rewrite orb_false_r.
  - rewrite (word_state rid t was), (word_state rid t false). cbn [snd orb]. destruct (snd (word_rule rid t false)) as [|a r|r].
    + rewrite orb_false_r. destruct first; [rewrite skipn_all, orb_false_r; reflexivity|].
      destruct (skip t); rewrite skipn_all, orb_false_r; reflexivity.
    + set (k := match a with HCycle _ _ _ _ _ => true | _ => false end). rewrite (IH false r (v ++ [a])%list (was || k)), (IH false r (v ++ [a])%list k).
      destruct (words rid ps f false r (v ++ [a])%list false) as [[w vs] x] eqn:W.
      assert (Q : exists l, vs = ((v ++ [a]) ++ l)%list).
      { clear - W. revert r v a vs w x W. generalize false at 1 as fi. generalize false as wa. induction f as [|f IH]; intros wa fi r v a vs w x W; cbn [words] in W.
        - inv W. exists []. now rewrite app_nil_r.
        - destruct (word_rule rid r wa) as [wa' [|a' r'|r']].
          + destruct fi; [inv W; exists []; now rewrite app_nil_r|]. destruct (skip r); inv W; exists []; now rewrite app_nil_r.
          + apply IH in W as (l & ->). exists (a' :: l). now rewrite <- !app_assoc.
          + inv W. exists []. now rewrite app_nil_r. }
      destruct Q as (l & ->). rewrite skipn_len, <- app_assoc, skipn_len. cbn [app]. change (cycles (a :: l)) with (k || cycles l). now rewrite orb_assoc.
    + rewrite skipn_all, !orb_false_r. reflexivity.
Qed.

Lemma line_state rid ps t was : line_rule rid ps t was = let '(_, vs, x) := line_rule rid ps t false in (was || cycles vs, vs, x).
Proof.
  unfold line_rule. destruct (number_rule (skip t)) as [|n r|r].
  - rewrite words_state. destruct (words _ _ _ _ _ _ false) as [[w vs] x]. reflexivity.
  - rewrite words_state. destruct (words _ _ _ _ _ _ false) as [[w vs] x] eqn:W. apply words_ok in W; [|lia].
    destruct W as (body & _ & _ & -> & _). reflexivity.
  - now rewrite orb_false_r.
Qed.

(** ** The parser *)

Lemma hh_cases rid ps was data message : exists was' vs x, line_rule rid ps data was = (was', vs, x) /\
  hh_parse rid ps (Some was) data message =
  Ok (Some was', match x with HTrue => (true, vs, message) | HThrown r => (false, vs, expectation_text English (text_before data r) r []) end).
Proof.
  unfold hh_parse. destruct (line_rule rid ps data was) as [[was' vs] x]. exists was', vs, x. split; [reflexivity|]. now destruct x.
Qed.

Lemma hh_sound rid ps was was' data message vs m : hh_parse rid ps (Some was) data message = Ok (was', (true, vs, m)) ->
  m = message /\ line_words vs /\ exists s rest, data = (s ++ rest)%string /\ written_all rid vs s rest /\ blanks rest.
Proof.
  destruct (hh_cases rid ps was data message) as (w & vs' & x & L & ->). destruct x as [|r]; intro H; inv H. split; [reflexivity|].
  apply line_ok in L as (num & body & s & rest & E & N & D & W & P & NN & C & B & NE).
  split; [exists num, body; auto 10|exists s, rest; auto].
Qed.

Lemma hh_complete rid ps was message vs : line_words vs -> ids_fit rid vs ->
  exists was', hh_parse rid ps (Some was) (plain_line vs) message = Ok (Some was', (true, vs, message)).
Proof.
  intros H F. destruct (line_plain rid ps vs was H F) as (w & L). exists w. unfold hh_parse. now rewrite L.
Qed.

Lemma same_line_of t : without "010" t -> without "013" t -> all_chars same_line t = true.
Proof.
  intros A B. apply without_chars in A, B. induction t as [|c t IH]; [reflexivity|]. cbn [all_chars] in *.
  apply andb_true_iff in A as [A1 A2], B as [B1 B2]. rewrite IH by assumption. unfold same_line, is_line_end. rewrite andb_true_r.
  apply negb_true_iff in A1, B1. revert A1 B1. clear. destruct c as [[] [] [] [] [] [] [] []]; cbn; intros; reflexivity || discriminate.
Qed.

Lemma lines_from prev t : 1 <= count_lines prev t.
Proof.
  revert prev. induction t as [|c t IH]; intro prev; cbn [count_lines]; [lia|].
  repeat match goal with |- context [if ?b then _ else _] => destruct b end; specialize (IH (Some c)); lia.
Qed.

Lemma expectation_place before rest : names_place (expectation_text English before rest []) before rest.
Proof.
  exists (count_lines None before), (column before). split; [apply lines_from|]. split; [apply column_from|].
  split; [unfold expectation_text; cbn; now rewrite string_app_nil|]. intros A B.
  pose proof (same_line_of _ A B) as S. split; [now apply lines_one|]. intro T. now apply column_plain.
Qed.

Lemma hh_rejected rid ps was was' data message vs m : hh_parse rid ps (Some was) data message = Ok (was', (false, vs, m)) ->
  exists s b rest, data = (s ++ b ++ rest)%string /\ written_all rid vs s (b ++ rest) /\
    (forall a, In a vs -> proper a) /\ names_place m (s ++ b) rest.
Proof.
  destruct (hh_cases rid ps was data message) as (w & vs' & x & L & ->). destruct x as [|r]; intro H; inv H.
  apply line_ok in L as (num & body & s & rest & E & N & D & W & P & NN & C & (b & R)).
  exists s, b, r. subst rest. rewrite D. split; [reflexivity|]. split; [exact W|]. split; [exact P|].
  rewrite <- (string_app_assoc s b r), before_rest. apply expectation_place.
Qed.

Lemma hh_state rid ps was data message : exists ok vs m,
  hh_parse rid ps (Some was) data message = Ok (Some (was || cycles vs), (ok, vs, m)) /\
  hh_parse rid ps (Some false) data message = Ok (Some (cycles vs), (ok, vs, m)).
Proof.
  unfold hh_parse. rewrite (line_state rid ps data was), (line_state rid ps data false).
  destruct (line_rule rid ps data false) as [[w vs] x]. destruct x; cbn [orb]; do 3 eexists; split; reflexivity.
Qed.

Lemma hh_message rid ps was data g ok vs m : hh_parse rid ps (Some was) data "" = Ok (g, (ok, vs, m)) -> (ok = true <-> m = "").
Proof.
  destruct ok; intro H.
  - apply hh_sound in H as (-> & _). tauto.
  - apply hh_rejected in H as (s & b & rest & _ & _ & _ & l & c & L & C & -> & _). split; [discriminate|]. intro E. exfalso.
    destruct (nat_digits l) as (N & _); [lia|]. destruct (nat_to_string l); [now elim N|discriminate].
Qed.

(** ** Lines that are turned down *)

Lemma written_front rid a s r : written rid a s r -> proper a -> ~ is_number a ->
  exists c x, s = String c x /\ is_digit c = false /\ is_blank c = false.
Proof.
  destruct a; cbn [written proper is_number]; intros W P N; [tauto|..].
  - destruct P as (-> & _). destruct W as (_ & ->). cbn. eauto.
  - destruct W as (b1 & b2 & b3 & e & _ & _ & _ & _ & _ & ->). destruct be; cbn; eauto.
  - destruct P as (E & _). destruct W as (b & _ & ->). destruct E as [I|[(Z & A & _)|[->|[->|(v & _ & _ & ->)]]]]; try (cbn; eauto).
    + repeat (destruct I as [<-|I]; [cbn; eauto|]). destruct I.
    + destruct word as [|c w]; [now elim Z|]. cbn in A. apply andb_true_iff in A as [A _]. cbn [append]. exists c. eexists. split; [reflexivity|].
      revert A. clear. destruct c as [[] [] [] [] [] [] [] []]; cbn; intro H; try discriminate H; auto.
  - destruct P as (-> & _). destruct W as (b1 & b2 & _ & _ & ->). cbn. eauto.
  - destruct P as (-> & _). destruct W as (isg & ds & b1 & b2 & _ & _ & _ & _ & _ & _ & ->). cbn. eauto.
Qed.

Lemma bare_rejected rid ps was data message g ok vs m : hh_parse rid ps (Some was) data message = Ok (g, (ok, vs, m)) ->
  all_chars (fun c => is_digit c || is_blank c) data = true -> ok = false.
Proof.
  intros H A. destruct ok; [|reflexivity]. exfalso. apply hh_sound in H as (_ & (num & body & -> & _ & NE & NN & P & _) & s & rest & -> & W & _).
  rewrite all_chars_app in A. apply andb_true_iff in A as [A _]. destruct body as [|b body]; [now elim NE|].
  assert (K : forall num s, written_all rid (num ++ b :: body) s rest -> exists x y z, s = (x ++ y ++ z)%string /\ written rid b y (z ++ rest)%string).
  { clear. induction num as [|n num IH]; cbn; intros s (bl & s1 & s2 & _ & -> & W1 & W2).
    - exists bl, s1, s2. auto.
    - apply IH in W2 as (x & y & z & -> & W2). exists (bl ++ s1 ++ x)%string, y, z. split; [now rewrite !string_app_assoc|exact W2]. }
  apply K in W as (x & y & z & -> & W). destruct (written_front _ _ _ _ W) as (c & t & -> & D & B).
  { apply P, in_or_app. cbn. auto. } { apply NN. cbn. auto. }
  rewrite !all_chars_app in A. cbn in A. rewrite D, B in A. cbn in A. rewrite andb_false_r in A. discriminate.
Qed.

Lemma line_words_first rid ps t was : head_not is_blank t -> head_not is_digit t ->
  line_rule rid ps t was = words rid ps (S (String.length t)) true t [] was.
Proof. intros B D. unfold line_rule. rewrite skip_none by exact B. unfold number_rule. now rewrite opt_run_none by exact D. Qed.

Lemma first_throws rid ps t was was' r : head_not is_blank t -> head_not is_digit t -> word_rule rid t was = (was', HThrow r) ->
  line_rule rid ps t was = (was', [], HThrown r).
Proof. intros B D W. rewrite line_words_first by assumption. cbn [words]. now rewrite W. Qed.

Lemma word_throw rid t was r : head_not is_blank t -> cycle_rule t = HThrow r \/ (cycle_rule t = HFail /\ param_rule rid t = HThrow r) \/
    (cycle_rule t = HFail /\ param_rule rid t = HFail /\ hcomment_rule t = HThrow r) \/
    (cycle_rule t = HFail /\ param_rule rid t = HFail /\ hcomment_rule t = HFail /\ program_rule t = HThrow r) ->
  word_rule rid t was = (was, HThrow r).
Proof.
  intros B H. unfold word_rule, either. rewrite skip_none by exact B.
  destruct H as [H|[(H1 & H2)|[(H1 & H2 & H3)|(H1 & H2 & H3 & H4)]]]; [rewrite H|rewrite H1, H2|rewrite H1, H2, H3|rewrite H1, H2, H3, H4]; reflexivity.
Qed.

Lemma letter_plain c : letter c = true -> is_blank c = false /\ is_digit c = false /\ in_set "-+" c = false /\ is_word_char c = true.
Proof. destruct c as [[] [] [] [] [] [] [] []]; cbn; intro H; try discriminate H; repeat split. Qed.

Lemma letters_head p s : letters s -> (forall c, letter c = true -> p c = false) -> head_not p s.
Proof. intros L P. destruct s as [|c s]; [exact I|]. cbn in *. unfold letters in L. cbn in L. apply andb_true_iff in L as [L _]. auto. Qed.

Lemma letters_app a b : letters (a ++ b) -> letters b.
Proof. unfold letters. rewrite all_chars_app, andb_true_iff. tauto. Qed.

Lemma letters_reserved rid ps was t : letters t -> reserved t -> exists r, line_rule rid ps t was = (was, [], HThrown r).
Proof.
  intros L R. assert (B : head_not is_blank t) by (apply letters_head; [exact L|intros; now apply letter_plain]).
  assert (D : head_not is_digit t) by (apply letters_head; [exact L|intros; now apply letter_plain]).
  assert (NB : forall a x, t = (a ++ x)%string -> run1 is_blank x = HFail).
  { intros a x ->. apply run1_fail, letters_head; [now apply letters_app in L|intros; now apply letter_plain]. }
  cut (exists r, word_rule rid t was = (was, HThrow r)). { intros (r & W). exists r. now apply first_throws. }
  destruct R as [(x & E)|[(x & E)|[(x & E)|(x & E)]]].
  - exists x. apply word_throw; [exact B|]. left. unfold cycle_rule. rewrite E, lit_app. cbn [andthen]. unfold must. now rewrite (NB _ _ E).
  - exists x. apply word_throw; [exact B|]. right; left. split.
    + apply cycle_skips. rewrite E. apply not_begins. discriminate.
    + unfold param_rule. rewrite E, lit_app. cbn [andthen]. unfold must, int_rule. rewrite E in L. apply letters_app in L.
      rewrite opt_char_none by (apply (letters_head (in_set "-+")); [exact L|intros; now apply letter_plain]).
      rewrite opt_run_none by (apply (letters_head is_digit); [exact L|intros; now apply letter_plain]). reflexivity.
  - exists x. apply word_throw; [exact B|]. do 3 right. rewrite E.
    split; [apply cycle_skips, not_begins; discriminate|]. split; [apply param_skips, not_begins; discriminate|].
    split; [apply comment_skips, not_begins; discriminate|]. unfold program_rule.
    assert (W : begin_word ("BEGIN" ++ x) = HOk BEbegin x).
    { unfold begin_word. assert (X : sym_match ["BEGIN"; "END"] ("BEGIN" ++ x) = Some "BEGIN").
      { apply sym_match_some. split; [cbn; auto|]. split; [apply prefix_app|]. intros w [<-|[<-|[]]] _; cbn; lia. }
      rewrite X. now rewrite (drop_app "BEGIN"). }
    rewrite W. cbn [andthen]. unfold must. now rewrite (NB _ _ E).
  - exists x. apply word_throw; [exact B|]. do 3 right. rewrite E.
    split; [apply cycle_skips, not_begins; discriminate|]. split; [apply param_skips, not_begins; discriminate|].
    split; [apply comment_skips, not_begins; discriminate|]. unfold program_rule.
    assert (W : begin_word ("END" ++ x) = HOk BEend x).
    { unfold begin_word. assert (X : sym_match ["BEGIN"; "END"] ("END" ++ x) = Some "END").
      { apply sym_match_some. split; [cbn; auto|]. split; [apply prefix_app|]. intros w [<-|[<-|[]]] P; cbn; try lia. discriminate P. }
      rewrite X. now rewrite (drop_app "END"). }
    rewrite W. cbn [andthen]. unfold must. now rewrite (NB _ _ E).
Qed.

Lemma letters_read rid ps was t : letters t -> t <> "" -> ~ reserved t ->
  line_rule rid ps t was = (was, [HGeneral t None None None None None None], HTrue).
Proof.
  intros L N R. assert (B : head_not is_blank t) by (apply letters_head; [exact L|intros; now apply letter_plain]).
  assert (D : head_not is_digit t) by (apply letters_head; [exact L|intros; now apply letter_plain]).
  assert (A : all_chars is_word_char t = true).
  { clear - L. unfold letters in L. induction t as [|c t IH]; [reflexivity|]. cbn in *. apply andb_true_iff in L as [L1 L2].
    apply letter_plain in L1 as (_ & _ & _ & ->). now rewrite IH. }
  rewrite line_words_first by assumption.
  assert (W : word_rule rid t was = (was, HOk (HGeneral t None None None None None None) "")).
  { unfold word_rule, either. rewrite skip_none by exact B. unfold reserved in R.
    rewrite cycle_skips by tauto. rewrite param_skips by tauto. rewrite comment_skips.
    2:{ intros (x & ->). discriminate L. }
    rewrite program_skips by tauto. unfold general_rule, general_word. rewrite <- (string_app_nil t) at 1.
    rewrite sym_letters by (auto; exact I). unfold either. rewrite <- (string_app_nil t) at 1. rewrite run1_app by (auto; exact I). reflexivity. }
  cbn [words]. rewrite W. destruct t as [|c t]; [now elim N|]. reflexivity.
Qed.

Lemma letters_accepted rid ps was t message g ok vs m : letters t -> t <> "" ->
  hh_parse rid ps (Some was) t message = Ok (g, (ok, vs, m)) -> (ok = true <-> ~ reserved t).
Proof.
  intros L N H. unfold hh_parse in H. split.
  - intros -> R. destruct (letters_reserved rid ps was t L R) as (r & E). rewrite E in H. discriminate.
  - intro R. rewrite (letters_read rid ps was t L N R) in H. now inv H.
Qed.

Lemma tilde_span v x r : span (fun c => negb (Ascii.eqb c "~")) v = (x, r) ->
  v = (x ++ r)%string /\ without "~" x /\ (r = "" \/ exists b, r = String "~" b).
Proof.
  intro E. pose proof (span_spec (fun c => negb (Ascii.eqb c "~")) v) as X. rewrite E in X. destruct X as (-> & A & H). split; [reflexivity|]. split.
  - intros a b ->. rewrite all_chars_app in A. cbn in A. rewrite andb_false_r in A. discriminate.
  - destruct r as [|c r]; [auto|]. right. apply negb_false_iff, Ascii.eqb_eq in H. subst. eauto.
Qed.

Lemma comment_line rid ps was v : exists vs x, line_rule rid ps (";" ++ v) was = (was, vs, x) /\
  match x with
  | HTrue => (forall a b, v = (a ++ String "~" b)%string -> b = "")
  | HThrown r => exists a c b, v = (a ++ String "~" (String c b))%string /\ r = String "~" (String c b)
  end.
Proof.
  rewrite line_words_first by reflexivity. cbn [words]. unfold word_rule, either. rewrite skip_none by reflexivity.
  rewrite cycle_skips by (apply not_begins; discriminate). rewrite param_skips by (apply not_begins; discriminate).
  unfold hcomment_rule. rewrite lit_app. cbn [andthen]. destruct (span _ v) as [x r] eqn:E. apply tilde_span in E as (-> & A & H).
  destruct H as [->|(b & ->)].
  - cbn. do 2 eexists. split; [reflexivity|]. cbn. intros a b E. rewrite string_app_nil in E. now apply A in E.
  - destruct b as [|c b].
    + cbn. do 2 eexists. split; [reflexivity|]. cbn. intros a b E.
      clear - E A. revert a E. induction x as [|d x IH]; intros a E.
      * destruct a as [|e [|e' a]]; cbn in E; inv E. reflexivity.
      * destruct a as [|e a]; cbn in E; injection E as -> E; [now elim (A "" x)|].
        apply (IH (fun p q Q => A (String e p) q (f_equal (String e) Q)) a). exact E.
    + do 2 eexists. split; [reflexivity|]. cbn. exists x, c, b. auto.
Qed.

Lemma comment_accepted rid ps was v message g ok vs m : hh_parse rid ps (Some was) (";" ++ v) message = Ok (g, (ok, vs, m)) ->
  (ok = true <-> forall a b, v = (a ++ String "~" b)%string -> b = "").
Proof.
  unfold hh_parse. destruct (comment_line rid ps was v) as (vs' & x & -> & X). destruct x as [|r]; intro H; inv H; [tauto|].
  split; [discriminate|]. intro A. exfalso. destruct X as (a & c & b & E & _). now apply A in E.
Qed.

(** What has to follow the reserved words. *)
Lemma first_word_ok rid ps t was was' vs : head_not is_blank t -> head_not is_digit t ->
  line_rule rid ps t was = (was', vs, HTrue) -> exists w a r, word_rule rid t was = (w, HOk a r).
Proof.
  intros B D. rewrite line_words_first by assumption. cbn [words]. destruct (word_rule rid t was) as [w [|a r|r]]; try discriminate. eauto.
Qed.

Lemma cycle_demands rid ps was r g vs m message : hh_parse rid ps (Some was) ("CYCL" ++ r) message = Ok (g, (true, vs, m)) ->
  exists b w x, blanks1 b /\ (w = "DEF" \/ w = "CALL") /\ r = (b ++ w ++ x)%string.
Proof.
  destruct (hh_cases rid ps was ("CYCL" ++ r) message) as (w & vs' & x & L & ->). destruct x; [|discriminate]. intros _.
  apply first_word_ok in L; [|reflexivity|reflexivity]. destruct L as (w' & a & y & W). unfold word_rule in W. rewrite skip_none in W by reflexivity.
  destruct (cycle_rule ("CYCL" ++ r)) as [|a' y'|] eqn:C; [|clear W|discriminate].
  - apply cycle_fail in C. elim C. now exists r.
  - unfold cycle_rule in C. rewrite lit_app in C. cbn [andthen] in C. apply must_ok in C as (b & t1 & R1 & C). apply must_ok in C as (k & t2 & R2 & _).
    apply run1_ok in R1 as (-> & N & A & _). unfold either in R2. destruct (lit "DEF" t1) as [|k' t'|] eqn:E1.
    + apply lit_ok in R2 as (-> & ->). exists b, "CALL", t2. repeat split; auto.
    + apply lit_ok in E1 as (-> & ->). exists b, "DEF", t'. repeat split; auto.
    + discriminate.
Qed.

Lemma param_demands rid ps was r g vs m message : hh_parse rid ps (Some was) ("Q" ++ r) message = Ok (g, (true, vs, m)) ->
  exists sg ds b x, sign_opt sg /\ ds <> "" /\ all_chars is_digit ds = true /\ rid sg ds <> None /\ blanks b /\
    r = (opt_chr sg ++ ds ++ b ++ "=" ++ x)%string.
Proof.
  destruct (hh_cases rid ps was ("Q" ++ r) message) as (w & vs' & x & L & ->). destruct x; [|discriminate]. intros _.
  apply first_word_ok in L; [|reflexivity|reflexivity]. destruct L as (w' & a & y & W). unfold word_rule, either in W. rewrite skip_none in W by reflexivity.
  rewrite cycle_skips in W by (apply not_begins; discriminate).
  destruct (param_rule rid ("Q" ++ r)) as [|a' y'|] eqn:C; [|clear W|discriminate].
  - apply param_fail in C. elim C. now exists r.
  - unfold param_rule in C. rewrite lit_app in C. cbn [andthen] in C. apply must_ok in C as (id & t1 & R1 & C). apply must_ok in C as (k & t2 & R2 & _).
    unfold int_rule in R1. destruct (opt_char "-+" r) as [sg r1] eqn:S. destruct (opt_run is_digit r1) as [[ds|] r2] eqn:Dg; [|discriminate].
    destruct (rid sg ds) as [n|] eqn:Rd; [|discriminate]. inv R1. apply sign_read in S as (-> & Sg & _). apply digits_read in Dg as (-> & (N & A) & _).
    apply lit_ok in R2 as (-> & R2). destruct (blanks_skip t1) as (b & Bl & E). exists sg, ds, b, t2. rewrite E, R2. rewrite Rd. repeat split; auto. discriminate.
Qed.

Lemma program_demands rid ps was be r g vs m message : hh_parse rid ps (Some was) (begin_text be ++ r) message = Ok (g, (true, vs, m)) ->
  exists b1 b2 name b3 u x, blanks1 b1 /\ blanks1 b2 /\ all_chars name_char name = true /\ blanks1 b3 /\
    ~ starts name_char x /\ r = (b1 ++ "PGM" ++ b2 ++ name ++ b3 ++ unit_text u ++ x)%string.
Proof.
  destruct (hh_cases rid ps was (begin_text be ++ r) message) as (w & vs' & x & L & ->). destruct x; [|discriminate]. intros _.
  apply first_word_ok in L; [|now destruct be|now destruct be]. destruct L as (w' & a & y & W). unfold word_rule, either in W. rewrite skip_none in W by (now destruct be).
  rewrite cycle_skips in W by (destruct be; apply not_begins; discriminate).
  rewrite param_skips in W by (destruct be; apply not_begins; discriminate).
  rewrite comment_skips in W by (destruct be; apply not_begins; discriminate).
  destruct (program_rule (begin_text be ++ r)) as [|a' y'|] eqn:C; [|clear W|discriminate].
  - apply program_fail in C as (C1 & C2). destruct be; [elim C1|elim C2]; now exists r.
  - unfold program_rule in C. apply andthen_ok in C as (be' & t0 & B0 & C). apply begin_ok in B0.
    assert (E0 : t0 = r) by (destruct be, be'; cbn in B0; inv B0; reflexivity). subst t0.
    apply must_ok in C as (b1 & t1 & R1 & C). apply must_ok in C as (k & t2 & R2 & C). apply must_ok in C as (b2 & t3 & R3 & C).
    destruct (span is_name_char t3) as [name t4] eqn:Sp. apply must_ok in C as (b3 & t5 & R5 & C). apply must_ok in C as (u & t6 & R6 & C).
    apply must_ok in C as (e & t7 & R7 & _).
    apply run1_ok in R1 as (-> & N1 & A1 & _). apply lit_ok in R2 as (-> & ->). apply run1_ok in R3 as (-> & N3 & A3 & _).
    pose proof (span_spec is_name_char t3) as X. rewrite Sp in X. destruct X as (-> & An & _). apply run1_ok in R5 as (-> & N5 & A5 & _). apply unit_ok in R6 as ->.
    exists b1, b2, name, b3, u, t6. split; [split; assumption|]. split; [split; assumption|]. split; [exact An|]. split; [split; assumption|].
    split; [|reflexivity]. unfold either in R7. destruct (run1 is_space t6) as [|s x|] eqn:Rs.
    + unfold eoi in R7. destruct t6; [|discriminate]. auto.
    + apply run1_ok in Rs as (-> & Ns & As & _). destruct s as [|c s]; [now elim Ns|]. cbn in As |- *. apply andb_true_iff in As as [As _].
      revert As. clear. destruct c as [[] [] [] [] [] [] [] []]; cbn; intro H; try discriminate H; intro K; discriminate K.
    + discriminate.
Qed.
