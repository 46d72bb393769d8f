(** What hover replies: proofs. *)
From Verif Require Import Model.Base Model.Double Model.Macro Model.NCText Model.MacrosDesc Model.Server.
From Verif Require Import Spec.Text Spec.DescSpec Spec.ServerSpec Spec.HoverSpec.
From Verif Require Import Proofs.Tactics Proofs.TextProofs Proofs.StringFacts Proofs.FramingProofs Proofs.DescProofs Proofs.ServerProofs Proofs.HoverProofs.

Lemma is_gm_iff c : is_gm c = true <-> code_letter c.
Proof.
  unfold is_gm, code_letter. rewrite !orb_true_iff, !Ascii.eqb_eq. tauto.
Qed.

Lemma double_lf_paragraphs s : double_lf s = paragraphs s.
Proof.
  unfold paragraphs. induction s as [|c s IH]; cbn; auto. rewrite IH. unfold lf, line_feed.
  destruct (Ascii.eqb_spec c "010") as [->|]; auto.
Qed.

Lemma markdown_note h td : markdown h td = note h td.
Proof. unfold markdown, note. rewrite double_lf_paragraphs. reflexivity. Qed.

Lemma extract_stripped s t : stripped s t -> extract_code s = t.
Proof.
  intros (z & -> & Z & N & O). induction z as [|c z IH]; cbn [append].
  - destruct t as [|c [|d t]]; auto. change (extract_code (String c (String d t))) with (if Ascii.eqb c "0" then extract_code (String d t) else String c (String d t)).
    destruct (Ascii.eqb_spec c "0") as [->|]; auto. specialize (O _ eq_refl). discriminate.
  - cbn in Z. apply andb_true_iff in Z as [Zc Z]. apply Ascii.eqb_eq in Zc as ->.
    destruct (z ++ t) as [|d r] eqn:E; [destruct z; [cbn in E; congruence|discriminate]|].
    change (extract_code (String "0" (String d r))) with (extract_code (String d r)). auto.
Qed.

Lemma stripped_ex s : s <> "" -> exists t, stripped s t.
Proof.
  induction s as [|c s IH]; [congruence|]. intros _. destruct (Ascii.eqb_spec c "0") as [->|N].
  - destruct s as [|d s].
    + exists "0", "". repeat split; auto; try discriminate. intros r E. now inv E.
    + destruct IH as (t & z & E & Z & T & O); [discriminate|]. exists t, (String "0" z). cbn. rewrite E. auto.
  - exists (String c s), "". repeat split; auto; try discriminate. intros r E. inv E. congruence.
Qed.

(** Searches under the cursor. *)
Lemma code_found ch pre w suf c num : code_word w suf c num -> under ch pre w ->
  search_pattern match_code ch 0 0 (pre ++ w ++ suf) = Some (w, Z.of_nat (String.length pre), Z.of_nat (String.length pre + String.length w)).
Proof.
  intros (ds & f & -> & -> & L & N & A & F) U. unfold under in U. apply is_gm_iff in L.
  rewrite (search_pattern_at match_code ch is_gm match_code_starts); [apply same_triple; lia| |exact L|lia|lia|lia].
  apply match_code_iff. exists c, ds, f, suf. repeat split; auto. cbn. now rewrite string_app_assoc.
Qed.

Lemma macro_found ch pre w suf n : macro_word w suf n -> under ch pre w ->
  search_pattern match_macro ch 0 0 (pre ++ w ++ suf) = Some (w, Z.of_nat (String.length pre), Z.of_nat (String.length pre + String.length w)).
Proof.
  intros (ds & -> & (N & A & _) & F) U. unfold under in U.
  rewrite (search_pattern_at match_macro ch (fun c => Ascii.eqb c "#") match_macro_starts); [apply same_triple; lia| |reflexivity|lia|lia|lia].
  apply match_macro_iff. exists ds, suf. repeat split; auto.
Qed.

Lemma code_macro_found ch pre c w suf n : code_letter c -> macro_word w suf n -> under ch pre (String c w) ->
  search_pattern match_code_macro ch 0 0 (pre ++ String c w ++ suf)
  = Some (String c w, Z.of_nat (String.length pre), Z.of_nat (String.length pre + String.length (String c w))).
Proof.
  intros L (ds & -> & (N & A & _) & F) U. unfold under in U. apply is_gm_iff in L.
  rewrite (search_pattern_at match_code_macro ch is_gm match_code_macro_starts); [apply same_triple; lia| |exact L|lia|lia|lia].
  apply match_code_macro_iff. exists c, ds, suf. repeat split; auto.
Qed.

(** Position of two parts of a text. *)
Lemma app_split a b c d : a ++ b = c ++ d ->
  (exists x, c = a ++ x /\ b = x ++ d) \/ (exists x, a = c ++ x /\ d = x ++ b).
Proof.
  revert c. induction a as [|h a IH]; intros c E; cbn in E.
  - left. exists c. auto.
  - destruct c as [|k c]; cbn in E.
    + right. exists (String h a). auto.
    + inv E. destruct (IH c H1) as [(x & -> & ->)|(x & -> & ->)]; [left|right]; exists x; auto.
Qed.

(** No code reaches the cursor on a text of the shape letter?, #, digits. *)
Lemma no_code_here ch pre w suf n : macro_word w suf n -> under ch pre w ->
  search_pattern match_code ch 0 0 (pre ++ w ++ suf) = None.
Proof.
  intros (ds & -> & (N & A & _) & F) U. apply search_pattern_none; [|exact match_code_word].
  intros p x q E M B. unfold under in U. cbn [String.length append] in U.
  apply match_code_iff in M as (c & es & f & r & Q & G & N' & A' & FS & L).
  assert (x = String c (es ++ f)) as ->.
  { apply (string_app_inj_r x q (String c (es ++ f)) r); [|exact L]. rewrite Q. cbn. now rewrite string_app_assoc. }
  clear Q L. assert (B' : Z.of_nat (String.length p) <= ch < Z.of_nat (String.length p) + Z.of_nat (S (String.length (es ++ f)))) by exact (conj (proj1 B) (proj2 B)).
  clear B.
  change (pre ++ ("#" ++ ds) ++ suf) with (pre ++ String "#" (ds ++ suf)) in E. cbn [append] in E.
  (* where the code starts *)
  destruct (app_split _ _ _ _ E) as [(y & -> & K)|(y & -> & K)].
  - destruct y as [|h y].
    + cbn in K. inv K. discriminate G.
    + cbn in K. inv K. destruct (app_split _ _ _ _ H1) as [(z & -> & K)|(z & -> & K)].
      * rewrite !string_app_length in *. cbn [String.length] in *. rewrite string_app_length in B'. lia.
      * destruct z as [|k z]; cbn in K.
        -- rewrite string_app_nil in *. rewrite !string_app_length in *. cbn [String.length] in *. lia.
        -- inv K. rewrite all_chars_app in A. apply andb_true_iff in A as [_ A]. cbn in A. apply andb_true_iff in A as [A _].
           apply digit_no_gm in A. rewrite G in A. discriminate.
  - destruct y as [|h y]; cbn in K.
    + inv K. discriminate G.
    + inv K. rewrite !string_app_length in *. cbn [String.length] in *.
      (* the sign would be inside the code *)
      assert (Y : (String.length (es ++ f) <= String.length y)%nat).
      { destruct (Nat.le_gt_cases (String.length (es ++ f)) (String.length y)) as [|Hgt]; auto. exfalso.
        assert (AC : all_chars (fun k => negb (Ascii.eqb k "#")) (es ++ f) = true).
        { rewrite all_chars_app. apply andb_true_iff. split.
          - eapply all_chars_impl; [|exact A']. apply digit_no_hash.
          - destruct FS as [[-> _]|[[-> _]|(d & D & ->)]]; cbn; auto. now rewrite (digit_no_hash d D). }
        revert AC H1 Hgt. generalize (es ++ f) as v. clear. intro v. revert y.
        induction v as [|a v IHv]; intros y AC E Hgt; cbn in Hgt; [lia|]. cbn in AC. apply andb_true_iff in AC as [A1 A2].
        destruct y as [|b y]; cbn in E; inv E; [discriminate|]. eapply IHv; eauto. cbn in Hgt. lia. }
      rewrite ?string_app_length in *. lia.
Qed.

Lemma before_char (k : ascii) (p : ascii -> bool) v : forall y q r, all_chars p v = true -> p k = false ->
  v ++ q = y ++ String k r -> (String.length v <= String.length y)%nat.
Proof.
  induction v as [|a v IH]; intros y q r A K E; cbn; [lia|]. cbn in A. apply andb_true_iff in A as [A1 A2].
  destruct y as [|b y]; cbn in E; inv E; [congruence|]. cbn. specialize (IH y q r A2 K H1). lia.
Qed.

Lemma no_code_here' ch pre c w suf n : code_letter c -> macro_word w suf n -> under ch pre (String c w) ->
  search_pattern match_code ch 0 0 (pre ++ String c w ++ suf) = None.
Proof.
  intros CL W U. destruct (Z.eq_dec ch (Z.of_nat (String.length pre))) as [->|NE].
  - destruct W as (ds & -> & (N & A & _) & F). apply search_pattern_none; [|exact match_code_word].
    intros p x q E M B. clear U.
    apply match_code_iff in M as (c' & es & f & r & Q & G & N' & A' & FS & L).
    assert (x = String c' (es ++ f)) as ->.
    { apply (string_app_inj_r x q (String c' (es ++ f)) r); [|exact L]. rewrite Q. cbn. now rewrite string_app_assoc. }
    clear Q L. cbn [append] in E. cbn [String.length] in B.
    destruct (app_split _ _ _ _ E) as [(y & -> & K)|(y & -> & K)].
    + destruct y as [|h y].
      * cbn in K. inv K. destruct es as [|e es]; [congruence|]. cbn in H1. inv H1. discriminate A'.
      * rewrite string_app_length in B. cbn [String.length] in B. lia.
    + destruct y as [|h y]; cbn in K.
      * inv K. destruct es as [|e es]; [congruence|]. cbn in H1. inv H1. discriminate A'.
      * inv K. apply (before_char c (fun k => negb (is_gm k))) in H1.
        -- rewrite string_app_length in B. cbn [String.length] in B. lia.
        -- rewrite all_chars_app. apply andb_true_iff. split.
           ++ eapply all_chars_impl; [|exact A']. intros k Hk. rewrite (digit_no_gm k Hk). reflexivity.
           ++ destruct FS as [[-> _]|[[-> _]|(d & D & ->)]]; cbn; auto. now rewrite (digit_no_gm d D).
        -- apply is_gm_iff in CL. now rewrite CL.
  - replace (pre ++ String c w ++ suf) with ((pre ++ String c "") ++ w ++ suf) by (rewrite string_app_assoc; reflexivity).
    eapply no_code_here; eauto. unfold under in *. rewrite string_app_length. cbn [String.length] in *. lia.
Qed.

Lemma no_code_macro_here ch pre w suf n : macro_word w suf n -> under ch pre w ->
  (forall p c, pre = p ++ String c "" -> ~ code_letter c) ->
  search_pattern match_code_macro ch 0 0 (pre ++ w ++ suf) = None.
Proof.
  intros (ds & -> & (N & A & _) & F) U P. apply search_pattern_none; [|exact match_code_macro_word].
  intros p x q E M B. unfold under in U. cbn [String.length append] in U.
  apply match_code_macro_iff in M as (c & es & r & Q & G & L & N' & A' & FS).
  assert (x = String c (String "#" es)) as ->.
  { apply (string_app_inj_r x q (String c (String "#" es)) r); [|exact L]. rewrite Q. reflexivity. }
  clear Q L. cbn [append] in E. cbn [String.length] in B.
  destruct (app_split _ _ _ _ E) as [(y & -> & K)|(y & -> & K)].
  - destruct y as [|h y].
    + cbn in K. inv K. discriminate G.
    + cbn in K. inv K. destruct (app_split _ _ _ _ H1) as [(z & -> & K)|(z & -> & K)].
      * rewrite !string_app_length in *. cbn [String.length] in *. rewrite string_app_length in B. lia.
      * destruct z as [|k z]; cbn in K.
        -- rewrite string_app_nil in *. rewrite !string_app_length in *. cbn [String.length] in *. lia.
        -- inv K. rewrite all_chars_app in A. apply andb_true_iff in A as [_ A]. cbn in A. apply andb_true_iff in A as [A _].
           apply digit_no_gm in A. rewrite G in A. discriminate.
  - destruct y as [|h y]; cbn in K.
    + inv K. discriminate G.
    + inv K. destruct y as [|k y]; cbn in H1.
      * apply (P p h eq_refl). now apply is_gm_iff.
      * inv H1. rewrite !string_app_length in *. cbn [String.length] in *.
        assert (Y : (String.length es <= String.length y)%nat).
        { destruct (Nat.le_gt_cases (String.length es) (String.length y)) as [|Hgt]; auto. exfalso.
          assert (AC : all_chars (fun k => negb (Ascii.eqb k "#")) es = true) by (eapply all_chars_impl; [|exact A']; apply digit_no_hash).
          revert AC H2 Hgt. clear. revert y. induction es as [|a v IHv]; intros y AC E Hgt; cbn in Hgt; [lia|]. cbn in AC. apply andb_true_iff in AC as [A1 A2].
          destruct y as [|b y]; cbn in E; inv E; [discriminate|]. eapply IHv; eauto. cbn in Hgt. lia. }
        lia.
Qed.

Section Handler.
Variable env : server_env.

(** The state of a document's line. *)
Definition line_of (v : server) (u : string) (line : Z) (text : string) (mm : macro_map dbl) : Prop :=
  exists fc, assoc u (sv_files v) = Some fc /\ 0 <= line /\ nth_error (fc_lines fc) (Z.to_nat line) = Some text /\ mm = fc_macros fc.

Lemma line_of_hover v u line text mm : line_of v u line text mm -> hover_text v u line = (text, Some mm).
Proof.
  intros (fc & A & B & C & ->). unfold hover_text. rewrite A.
  assert (K : (Z.to_nat line < List.length (fc_lines fc))%nat) by (apply nth_error_Some; congruence).
  replace ((line <? 0) || _) with false by lia. f_equal. now apply nth_error_nth.
Qed.

Lemma hover_reply v p d u line ch v' p' out : hovers d u line ch -> no_zero u ->
  handle env (v, p) d = Ok (v', p', out) ->
  exists id result, out = [response id result] /\
    hover_line env v (fst (hover_text v u line)) (snd (hover_text v u line)) line ch = Ok (v', result).
Proof.
  intros (M & U & Li & Ci) Z H. apply handle_step in H.
  destruct H; try (match goal with X : method d ?k |- _ => pose proof (method_fun _ _ _ X M); discriminate end).
  - apply hover_inv in H0 as (id & u' & li & c & res & _ & U' & E & Li' & Ci' & ->).
    assert (u' = u) by congruence. assert (li = line) by congruence. assert (c = ch) by congruence. subst.
    rewrite (c_str_plain u Z) in E. eauto.
  - exfalso. apply (H _ M). cbn. tauto.
Qed.

(** Description tables in use are the ones read from the files. *)
Lemma gcodes_used v v1 v2 gc : sound_tables env v -> env_gcodes env = Ok gc -> fetch_gcodes env v = Ok v1 -> fetch_mcodes env v1 = Ok v2 ->
  sv_gcodes v2 = Some gc.
Proof.
  intros S E A B. pose proof (fetch_gcodes_sound _ _ _ S A) as S1. pose proof (fetch_mcodes_sound _ _ _ S1 B) as (S2 & _).
  pose proof (fetch_gcodes_grown _ _ _ A) as [_ N]. pose proof (fetch_mcodes_grown _ _ _ B) as [(_ & _ & _ & _ & Q & _) _].
  specialize (Q N). destruct (sv_gcodes v2) as [c|] eqn:X; [|congruence]. rewrite (S2 c eq_refl) in E. congruence.
Qed.
Lemma mcodes_used v v1 v2 mc : sound_tables env v -> env_mcodes env = Ok mc -> fetch_gcodes env v = Ok v1 -> fetch_mcodes env v1 = Ok v2 ->
  sv_mcodes v2 = Some mc.
Proof.
  intros S E A B. pose proof (fetch_gcodes_sound _ _ _ S A) as S1. pose proof (fetch_mcodes_sound _ _ _ S1 B) as (_ & S2 & _).
  pose proof (fetch_mcodes_grown _ _ _ B) as [_ N]. destruct (sv_mcodes v2) as [c|] eqn:X; [|congruence]. rewrite (S2 c eq_refl) in E. congruence.
Qed.

Definition is_g (c : ascii) : bool := Ascii.eqb c "G" || Ascii.eqb c "g".

Lemma hover_code_reply v gc mc pre w suf c num key mm line ch v' result :
  sound_tables env v -> env_gcodes env = Ok gc -> env_mcodes env = Ok mc ->
  code_word w suf c num -> stripped num key -> under ch pre w ->
  hover_line env v (pre ++ w ++ suf) mm line ch = Ok (v', result) ->
  result = hover_result (match assoc key (co_data (if is_g c then gc else mc)) with Some td => note w td | None => w end)
             line (Z.of_nat (String.length pre)) (Z.of_nat (String.length pre + String.length w)).
Proof.
  intros S Eg Em W K U H. unfold hover_line in H. rewrite (code_found _ _ _ _ _ _ W U) in H.
  bok H. bok H. bok H. inv H. pose proof (gcodes_used _ _ _ _ S Eg E E0) as Q1. pose proof (mcodes_used _ _ _ _ S Em E E0) as Q2.
  destruct W as (ds & f & -> & -> & L & _). unfold hover_code in E1. rewrite tail_1, (extract_stripped _ _ K) in E1.
  fold (is_g c) in E1. bok E1. inv E1. f_equal.
  destruct (is_g c); [rewrite Q1 in E2|rewrite Q2 in E2]; cbn in E2; injection E2 as <-;
    match goal with |- context [assoc key ?t] => destruct (assoc key t) end; auto using markdown_note.
Qed.

Lemma hover_macro_reply v md pre w suf n m0 mm line ch v' result :
  sv_macros v = Some md ->
  macro_word w suf n -> under ch pre w -> (forall p c, pre = p ++ String c "" -> ~ code_letter c) ->
  hover_line env v (pre ++ w ++ suf) (Some (m0 :: mm)) line ch = Ok (v', result) ->
  exists td key, stripped (tail_from 1 w) key /\ get_desc (env_logger env) md key = Ok td /\
  let value := macro_lookup (m0 :: mm) n (line + 1) in
  let known := match value with Some x => w ++ " = " ++ to_string_trunc x | None => w end in
  result = hover_result (if String.eqb (fst td) "" && String.eqb (snd td) "" then
                            match value with Some _ => known | None => w ++ " = undefined" end
                         else note known td)
             line (Z.of_nat (String.length pre)) (Z.of_nat (String.length pre + String.length w)).
Proof.
  intros Emd W U P H. unfold hover_line in H. rewrite (no_code_here _ _ _ _ _ W U), (no_code_macro_here _ _ _ _ _ W U P), (macro_found _ _ _ _ _ W U) in H.
  bok H. inv H. destruct W as (ds & -> & D & F). unfold hover_macro in E. cbn [append] in *. rewrite tail_1 in *.
  destruct (stripped_ex ds) as [key K]; [apply D|]. rewrite (extract_stripped _ _ K) in E. bok E.
  pose proof (extract_code_denotes _ _ D) as D'. rewrite (extract_stripped _ _ K) in D'.
  rewrite (stoi_denotes _ _ D') in E0. destruct (int_max <? n) eqn:B; [discriminate|]. injection E0 as <-.
  rewrite (to_u32_id n) in E by (pose proof (denotes_nonneg _ _ D); lia).
  rewrite Emd in E. bok E. rename x into td. exists td, key. split; auto. split; auto. cbv zeta.
  inv E. f_equal. destruct (String.eqb_spec (fst td) "") as [T1|T1], (String.eqb_spec (snd td) "") as [T2|T2]; cbn [negb andb orb];
    destruct (macro_lookup (m0 :: mm) n (line + 1)); cbn [negb andb orb is_some]; rewrite <- ?markdown_note; reflexivity.
Qed.

Lemma hover_code_macro_reply v gc mc pre c w suf n m0 mm line ch v' result :
  sound_tables env v -> env_gcodes env = Ok gc -> env_mcodes env = Ok mc -> code_letter c ->
  macro_word w suf n -> under ch pre (String c w) ->
  hover_line env v (pre ++ String c w ++ suf) (Some (m0 :: mm)) line ch = Ok (v', result) ->
  match macro_lookup (m0 :: mm) n (line + 1) with
  | None => result = JObj []
  | Some x =>
      let headline := String c w ++ " (" ++ String (if is_g c then "G" else "M") (to_string_trunc x) ++ ")" in
      result = hover_result (match assoc (to_string_trunc x) (co_data (if is_g c then gc else mc)) with Some td => note headline td | None => headline end)
                 line (Z.of_nat (String.length pre)) (Z.of_nat (String.length pre + String.length (String c w)))
  end.
Proof.
  intros S Eg Em L W U H. unfold hover_line in H.
  rewrite (no_code_here' _ _ _ _ _ _ L W U), (code_macro_found _ _ c _ _ _ L W U) in H.
  unfold hover_code_macro in H. destruct W as (ds & -> & D & F). cbn [append] in *. rewrite tail_2 in H. bok H.
  pose proof (extract_code_denotes _ _ D) as D'. rewrite (stoi_denotes _ _ D') in E. destruct (int_max <? n) eqn:B; [discriminate|]. injection E as <-.
  rewrite (to_u32_id n) in H by (pose proof (denotes_nonneg _ _ D); lia).
  destruct (macro_lookup (m0 :: mm) n (line + 1)) as [x|]; [|now inv H]. fold (is_g c) in H.
  bok H. bok H. bok H. inv H. pose proof (gcodes_used _ _ _ _ S Eg E E0) as Q1. pose proof (mcodes_used _ _ _ _ S Em E E0) as Q2.
  cbv zeta. f_equal. destruct (is_g c); [rewrite Q1 in E1|rewrite Q2 in E1]; cbn in E1; injection E1 as <-;
    match goal with |- context [assoc ?k ?t] => destruct (assoc k t) end; rewrite ?markdown_note; reflexivity.
Qed.

Lemma hover_nothing v text mm line ch v' result :
  (forall pre w suf c num, text = pre ++ w ++ suf -> code_word w suf c num -> ~ under ch pre w) ->
  (forall pre w suf n, text = pre ++ w ++ suf -> macro_word w suf n -> ~ under ch pre w) ->
  (forall pre c w suf n, text = pre ++ String c w ++ suf -> code_letter c -> macro_word w suf n -> ~ under ch pre (String c w)) ->
  hover_line env v text mm line ch = Ok (v', result) -> result = JNull.
Proof.
  intros H1 H2 H3 H. unfold hover_line in H.
  rewrite (search_pattern_none match_code) in H; [|intros pre w suf E M B|exact match_code_word].
  2:{ apply match_code_iff in M as (c & ds & f & r & Q & G & N & A & S & L).
      assert (w = String c (ds ++ f) /\ suf = r) as [-> ->].
      { apply string_app_inj_r; auto. rewrite Q. cbn. now rewrite string_app_assoc. }
      apply (H1 pre (String c (ds ++ f)) r c (ds ++ f) E); [|unfold under; lia].
      exists ds, f. repeat split; auto. now apply is_gm_iff. }
  destruct mm as [[|m0 mm]|]; [now inv H| |now inv H].
  rewrite (search_pattern_none match_code_macro) in H; [|intros pre w suf E M B|exact match_code_macro_word].
  2:{ apply match_code_macro_iff in M as (c & ds & r & Q & G & L & N & A & S).
      assert (w = String c ("#" ++ ds) /\ suf = r) as [-> ->] by (apply string_app_inj_r; auto).
      apply (H3 pre c ("#" ++ ds) r (digits_val ds) E); [now apply is_gm_iff| |unfold under; lia].
      exists ds. repeat split; auto. }
  rewrite (search_pattern_none match_macro) in H; [|intros pre w suf E M B|exact match_macro_word].
  2:{ apply match_macro_iff in M as (ds & r & Q & L & N & A & S).
      assert (w = "#" ++ ds /\ suf = r) as [-> ->] by (apply string_app_inj_r; auto).
      apply (H2 pre ("#" ++ ds) r (digits_val ds) E); [|unfold under; lia].
      exists ds. repeat split; auto. }
  now inv H.
Qed.
End Handler.
