(** Renumbering: proofs. *)
From Verif Require Import Model.Base Model.Attr Model.Renumberer Spec.RenumberSpec
  Proofs.Tactics Proofs.StringFacts.

Ltac Zify.zify_post_hook ::= Z.div_mod_to_equations.

Lemma zeros_digits n : all_chars is_digit (zeros n) = true.
Proof. induction n; cbn; auto. Qed.

Lemma zeros_val n : forall a, digits_acc a (zeros n) = a * 10 ^ Z.of_nat n.
Proof.
  induction n as [|n IH]; intro a; [cbn; lia|].
  cbn [zeros digits_acc]. rewrite IH, Nat2Z.inj_succ, Z.pow_succ_r by lia.
  change (digit_val "0") with 0. lia.
Qed.

Section R.
Variable nw : word_map.
Notation ws := (map fst nw).

Lemma number_text_denotes rs c : 0 <= c -> denotes (number_text nw rs c) c.
Proof.
  intro H. destruct (nat_to_string_spec c H) as (N & A & V & _).
  unfold number_text. destruct (rs_leading_zeroes rs && _).
  - unfold to_string_leading_zeroes. rewrite z_to_string_nonneg by assumption.
    split; [|split].
    + destruct (nat_to_string c); [tauto|]. destruct (zeros _); discriminate.
    + now rewrite all_chars_app, zeros_digits.
    + unfold digits_val in *. rewrite digits_acc_app, zeros_val. now rewrite Z.mul_0_l.
  - rewrite z_to_string_nonneg by assumption. repeat split; auto.
Qed.

Lemma zeros_length n : String.length (zeros n) = n.
Proof. induction n; cbn; congruence. Qed.

Lemma number_text_written rs c : 0 <= c -> written (pad_width nw rs) (number_text nw rs c) c.
Proof.
  intro H. split; [now apply number_text_denotes|].
  unfold number_text, pad_width, leading_zeroes_num.
  destruct (rs_leading_zeroes rs); cbn [andb]; [|now rewrite Nat.max_0_l].
  destruct (assoc (rs_word rs) nw) as [g|]; [|now rewrite Nat.max_0_l].
  set (l := String.length (z_to_string (g_to g))).
  destruct (0 <? Z.of_nat l) eqn:E; [|replace l with 0%nat by lia; now rewrite Nat.max_0_l].
  unfold to_string_leading_zeroes. rewrite string_app_length, zeros_length, Nat2Z.id. lia.
Qed.

Lemma classify_skip rs a b : numberable ws (rs_existing_only rs) (a :: b) = false <->
  classify nw rs a = FSkip.
Proof.
  unfold numberable, classify. destruct a as [d|w v|w c]; cbn [special has_number]; unfold is_numbering.
  - destruct (String.eqb (d_word d) "/"); cbn; [tauto|].
    destruct (rs_existing_only rs), (mem_str (d_word d) ws); cbn; intuition congruence.
  - destruct (rs_existing_only rs), (String.eqb w "O" || String.eqb w "("); cbn; intuition congruence.
  - destruct (rs_existing_only rs), (String.eqb w "%"); cbn; intuition congruence.
Qed.

Lemma classify_existing rs a b : classify nw rs a = FExisting ->
  has_number ws (a :: b) = true /\ exists d, a = ADec d.
Proof.
  unfold classify. destruct a as [d|w v|w c]; cbn.
  - destruct (String.eqb (d_word d) "/"); [discriminate|].
    unfold is_numbering. destruct (mem_str (d_word d) ws) eqn:E; [eauto|].
    destruct (rs_existing_only rs); discriminate.
  - destruct (rs_existing_only rs); [discriminate|]. destruct (_ || _); discriminate.
  - destruct (rs_existing_only rs); [discriminate|]. destruct (String.eqb w "%"); discriminate.
Qed.

Lemma classify_plain rs a b : classify nw rs a = FPlain ->
  has_number ws (a :: b) = false /\ special (a :: b) = false.
Proof.
  unfold classify. destruct a as [d|w v|w c]; cbn.
  - destruct (String.eqb (d_word d) "/"); [discriminate|].
    unfold is_numbering. destruct (mem_str (d_word d) ws) eqn:E; [discriminate|].
    destruct (rs_existing_only rs); [discriminate|auto].
  - destruct (rs_existing_only rs); [discriminate|]. destruct (_ || _); [discriminate|auto].
  - destruct (rs_existing_only rs); [discriminate|]. destruct (String.eqb w "%"); [discriminate|auto].
Qed.

(** ** C04 *)
Lemma renumber_only_number st rs b :
  only_number_changed ws (rs_word rs) b (snd (renumber nw st rs b)).
Proof.
  destruct b as [|a b]; [constructor|]. cbn [renumber].
  destruct (classify nw rs a) eqn:C.
  - constructor.
  - apply classify_existing with (b := b) in C as [H [d ->]]. cbn in H.
    destruct (due rs st); cbn [snd]; [|now constructor].
    eapply onc_replace; cbn; auto.
  - apply classify_plain with (b := b) in C as [H S].
    destruct (due rs st); cbn [snd]; [|constructor].
    apply onc_insert; auto. discriminate.
Qed.

Lemma renumber_program_only_number rs p : forall st,
  Forall2 (only_number_changed ws (rs_word rs)) p (snd (renumber_program nw st rs p)).
Proof.
  induction p as [|b p IH]; intro st; cbn; [constructor|].
  pose proof (renumber_only_number st rs b) as H.
  destruct (renumber nw st rs b) as [st1 b1]. specialize (IH st1).
  destruct (renumber_program nw st1 rs p) as [st2 p2]. constructor; assumption.
Qed.

Lemma only_number_length w b b' : only_number_changed ws w b b' ->
  (List.length b' <= S (List.length b) /\ List.length b <= S (List.length b'))%nat.
Proof. intro H; inv H; cbn; lia. Qed.

(** ** C05 *)
Lemma remove_renumber st rs b :
  mem_str (rs_word rs) ws = true -> has_number ws b = false ->
  remove_number nw (snd (renumber nw st rs b)) = b.
Proof.
  intros W H.
  assert (R : remove_number nw b = b).
  { destruct b as [|[d|w v|w c] b]; cbn in *; auto. unfold is_numbering. now rewrite H. }
  pose proof (renumber_only_number st rs b) as O. inv O.
  - congruence.
  - cbn in H. congruence.
  - cbn in H. congruence.
  - cbn. unfold is_numbering. now rewrite W.
Qed.

Lemma remove_renumber_program rs p : forall st,
  mem_str (rs_word rs) ws = true -> Forall (fun b => has_number ws b = false) p ->
  map (remove_number nw) (snd (renumber_program nw st rs p)) = p.
Proof.
  induction p as [|b p IH]; intros st W F; cbn; [reflexivity|]. inv F.
  pose proof (remove_renumber st rs b W H1) as R.
  destruct (renumber nw st rs b) as [st1 b1]. specialize (IH st1 W H2).
  destruct (renumber_program nw st1 rs p) as [st2 p2]. cbn in *. congruence.
Qed.

(** ** One numberable block *)
Lemma renumber_not_numberable st rs b :
  numberable ws (rs_existing_only rs) b = false -> renumber nw st rs b = (st, b).
Proof.
  intro H. destruct b as [|a b]; [reflexivity|].
  cbn [renumber]. apply classify_skip in H. now rewrite H.
Qed.

Lemma numberable_classes rs a b : numberable ws (rs_existing_only rs) (a :: b) = true ->
  (classify nw rs a = FExisting /\ has_number ws (a :: b) = true) \/
  (classify nw rs a = FPlain /\ has_number ws (a :: b) = false).
Proof.
  intro H. destruct (classify nw rs a) eqn:C.
  - apply classify_skip with (b := b) in C. congruence.
  - left. split; [reflexivity|]. now apply classify_existing with (b := b) in C.
  - right. split; [reflexivity|]. now apply classify_plain with (b := b) in C.
Qed.

Lemma renumber_not_due st rs b :
  numberable ws (rs_existing_only rs) b = true -> due rs st = false ->
  renumber nw st rs b =
  (mkRen (counter st) (next_frequency rs (current_frequency st)), without_number ws b).
Proof.
  intros N D. destruct b as [|a b]; [discriminate|].
  cbn [renumber]. destruct (numberable_classes _ _ _ N) as [[C H]|[C H]];
    rewrite C, D; unfold without_number; rewrite H; reflexivity.
Qed.

Lemma renumber_due st rs b :
  numberable ws (rs_existing_only rs) b = true -> due rs st = true ->
  fst (renumber nw st rs b) =
    mkRen (bump nw rs (counter st)) (next_frequency rs (current_frequency st)) /\
  exists d, snd (renumber nw st rs b) = ADec d :: without_number ws b /\
            d_word d = rs_word rs /\ d_value d = Some (number_text nw rs (counter st)) /\
            (plain_number ws b -> d = plain (rs_word rs) (number_text nw rs (counter st))).
Proof.
  intros N D. destruct b as [|a b]; [discriminate|].
  cbn [renumber]. destruct (numberable_classes _ _ _ N) as [[C H]|[C H]];
    rewrite C, D; unfold without_number; rewrite H; cbn [fst snd]; (split; [reflexivity|]).
  - apply classify_existing with (b := b) in C as [_ [d ->]]. cbn in H.
    eexists. split; [reflexivity|]. repeat split. cbn. intro P.
    destruct (P H) as [v E]. rewrite E. reflexivity.
  - eexists. split; [reflexivity|]. repeat split.
Qed.

(** ** C03 *)
Lemma expected_0 lo hi start step : 0 < step -> start <= hi ->
  expected_number lo hi start step 0 = start.
Proof.
  intros. unfold expected_number.
  assert (0 <= (hi - start) / step) by (apply Z.div_pos; lia).
  replace (0 <? _) with true by lia. lia.
Qed.

Lemma expected_range lo hi start step j : 0 < step -> start <= hi -> lo <= hi -> 0 <= j ->
  Z.min lo start <= expected_number lo hi start step j <= hi.
Proof.
  intros Hs H1 H2 Hj. unfold expected_number.
  pose proof (Z.mul_div_le (hi - start) step Hs). pose proof (Z.mul_div_le (hi - lo) step Hs).
  assert (0 <= (hi - start) / step) by (apply Z.div_pos; lia).
  assert (0 <= (hi - lo) / step) by (apply Z.div_pos; lia).
  destruct (j <? (hi - start) / step + 1) eqn:E.
  - nia.
  - pose proof (Z.mod_pos_bound (j - ((hi - start) / step + 1)) ((hi - lo) / step + 1)).
    set (r := (j - ((hi - start) / step + 1)) mod ((hi - lo) / step + 1)) in *. clearbody r. nia.
Qed.

Lemma expected_succ lo hi start step j :
  0 < step -> start <= hi -> lo <= hi -> 0 <= j ->
  expected_number lo hi start step (j + 1) =
  (let c := expected_number lo hi start step j + step in if hi <? c then lo else c).
Proof.
  intros Hs H1 H2 Hj. unfold expected_number. cbv zeta.
  set (q1 := (hi - start) / step). set (q2 := (hi - lo) / step).
  assert (A1 : step * q1 <= hi - start < step * (q1 + 1)).
  { unfold q1. pose proof (Z.mul_div_le (hi - start) step Hs).
    pose proof (Z.mul_succ_div_gt (hi - start) step Hs). lia. }
  assert (A2 : step * q2 <= hi - lo < step * (q2 + 1)).
  { unfold q2. pose proof (Z.mul_div_le (hi - lo) step Hs).
    pose proof (Z.mul_succ_div_gt (hi - lo) step Hs). lia. }
  assert (0 <= q1) by (apply Z.div_pos; lia). assert (0 <= q2) by (apply Z.div_pos; lia).
  clearbody q1 q2.
  destruct (j <? q1 + 1) eqn:E1.
  - destruct (j + 1 <? q1 + 1) eqn:E2.
    + replace (hi <? start + j * step + step) with false; [lia|]. symmetry. apply Z.ltb_ge. nia.
    + assert (j = q1) by lia. subst j.
      replace (hi <? start + q1 * step + step) with true; [|symmetry; apply Z.ltb_lt; nia].
      replace (q1 + 1 - (q1 + 1)) with 0 by lia. rewrite Z.mod_0_l by lia. lia.
  - replace (j + 1 <? q1 + 1) with false by lia.
    set (t := j - (q1 + 1)). assert (0 <= t) by lia.
    replace (j + 1 - (q1 + 1)) with (t + 1) by lia.
    pose proof (Z.mod_pos_bound t (q2 + 1) ltac:(lia)) as B.
    pose proof (Z.div_mod t (q2 + 1) ltac:(lia)) as DM.
    set (r := t mod (q2 + 1)) in *. set (k := t / (q2 + 1)) in *. clearbody r k.
    destruct (Z.eq_dec r q2) as [->|Nr].
    + replace ((t + 1) mod (q2 + 1)) with 0.
      * replace (hi <? lo + q2 * step + step) with true; [lia|]. symmetry. apply Z.ltb_lt. nia.
      * apply Z.mod_unique_pos with (q := k + 1); lia.
    + replace ((t + 1) mod (q2 + 1)) with (r + 1).
      * replace (hi <? lo + r * step + step) with false; [lia|]. symmetry. apply Z.ltb_ge. nia.
      * apply Z.mod_unique_pos with (q := k); lia.
Qed.

Section C03.
Variable rs : renumber_settings.
Hypothesis Hfreq : 0 <= rs_frequency rs < 2.
Hypothesis Hstep : 0 < rs_step rs.
Hypothesis Hlo : 0 <= lower_end nw (rs_word rs) <= rs_max rs.
Hypothesis Hmax : rs_max rs + rs_step rs < 4294967296.
Notation E start := (expected_number (lower_end nw (rs_word rs)) (rs_max rs) start (rs_step rs)).

Lemma bump_expected start j : 0 <= start <= rs_max rs -> 0 <= j ->
  bump nw rs (E start j) = E start (j + 1).
Proof.
  intros Hst Hj. rewrite expected_succ by lia.
  pose proof (expected_range (lower_end nw (rs_word rs)) (rs_max rs) start (rs_step rs) j).
  unfold bump.
  replace (to_u32 (E start j + rs_step rs)) with (E start j + rs_step rs)
    by (unfold to_u32; rewrite Z.mod_small; lia).
  cbv zeta.
  destruct (rs_max rs <? _); [|reflexivity].
  unfold lower_end in *. destruct (assoc (rs_word rs) nw); [|reflexivity].
  unfold to_u32. apply Z.mod_small. lia.
Qed.

Lemma renumber_sequence start p : 0 <= start <= rs_max rs ->
  forall j f, 0 <= j -> Forall (plain_number ws) p ->
  each_numberable (numberable ws (rs_existing_only rs))
    (fun j b o => exists t, written (pad_width nw rs) t (E start j) /\
                  o = ADec (plain (rs_word rs) t) :: without_number ws b)
    j p (snd (renumber_program nw (mkRen (E start j) f) rs p)).
Proof.
  intro Hst. induction p as [|b p IH]; intros j f Hj F; [exact I|]. inv F.
  cbn [renumber_program]. destruct (numberable ws (rs_existing_only rs) b) eqn:N.
  - assert (due rs (mkRen (E start j) f) = true) as D by (unfold due; lia).
    pose proof (renumber_due _ _ _ N D) as (S & d & Ho & _ & _ & P).
    destruct (renumber nw (mkRen (E start j) f) rs b) as [st1 b1]. cbn [fst snd counter] in *. subst.
    rewrite bump_expected by assumption. specialize (IH (j + 1) (next_frequency rs f) ltac:(lia) H2).
    cbn [current_frequency] in *.
    destruct (renumber_program _ _ _ p) as [st2 p2]. cbn [snd each_numberable] in *. rewrite N.
    split; [|assumption]. eexists. split; [|now rewrite (P H1)].
    apply number_text_written.
    pose proof (expected_range (lower_end nw (rs_word rs)) (rs_max rs) start (rs_step rs) j). lia.
  - rewrite renumber_not_numberable by assumption. specialize (IH j f Hj H2).
    destruct (renumber_program _ _ _ p) as [st2 p2]. cbn [snd each_numberable] in *. rewrite N. auto.
Qed.
End C03.

(** ** C06 *)
Lemma renumber_frequency rs p : 1 < rs_frequency rs < 4294967296 ->
  forall j st, 0 <= j -> current_frequency st = j mod rs_frequency rs ->
  each_numberable (numberable ws (rs_existing_only rs))
    (fun j b o => if j mod rs_frequency rs =? 0
                  then exists d, o = ADec d :: without_number ws b /\ d_word d = rs_word rs
                                 /\ is_some (d_value d) = true
                  else o = without_number ws b)
    j p (snd (renumber_program nw st rs p)).
Proof.
  intro Hf. induction p as [|b p IH]; intros j st Hj Hc; [exact I|].
  cbn [renumber_program]. destruct (numberable ws (rs_existing_only rs) b) eqn:N.
  - pose proof (Z.mod_pos_bound j (rs_frequency rs) ltac:(lia)) as B.
    assert (next_frequency rs (current_frequency st) = (j + 1) mod rs_frequency rs) as Hnf.
    { unfold next_frequency. rewrite Hc. replace (1 <? rs_frequency rs) with true by lia.
      unfold to_u32. cbv zeta. rewrite (Z.mod_small (_ + 1)) by lia.
      pose proof (Z.div_mod j (rs_frequency rs) ltac:(lia)).
      set (r := j mod rs_frequency rs) in *. set (q := j / rs_frequency rs) in *. clearbody r q.
      destruct (r + 1 =? rs_frequency rs) eqn:E.
      - apply Z.mod_unique_pos with (q := q + 1); lia.
      - apply Z.mod_unique_pos with (q := q); lia. }
    destruct (due rs st) eqn:D.
    + pose proof (renumber_due _ _ _ N D) as (S & d & Ho & Hw & Hv & _).
      destruct (renumber nw st rs b) as [st1 b1]. cbn [fst snd] in *. subst.
      specialize (IH (j + 1) (mkRen (bump nw rs (counter st)) (next_frequency rs (current_frequency st)))
                    ltac:(lia) Hnf).
      destruct (renumber_program _ _ _ p) as [st2 p2]. cbn [snd each_numberable] in *. rewrite N.
      split; [|assumption]. unfold due in D.
      replace (j mod rs_frequency rs =? 0) with true by lia. exists d. rewrite Hv. auto.
    + rewrite renumber_not_due by assumption.
      specialize (IH (j + 1) (mkRen (counter st) (next_frequency rs (current_frequency st)))
                    ltac:(lia) Hnf).
      destruct (renumber_program _ _ _ p) as [st2 p2]. cbn [snd each_numberable] in *. rewrite N.
      split; [|assumption]. unfold due in D.
      replace (j mod rs_frequency rs =? 0) with false by lia. reflexivity.
  - rewrite renumber_not_numberable by assumption. specialize (IH j st Hj Hc).
    destruct (renumber_program _ _ _ p) as [st2 p2]. cbn [snd each_numberable] in *. rewrite N. auto.
Qed.

End R.

Lemma renumber_sequence_0 nw rs :
  0 <= rs_frequency rs < 2 -> 0 < rs_step rs ->
  0 <= lower_end nw (rs_word rs) <= rs_max rs -> rs_max rs + rs_step rs < 4294967296 ->
  forall start p f, 0 <= start <= rs_max rs -> Forall (plain_number (map fst nw)) p ->
  each_numberable (numberable (map fst nw) (rs_existing_only rs))
    (fun j b o => exists t,
        written (pad_width nw rs) t (expected_number (lower_end nw (rs_word rs)) (rs_max rs) start (rs_step rs) j) /\
        o = ADec (plain (rs_word rs) t) :: without_number (map fst nw) b)
    0 p (snd (renumber_program nw (mkRen start f) rs p)).
Proof.
  intros H1 H2 H3 H4 start p f H5 F.
  pose proof (renumber_sequence nw rs H1 H2 H3 H4 start p H5 0 f ltac:(lia) F) as R.
  now rewrite expected_0 in R by lia.
Qed.

Lemma renumber_macro_refuted : exists nw rs start p,
  0 <= rs_frequency rs < 2 /\ 0 < rs_step rs /\
  0 <= lower_end nw (rs_word rs) <= rs_max rs /\ rs_max rs + rs_step rs < 4294967296 /\
  0 <= start <= rs_max rs /\
  ~ each_numberable (numberable (map fst nw) (rs_existing_only rs))
    (fun j b o => exists t,
        written (pad_width nw rs) t (expected_number (lower_end nw (rs_word rs)) (rs_max rs) start (rs_step rs) j) /\
        o = ADec (plain (rs_word rs) t) :: without_number (map fst nw) b)
    0 p (snd (renumber_program nw (mkRen start 0) rs p)).
Proof.
  exists [("N", mkWG "N" 1 99999 0 0 true WTnumbering)], (mkRS "N" 1 1 99 false false), 1,
    [[ADec (mkDec "N" None None None (Some "#") (Some "5") None None None)]].
  cbn. repeat split; try lia. intros [(t & _ & E) _]. inversion E.
Qed.
