(** Writing an edited line and reading it back. *)
From Verif Require Import Model.Base Model.Attr Model.Grammar Spec.Text Spec.GrammarSpec Spec.EditSpec.
From Verif Require Import Proofs.Tactics Proofs.TextProofs Proofs.StringFacts Proofs.GrammarLex Proofs.GrammarTail Proofs.GrammarProofs Proofs.PrintProofs.

(** What may stand behind an attribute, blanks in front of it. *)
Definition follows (a : attr) (c : ascii) : Prop :=
  match a with
  | ADec d => may_follow true d c /\ (decimal_text d = "/"%string -> c <> "/"%char)
  | AChr _ _ => False
  | AStr _ _ => True
  end.

Lemma goes_on_follow d c : contains (String c "") (goes_on d) = false -> may_follow true d c.
Proof.
  intro H. unfold may_follow, goes_on in *. destruct (d_close d) as [x|]; [discriminate|]. intros _.
  assert (A : forall u v, contains (String c "") (u ++ v) = false -> contains (String c "") u = false /\ contains (String c "") v = false).
  { intros u v K. rewrite contains_app_char in K. now apply orb_false_iff in K. }
  apply A in H as [H1 H]. split; [destruct c as [[] [] [] [] [] [] [] []]; vm_compute in H1 |- *; congruence|].
  intros V D. rewrite V, D in H. apply A in H as [H2 H].
  assert (K : is_digit c = false /\ in_set "." c = false) by (destruct c as [[] [] [] [] [] [] [] []]; vm_compute in H2 |- *; split; congruence).
  destruct K as [K1 K2]. split; [exact K1|]. split; [exact K2|]. intro M. rewrite M in H. apply A in H as [H3 H].
  split; [exact H3|]. intro O. rewrite O in H. apply A in H as [H4 H]. split; [intros _|].
  - destruct c as [[] [] [] [] [] [] [] []]; vm_compute in H4 |- *; congruence.
  - intro S'. rewrite S' in H. destruct c as [[] [] [] [] [] [] [] []]; vm_compute in H |- *; congruence.
Qed.

Lemma may_follow_false d c : may_follow true d c -> may_follow false d c.
Proof.
  unfold may_follow. intros H X. destruct (H X) as [A B]. split; [exact A|]. intros V D. destruct (B V D) as (C1 & C2 & C3).
  split; [exact C1|]. split; [exact C2|]. intro M. destruct (C3 M) as [E F]. split; [exact E|]. intro O. destruct (F O) as [G K].
  split; [discriminate|exact K].
Qed.

Section Tables.
Variable wm : word_map.
Variables dec asg : list string.
Hypothesis T : tables_ok wm dec asg.

Let LA := line_attribute wm dec asg.

(** Read from its text whatever stands behind it. *)
Definition reads (s s' : gstate) (a : attr) : Prop :=
  forall rest', blank_start rest' -> (forall c, hd rest' = Some c -> follows a c /\ c <> "["%char) ->
    (In (attr_text a) asg -> hd rest' <> Some "="%char) ->
    ((exists n, a = AStr "O" n) -> forall c, hd rest' = Some c -> is_letter c = false) ->
    exists rest'', LA (attr_text a ++ rest')%string s = (s', ROk a rest'') /\ (rest'' = rest' \/ rest'' = skip rest').

Definition link0 (s s' : gstate) (a : attr) : Prop :=
  (exists c r, attr_text a = String c r /\ c <> "["%char /\ is_blank c = false) /\
  (forall rest', char_rule (attr_text a ++ rest') = RFail) /\ reads s s' a.

Lemma link0_dec d s s' : In (d_word d) dec -> d_assign d = None -> tail_ok true d -> verify wm d s = (s', VTrue) -> link0 s s' (ADec d).
Proof.
  intros I AS OK V. set (w := d_word d) in *.
  assert (TX : attr_text (ADec d) = (w ++ tail_text d)%string) by (cbn [attr_text]; rewrite decimal_text_eq, AS; reflexivity).
  destruct (word_start wm dec asg T w) as (c & rr & Ew & Bc & NX & OX); [auto|]. destruct (to_chars _ _ _ T w) as (NE & NCm & NBw); [auto|].
  split; [exists c, (rr ++ tail_text d)%string; rewrite TX, Ew; auto|].
  assert (CR : forall rest', char_rule (attr_text (ADec d) ++ rest') = RFail) by (intro; rewrite TX, string_app_assoc; now apply char_rule_word).
  split; [exact CR|]. intros rest' B HD N _.
  destruct (number_tail_text true w None d rest' OK B) as (r' & NT & R'). { intros x X. apply (HD x X). }
  exists r'. split; [|exact R'].
  assert (SK : skip (attr_text (ADec d) ++ rest') = (w ++ tail_text d ++ rest')%string) by (rewrite TX, Ew, string_app_assoc; now apply skip_app).
  unfold LA. rewrite (la_word wm dec asg _ c (rr ++ tail_text d ++ rest')); [|apply CR|rewrite SK, Ew; reflexivity|exact OX].
  assert (E : decimal_rule wm dec asg (attr_text (ADec d) ++ rest') s = (s', ROk (ADec d) r')).
  { unfold decimal_rule. rewrite SK. rewrite (assign_ahead_again wm dec asg T); auto. 2: eapply tail_text_chars; eauto. 2: rewrite <- TX; exact N.
    rewrite (sym_match_again wm dec asg T); auto. 2: eapply tail_text_chars; eauto.
    rewrite drop_app, NT. unfold w. rewrite <- AS, with_head_id. unfold checked. now rewrite V. }
  rewrite E. reflexivity.
Qed.

Lemma link0_asg d s s' : In (d_word d) asg -> d_assign d = Some "="%char -> tail_ok true d -> verify wm d s = (s', VTrue) -> link0 s s' (ADec d).
Proof.
  intros I AS OK V. set (w := d_word d) in *.
  assert (TX : attr_text (ADec d) = (w ++ String "=" (tail_text d))%string) by (cbn [attr_text]; rewrite decimal_text_eq, AS; reflexivity).
  destruct (word_start wm dec asg T w) as (c & rr & Ew & Bc & NX & OX); [auto|]. destruct (to_chars _ _ _ T w) as (NE & NCm & NBw); [auto|].
  split; [exists c, (rr ++ String "=" (tail_text d))%string; rewrite TX, Ew; auto|].
  assert (CR : forall rest', char_rule (attr_text (ADec d) ++ rest') = RFail) by (intro; rewrite TX, string_app_assoc; now apply char_rule_word).
  split; [exact CR|].
  assert (SM : forall rest', sym_match asg (w ++ String "=" (tail_text d) ++ rest') = Some w).
  { intro rest'. apply sym_match_some. split; [exact I|]. split; [apply prefix_app|]. intros u U P.
    apply prefix_iff in P as (x & E). destruct (app_prefix_cases _ _ _ _ E) as [(z & W' & _)|(z & W' & X)].
    - rewrite W', string_app_length. lia.
    - destruct z as [|y z]; [rewrite string_app_nil in W'; subst; lia|]. exfalso. cbn in X. inv X.
      destruct (to_equal _ _ _ T) as [_ Q]. apply Q in U. rewrite contains_app_char in U. apply orb_false_iff in U as [_ U]. cbn in U. destruct z; discriminate U. }
  intros rest' B HD _ _.
  assert (SK : skip (attr_text (ADec d) ++ rest') = (w ++ String "=" (tail_text d) ++ rest')%string) by (rewrite TX, Ew, string_app_assoc; now apply skip_app).
  destruct (number_tail_text true w (Some "="%char) d rest' OK B) as (r' & NT & R'). { intros x X. apply (HD x X). }
  exists r'. split; [|exact R'].
  unfold LA. rewrite (la_word wm dec asg _ c (rr ++ String "=" (tail_text d) ++ rest')); [|apply CR|rewrite SK, Ew; reflexivity|exact OX].
  unfold decimal_rule, assign_ahead, assignable_rule. rewrite SK, SM, drop_app. cbn [append]. rewrite skip_none by reflexivity. cbn [orelse].
  rewrite NT. unfold w. rewrite <- AS, with_head_id. unfold checked. rewrite V. reflexivity.
Qed.

(** "/", with the two rules that read it. *)
Lemma link0_slash d s s' : d_word d = "/"%string -> d_assign d = None -> tail_ok true d ->
  (verify wm d s = (s', VTrue) \/ (d_open d = None /\ exists s1, verify wm d s = (s1, VFalse) /\ verify wm d s1 = (s', VTrue))) -> link0 s s' (ADec d).
Proof.
  intros W AS OK V.
  assert (TX : attr_text (ADec d) = String "/" (tail_text d)) by (cbn [attr_text]; rewrite decimal_text_eq, W, AS; reflexivity).
  split; [rewrite TX; exists "/"%char, (tail_text d); split; [reflexivity|]; split; [discriminate|reflexivity]|].
  assert (CR : forall rest', char_rule (attr_text (ADec d) ++ rest') = RFail) by (intro; rewrite TX; reflexivity).
  split; [exact CR|]. intros rest' B HD _ _.
  assert (WH : with_head "/" None d = d) by (rewrite <- W, <- AS; apply with_head_id).
  assert (HS : hd (tail_text d ++ rest') <> Some "/"%char).
  { pose proof (tail_text_chars _ _ OK) as A. destruct (tail_text d) as [|c x] eqn:E.
    - cbn. intro K. destruct (HD _ K) as [[_ N] _]. apply N; [|reflexivity]. rewrite decimal_text_eq, W, AS, E. reflexivity.
    - cbn in A. apply andb_true_iff in A as [A _]. destruct (tail_char_not _ A) as (_ & X & BB). unfold hd. rewrite skip_app by exact BB. cbn. congruence. }
  destruct (number_tail_text true "/" None d rest' OK B) as (r' & NT & R'). { intros x X. apply (HD x X). }
  rewrite WH in NT. exists r'. split; [|exact R'].
  unfold LA. rewrite (la_slash wm dec asg T _ (tail_text d ++ rest')); [|apply CR|rewrite TX; reflexivity]. rewrite TX. cbn [append].
  rewrite (slash_rule_eq wm) by exact HS. rewrite NT. unfold checked. destruct V as [V|(O & s1 & V1 & V2)].
  - rewrite V. reflexivity.
  - rewrite V1. cbn [orelse]. rewrite (slash_rule_eq wm) by exact HS.
    assert (OK2 : tail_ok false d) by (unfold tail_ok in *; intuition auto).
    destruct (number_tail_text false "/" None d rest' OK2 B) as (r2 & NT2 & R2). { intros x X. apply may_follow_false, (HD x X). }
    rewrite WH in NT2. rewrite NT2. destruct (open_first _ _ _ _ _ NT NT2) as [_ ->].
    + rewrite (hd_or _ _ R2). intro K. now destruct (HD _ K).
    + unfold checked. now rewrite V2.
Qed.

Lemma link0_comment v s : all_chars (fun c => negb (Ascii.eqb c ")")) v = true -> link0 s s (AStr "(" v).
Proof.
  intro AV. split; [exists "("%char, (v ++ ")")%string; split; [reflexivity|]; split; [discriminate|reflexivity]|]. split; [reflexivity|].
  intros rest' B HD _ _. exists rest'. split; [|auto]. unfold LA. change (attr_text (AStr "(" v)) with ("(" ++ v ++ ")")%string.
  rewrite (la_comment wm dec asg T _ ((v ++ ")") ++ rest')); [|reflexivity|reflexivity]. f_equal. unfold comment_rule.
  rewrite skip_none by reflexivity. cbn [append]. rewrite string_app_assoc. cbn [append]. rewrite span_app; [reflexivity|exact AV|reflexivity].
Qed.

Lemma link0_percent s : link0 s s (AChr "%" zero).
Proof.
  split; [exists "%"%char, ""%string; split; [reflexivity|]; split; [discriminate|reflexivity]|]. split; [reflexivity|].
  intros rest' B HD _ _. assert (SR : skip rest' = ""%string).
  { destruct (skip rest') as [|c r] eqn:E; [reflexivity|]. exfalso. destruct (HD c) as [[] _]. unfold hd. now rewrite E. }
  exists ""%string. split; [|right; congruence]. change (attr_text (AChr "%" zero)) with "%"%string.
  unfold LA. rewrite (la_percent wm dec asg T _ rest'); [|reflexivity|reflexivity]. unfold start_program_rule. rewrite skip_none by reflexivity. cbn [append]. now rewrite SR.
Qed.

(** What the checks said about a word. *)
Definition checks (s s' : gstate) (a : attr) : Prop :=
  match a with
  | ADec d => tail_ok true d /\ (d_assign d = None \/ (d_assign d = Some "="%char /\ In (d_word d) asg)) /\
      (verify wm d s = (s', VTrue) \/ (d_word d = "/"%string /\ exists s1, verify wm d s = (s1, VFalse) /\ verify wm d s1 = (s', VTrue)))
  | _ => s' = s
  end.

Definition link (s s' : gstate) (a : attr) : Prop := link0 s s' a /\ checks s s' a.

Lemma link_dec d s s' : In (d_word d) dec -> d_assign d = None -> tail_ok true d -> verify wm d s = (s', VTrue) -> link s s' (ADec d).
Proof. intros. split; [now apply link0_dec|]. cbn. auto. Qed.
Lemma link_asg d s s' : In (d_word d) asg -> d_assign d = Some "="%char -> tail_ok true d -> verify wm d s = (s', VTrue) -> link s s' (ADec d).
Proof. intros. split; [now apply link0_asg|]. cbn. auto. Qed.
Lemma link_slash d s s' : d_word d = "/"%string -> d_assign d = None -> tail_ok true d ->
  (verify wm d s = (s', VTrue) \/ (d_open d = None /\ exists s1, verify wm d s = (s1, VFalse) /\ verify wm d s1 = (s', VTrue))) -> link s s' (ADec d).
Proof. intros W AS OK V. split; [now apply link0_slash|]. cbn. split; [exact OK|]. split; [auto|]. destruct V as [V|[_ V]]; auto. Qed.
Lemma link_comment v s : all_chars (fun c => negb (Ascii.eqb c ")")) v = true -> link s s (AStr "(" v).
Proof. intros. split; [now apply link0_comment|reflexivity]. Qed.
Lemma link_percent s : link s s (AChr "%" zero).
Proof. split; [apply link0_percent|reflexivity]. Qed.

(** An attribute that was read. *)
Lemma read_link t s s' a rest : LA t s = (s', ROk a rest) -> a <> AChr "," zero -> hd rest <> Some "["%char ->
  link s s' a /\ (exists c, hd t = Some c /\ c <> "["%char).
Proof.
  intros H NC NB. destruct (attr_again wm dec asg T _ _ _ _ _ H NC NB) as ((c0 & r0 & TX0 & HT0 & NX0 & BX0) & L0 & CR0 & AG0).
  split; [|eauto].
  assert (C : char_rule t = RFail).
  { destruct (char_rule_cases t) as [C|(r & C)]; [exact C|]. exfalso. apply NC. unfold LA, line_attribute in H. rewrite C in H. cbn in H. now inv H. }
  destruct (skip t) as [|c r] eqn:E; [unfold LA in H; rewrite (la_blank wm dec asg T) in H by exact E; discriminate|].
  destruct (ascii_dec c "/") as [->|N1]; [|destruct (ascii_dec c "(") as [->|N2]; [|destruct (ascii_dec c "%") as [->|N3]]].
  - unfold LA in H. rewrite (la_slash wm dec asg T t r s C E) in H. destruct (slash_rule wm true t s) as [s1 R1] eqn:S1.
    destruct R1 as [|a1 r1|x|x]; cbn [orelse] in H; try discriminate.
    + apply slash_tail in H as (b & d & Eb & HB & NT & -> & V). rewrite E in Eb. inv Eb.
      assert (S1' : (let '(d, r') := number_tail true "/" None b in checked wm d r' s) = (s1, RFail)).
      { unfold slash_rule in S1. rewrite E in S1. unfold hd in HB. destruct (skip b) as [|x y]; [exact S1|]. destruct x as [[] [] [] [] [] [] [] []]; try exact S1. now contradiction HB. }
      destruct (number_tail true "/" None b) as [d1 r1] eqn:NT1. destruct (open_first _ _ _ _ _ NT1 NT NB) as [-> ->].
      pose proof NT as NT0. apply number_tail_spec in NT0 as (_ & _ & OKF & _). apply number_tail_spec in NT1 as (W & AS & OK & _).
      apply link_slash; auto. right. split; [apply OKF; reflexivity|]. exists s1. split; [|exact V].
      unfold checked in S1'. destruct (verify wm d s) as [x [| |]]; inv S1'. reflexivity.
    + inv H. apply slash_tail in S1 as (b & d & Eb & HB & NT & -> & V). apply number_tail_spec in NT as (W & AS & OK & _). apply link_slash; auto.
  - unfold LA in H. rewrite (la_comment wm dec asg T t r s C E) in H. inv H. unfold comment_rule in H2. rewrite E in H2.
    pose proof (span_spec (fun c => negb (Ascii.eqb c ")")) r) as SP. destruct (span (fun c => negb (Ascii.eqb c ")")) r) as [v [|q r']]; [discriminate|].
    inv H2. now apply link_comment.
  - unfold LA in H. rewrite (la_percent wm dec asg T t r s C E) in H. inv H. unfold start_program_rule in H2. rewrite E in H2. destruct (skip r); [|discriminate]. inv H2.
    apply link_percent.
  - assert (OS : other_start c) by (repeat split; assumption). unfold LA in H. rewrite (la_word wm dec asg t c r s C E OS) in H.
    destruct (decimal_rule wm dec asg t s) as [s1 R1] eqn:D1. destruct R1 as [|a1 r1|x|x]; cbn [orelse] in H; try discriminate.
    + destruct (assignable_rule wm asg t s1) as [s2 R2] eqn:A1. destruct R2 as [|a2 r2|x|x]; cbn [orelse] in H; try discriminate.
      * (* a program name *)
        inv H. unfold program_name_rule in H2. rewrite E in H2.
        assert (c = "O"%char) by (destruct c as [[] [] [] [] [] [] [] []]; (discriminate H2 || reflexivity)). subst c.
        pose proof (span_spec is_name_char r) as SP. destruct (span is_name_char r) as [v r'] eqn:SN. destruct SP as (ER & AV & Q).
        destruct v as [|v0 v1]; [discriminate|]. set (v := String v0 v1) in *. inv H2.
        assert (S1 : s1 = s /\ (forall rest', blank_start rest' -> decimal_rule wm dec asg (String "O" (v ++ rest')) s = (s, RFail))).
        { unfold decimal_rule in D1. rewrite E in D1. destruct (assign_ahead asg (String "O" (v ++ r'))) eqn:AA.
          - exfalso. unfold assign_ahead in AA. destruct (sym_match asg (String "O" (v ++ r'))) as [u|] eqn:U; [|discriminate].
            apply sym_match_some in U as (U & P & _). destruct (to_chars _ _ _ T u) as (NE & _); [auto|]. destruct u as [|u0 u]; [contradiction|].
            apply prefix_iff in P as (b & P). cbn in P. inv P. apply (to_name _ _ _ T u). exact U.
          - destruct (sym_match dec (String "O" (v ++ r'))) as [w|] eqn:M.
            + exfalso. destruct (number_tail true w None (drop (String.length w) (String "O" (v ++ r')))) as [d rr] eqn:NT. apply number_tail_spec in NT as (W & _).
              apply sym_match_some in M as (I & P & _). destruct (to_chars _ _ _ T w) as (NE & _); [auto|]. destruct w as [|w0 w]; [contradiction|].
              apply prefix_iff in P as (b & P). cbn in P. inv P. unfold checked, verify in D1. rewrite W in D1.
              destruct (to_name _ _ _ T w) as [Q1 _]. rewrite (Q1 I) in D1. discriminate.
            + inv D1. split; [reflexivity|]. intros rest' B. unfold decimal_rule. rewrite skip_none by reflexivity.
              assert (MN : forall l, (forall u, In u l -> all_chars (fun c => negb (is_blank c)) u = true) -> sym_match l (String "O" (v ++ r')) = None -> sym_match l (String "O" (v ++ rest')) = None).
              { intros l NBl Ml. apply sym_match_none. intros u U. destruct (prefix u (String "O" (v ++ rest'))) eqn:P; [|reflexivity]. exfalso.
                destruct (blank_prefix_none u v rest' "O" (NBl u U) B P) as (b & Eb). assert (prefix u (String "O" (v ++ r')) = true).
                { change (String "O" (v ++ r')) with ("O" ++ v ++ r')%string. rewrite <- string_app_assoc, Eb, string_app_assoc. apply prefix_app. }
                pose proof (proj1 (sym_match_none l _) Ml u U). congruence. }
              assert (UO : sym_match asg (String "O" (v ++ rest')) = None).
              { apply sym_match_none. intros u U. destruct (prefix u (String "O" (v ++ rest'))) eqn:P; [|reflexivity]. exfalso.
                destruct (to_chars _ _ _ T u) as (NE & _); [auto|]. destruct u as [|u0 u]; [contradiction|].
                apply prefix_iff in P as (b & P). cbn in P. inv P. apply (to_name _ _ _ T u). exact U. }
              unfold assign_ahead. rewrite UO. rewrite MN; [reflexivity| |exact M]. intros u U. apply (to_chars _ _ _ T u). auto. }
        destruct S1 as [-> S1].
        assert (UO : forall x, assignable_rule wm asg (String "O" x) s = (s, RFail)).
        { intro x. unfold assignable_rule. rewrite skip_none by reflexivity. replace (sym_match asg (String "O" x)) with (@None string); [reflexivity|]. symmetry.
          apply sym_match_none. intros u U. destruct (prefix u (String "O" x)) eqn:P; [|reflexivity]. exfalso.
          destruct (to_chars _ _ _ T u) as (NE & _); [auto|]. destruct u as [|u0 u]; [contradiction|].
          apply prefix_iff in P as (b & P). cbn in P. inv P. apply (to_name _ _ _ T u). exact U. }
        assert (s' = s).
        { destruct (rules_skip wm dec asg t) as (_ & _ & _ & _ & AR & _). rewrite AR, E, UO in A1. now inv A1. } subst s'.
        assert (TX : attr_text (AStr "O" v) = String "O" v) by (cbn; now rewrite string_app_nil).
        split; [|reflexivity]. split; [rewrite TX; exists "O"%char, v; split; [reflexivity|]; split; [discriminate|reflexivity]|].
        split; [rewrite TX; reflexivity|]. unfold reads, LA. rewrite TX. intros rest' B HD _ HN. exists (skip rest'). split; [|auto].
        rewrite (la_word wm dec asg _ "O" (v ++ rest')); [|reflexivity|reflexivity|exact OS]. cbn [append]. rewrite S1 by exact B. cbn [orelse]. rewrite UO. cbn [orelse].
        f_equal. unfold program_name_rule. rewrite skip_none by reflexivity. rewrite span_app; [|exact AV|].
        -- unfold v. f_equal. change (snd (span is_blank rest')) with (skip rest'). specialize (HN (ex_intro _ _ eq_refl)).
           rewrite span_none; [reflexivity|]. unfold hd in HN. destruct (skip rest') as [|q z]; [exact I|]. apply (HN q eq_refl).
        -- destruct rest' as [|q z]; [exact I|]. cbn in B. clear -B. unfold is_name_char, is_alpha, is_upper, is_lower, is_digit, is_blank in *.
           destruct (Ascii.eqb q "_") eqn:U; [apply Ascii.eqb_eq in U; subst; discriminate B|lia].
      * inv H. unfold assignable_rule in A1. destruct (sym_match asg (skip t)) as [w|] eqn:M; [|discriminate]. pose proof M as M0. apply sym_match_some in M as (I & P & _).
        apply prefix_iff in P as (b & Eb). rewrite Eb, drop_app in A1. destruct (skip b) as [|q b'] eqn:SB; [discriminate|].
        assert (q = "="%char) by (destruct q as [[] [] [] [] [] [] [] []]; (discriminate A1 || reflexivity)). subst q.
        destruct (number_tail true w (Some "="%char) b') as [d r2] eqn:NT. apply checked_ok in A1 as (V & -> & ->).
        assert (s1 = s). { unfold decimal_rule, assign_ahead in D1. rewrite M0, Eb, drop_app, SB in D1. now inv D1. } subst s1.
        apply number_tail_spec in NT as (W & AS & OK & _). apply link_asg; auto. now rewrite W.
    + inv H. unfold decimal_rule in D1. destruct (assign_ahead asg (skip t)) eqn:AA; [discriminate|].
      destruct (sym_match dec (skip t)) as [w|] eqn:M; [|discriminate]. apply sym_match_some in M as (I & P & _).
      destruct (number_tail true w None (drop (String.length w) (skip t))) as [d r1] eqn:NT. apply checked_ok in D1 as (V & -> & ->).
      apply number_tail_spec in NT as (W & AS & OK & _). apply link_dec; auto. now rewrite W.
Qed.

(** The words of a line, with the state of the parser between them. *)
Fixpoint chain (s : gstate) (v : block) (s1 : gstate) : Prop :=
  match v with
  | [] => s1 = s
  | a :: v' => exists s', link s s' a /\ chain s' v' s1
  end.

Definition loose (v : block) : Prop := neighbours (fun a b => ~ meets asg attr_text a b) v.

Lemma read_chain f : forall t v0 s s1 V, line_attributes wm dec asg f t v0 s = (s1, V, PTrue) ->
  exists v, V = (v0 ++ v)%list /\ (no_comma v -> chain s v s1 /\ hd t <> Some "["%char).
Proof.
  induction f as [|f IH]; intros t v0 s s1 V H; [discriminate|]. cbn [line_attributes] in H.
  destruct (line_attribute wm dec asg t s) as [s' R] eqn:E. destruct R as [|a r|x|x]; try discriminate.
  - destruct v0 as [|a0 v0]; [discriminate|]. destruct (skip t) eqn:ST; [|discriminate]. inv H. exists []. rewrite app_nil_r. split; [reflexivity|].
    intros _. rewrite (la_blank wm dec asg T) in E by exact ST. inv E. split; [reflexivity|]. unfold hd. rewrite ST. discriminate.
  - destruct (IH _ _ _ _ _ H) as (v & EV & G). exists (a :: v). rewrite EV, <- app_assoc. split; [reflexivity|]. intros NC.
    destruct G as [G NB]; [intro I; apply NC; now right|].
    assert (NA : a <> AChr "," zero) by (intro; subst; apply NC; now left).
    destruct (read_link _ _ _ _ _ E NA NB) as [LK (c & HT & N)]. split; [exists s'; auto|]. rewrite HT. congruence.
Qed.

Lemma chain_text a s s' v : link s s' a -> exists c y, block_text (a :: v) = String c y /\ c <> "["%char /\ is_blank c = false /\ (exists r, attr_text a = String c r).
Proof. intros (((c & r & TX & N & B) & _) & _). rewrite block_text_cons, TX. cbn [append]. exists c. eexists. split; [reflexivity|]. split; [exact N|]. split; [exact B|eauto]. Qed.

Lemma chain_read v : forall v0 s s1, chain s v s1 -> loose v -> (v0 ++ v)%list <> [] ->
  forall f t, (t = block_text v \/ t = String " " (block_text v)) -> (String.length t < f)%nat ->
    line_attributes wm dec asg f t v0 s = (s1, (v0 ++ v)%list, PTrue).
Proof.
  induction v as [|a v IH]; intros v0 s s1 CH LO NE f t Ht Lf.
  - cbn in CH. subst s1. destruct f as [|f]; [lia|]. cbn [line_attributes]. assert (K : skip t = ""%string) by (destruct Ht as [-> | ->]; reflexivity).
    rewrite (la_blank wm dec asg T) by exact K. rewrite K. rewrite app_nil_r in *. destruct v0; [contradiction|reflexivity].
  - destruct CH as (s' & LK & CH). destruct (chain_text a s s' v LK) as (c & y & BT & NX & BX & (r0 & TX)).
    assert (SKB : skip (block_text (a :: v)) = block_text (a :: v)) by (rewrite BT; now apply skip_none).
    destruct LK as ((_ & CR & RD) & _).
    set (rest' := match v with [] => "" | _ => String " " (block_text v) end).
    assert (B' : blank_start rest') by (unfold rest'; destruct v; reflexivity).
    assert (HD' : forall c', hd rest' = Some c' -> exists b v' r', v = b :: v' /\ attr_text b = String c' r' /\ c' <> "["%char).
    { intros c' K. unfold rest' in K. destruct v as [|b v']; [discriminate K|]. destruct CH as (s2 & LK2 & _).
      destruct (chain_text b s' s2 v' LK2) as (c2 & y2 & BT2 & N2 & B2 & (r2 & TX2)). unfold hd in K. rewrite skip_blank, BT2, skip_none in K by (reflexivity || exact B2).
      inv K. exists b, v', r2. auto. }
    assert (ME : forall b v', v = b :: v' -> ~ meets asg attr_text a b) by (intros b v' ->; unfold loose in LO; cbn in LO; tauto).
    destruct (RD rest' B') as (r'' & GA & R'').
    + intros c' K. destruct (HD' c' K) as (b & v' & r' & Ev & TB & N). split; [|exact N]. specialize (ME b v' Ev). unfold follows.
      destruct a as [d|w x|w x]; [|exact I|apply ME; right; right; right; eauto]. split.
      * apply goes_on_follow. destruct (contains (String c' "") (goes_on d)) eqn:G; [|reflexivity]. exfalso. apply ME. right; left.
        exists d. split; [reflexivity|]. rewrite TB. exact G.
      * intros TD ->. apply ME. right; right; left. split; [exact TD|]. rewrite TB. reflexivity.
    + intros I K. destruct (HD' _ K) as (b & v' & r' & Ev & TB & N). apply (ME b v' Ev). left. left. split; [exact I|]. rewrite TB. reflexivity.
    + intros (n & ->) c' K. destruct (HD' _ K) as (b & v' & r' & Ev & TB & N). destruct (is_letter c') eqn:L; [|reflexivity]. exfalso.
      apply (ME b v' Ev). left. right. split; [eauto|]. rewrite TB. exact L.
    + assert (LT : LA t s = (s', ROk a r'')).
      { assert (BE : block_text (a :: v) = (attr_text a ++ rest')%string) by apply block_text_cons.
        destruct Ht as [-> | ->]; [rewrite BE; exact GA|]. unfold LA. rewrite (la_skip wm dec asg); rewrite ?(skip_blank " ") by reflexivity; [rewrite SKB, BE; exact GA|reflexivity|].
        rewrite SKB, BE. apply CR. }
      destruct f as [|f]; [lia|]. cbn [line_attributes]. fold LA. fold (LA t s). rewrite LT.
      assert (LL : (String.length r'' < String.length t)%nat).
      { assert (K : (String.length r'' <= String.length rest')%nat) by (destruct R'' as [-> | ->]; [lia|apply skip_length]).
        assert (M : (String.length rest' < String.length (block_text (a :: v)))%nat) by (rewrite block_text_cons, string_app_length, TX; cbn [String.length]; unfold rest'; lia).
        destruct Ht as [-> | ->]; cbn [String.length]; lia. }
      replace (v0 ++ a :: v)%list with ((v0 ++ [a]) ++ v)%list by (rewrite <- app_assoc; reflexivity).
      apply (IH (v0 ++ [a])%list s' s1 CH).
      * unfold loose in *. cbn in LO. destruct v; [exact I|tauto].
      * destruct v0; discriminate.
      * unfold rest' in R''. destruct v as [|b v']; [left; destruct R'' as [-> | ->]; reflexivity|].
        destruct R'' as [-> | ->]; [auto|]. left. rewrite skip_blank by reflexivity. destruct CH as (s2 & LK2 & _).
        destruct (chain_text b s' s2 v' LK2) as (c2 & y2 & BT2 & N2 & B2 & _). rewrite BT2. now apply skip_none.
      * lia.
Qed.

End Tables.

Definition lchain (lg : line_grammar) := chain (lg_map lg) (lg_decimal lg) (lg_assignable lg).

(** Reading a line begins without messages. *)
Definition fresh (s : gstate) : gstate := mkGS (gs_status s) [].

Lemma parse_chain lg t s s' v : tables_ok (lg_map lg) (lg_decimal lg) (lg_assignable lg) -> grammar_parse lg t s = (s', v, PTrue) ->
  no_comma v -> lchain lg (fresh s) v s'.
Proof.
  intros TO H NC. unfold grammar_parse, phrase_parse in H. destruct (read_chain _ _ _ TO _ _ _ _ _ _ H) as (w & E & G). cbn in E. subst w. now apply G.
Qed.

Lemma chain_parse lg s s' v : tables_ok (lg_map lg) (lg_decimal lg) (lg_assignable lg) -> lchain lg (fresh s) v s' -> v <> [] ->
  loose (lg_assignable lg) v -> grammar_parse lg (block_text v) s = (s', v, PTrue).
Proof. intros TO CH NE LO. unfold grammar_parse, phrase_parse. apply (chain_read _ _ _ TO v [] (fresh s) s' CH LO NE); [auto|lia]. Qed.
