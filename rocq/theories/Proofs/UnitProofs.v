(** Proofs about the unit conversion. *)
From Verif Require Import Model.Base Model.Attr Model.Double Model.UnitConv Spec.Text Spec.UnitSpec
  Proofs.Tactics Proofs.StringFacts Proofs.TextProofs.

Open Scope list_scope.

(** ** Running over a prefix *)

Fixpoint uc_run (dir : unit_dir) (g : word_map) (s : uc_state) (b : block) : res (uc_state * block) :=
  match b with
  | [] => Ok (s, [])
  | a :: b' => do r <- uc_step dir g s a; do q <- uc_run dir g (fst r) b'; Ok (fst q, snd r :: snd q)
  end.

Lemma uc_block_app dir g pre : forall s post,
  uc_block dir g s (pre ++ post) =
  do q <- uc_run dir g s pre; do r <- uc_block dir g (fst q) post; Ok (snd q ++ r)%list.
Proof.
  induction pre as [|a pre IH]; intros s post; cbn [uc_block uc_run app].
  - cbn [bind fst snd app]. destruct (uc_block dir g s post); reflexivity.
  - destruct (uc_step dir g s a) as [r|e]; cbn [bind]; [|reflexivity]. rewrite IH.
    destruct (uc_run dir g (fst r) pre) as [q|e]; cbn [bind fst snd]; [|reflexivity].
    destruct (uc_block dir g (fst q) post) as [t|e]; reflexivity.
Qed.

Lemma uc_run_block dir g b : forall s s' b', uc_run dir g s b = Ok (s', b') -> uc_block dir g s b = Ok b'.
Proof.
  intros s s' b' H. rewrite <- (app_nil_r b), uc_block_app, H. cbn [bind uc_block fst snd]. now rewrite app_nil_r.
Qed.

Lemma uc_run_length dir g b : forall s s' b', uc_run dir g s b = Ok (s', b') -> List.length b' = List.length b.
Proof.
  induction b as [|a b IH]; cbn [uc_run]; intros s s' b' H; [now inv H|].
  destruct (uc_step dir g s a) as [r|]; cbn [bind] in H; [|discriminate].
  destruct (uc_run dir g (fst r) b) as [q|] eqn:R; cbn [bind] in H; [|discriminate]. inv H.
  destruct q as [s' b']. cbn. f_equal. eapply IH, R.
Qed.

Lemma uc_ignored dir g b : forall s, uc_ignore s = true -> uc_run dir g s b = Ok (s, b).
Proof.
  induction b as [|a b IH]; intros s H; cbn [uc_run]; [reflexivity|].
  destruct a as [d|w v|w c]; cbn [uc_step bind fst snd]; [unfold uc_visit; rewrite H; cbn [bind fst snd]|..];
    rewrite (IH s H); reflexivity.
Qed.

(** ** Reading codes *)

Lemma readable_value d v : readable (ADec d) -> d_word d = "G" -> d_value d = Some v ->
  exists n, denotes v n /\ stoi v = Ok n.
Proof.
  intros R W V. destruct (R W) as [R1 _]. destruct (R1 v V) as (n & D & L). exists n. split; [exact D|].
  now apply stoi_ok.
Qed.

Lemma readable_value2 d v : readable (ADec d) -> d_word d = "G" -> d_value2 d = Some v ->
  exists n, denotes v n /\ stoi v = Ok n.
Proof.
  intros R W V. destruct (R W) as [_ R2]. destruct (R2 v V) as (n & D & L). exists n. split; [exact D|].
  now apply stoi_ok.
Qed.

Lemma dwell_spec d : readable (ADec d) ->
  (g_code d 4 /\ uc_dwell d = Ok true) \/ (~ g_code d 4 /\ uc_dwell d = Ok false).
Proof.
  intro R. unfold uc_dwell. destruct (d_value d) as [v|] eqn:V.
  - destruct (String.eqb_spec (d_word d) "G") as [W|W].
    + destruct (readable_value d v R W V) as (n & D & S). rewrite S. cbn [bind].
      destruct (Z.eqb_spec n 4) as [->|N]; [left|right]; (split; [|reflexivity]).
      * split; [exact W|]. exists v. auto.
      * intros (_ & v' & V' & D'). rewrite V in V'. inv V'. now apply N, (denotes_fun v').
    + right. split; [|reflexivity]. intros (W' & _). contradiction.
  - right. split; [|reflexivity]. intros (_ & v & V' & _). congruence.
Qed.

Lemma bracketed_test d :
  is_some (d_macro d) || is_some (d_open d) || is_some (d_close d) = true <-> bracketed d.
Proof.
  unfold bracketed. destruct (d_macro d), (d_open d), (d_close d); cbn; intuition congruence.
Qed.

Definition rotation_word (d : decimal) : Prop :=
  g_code d 68 /\ (d_value2 d = None \/ exists v2 n, d_value2 d = Some v2 /\ denotes v2 n /\ 2 <= n <= 4).

Lemma g_code_spec dir d : readable (ADec d) ->
  (g_code d (unit_code dir) /\ uc_g_code dir d = Ok (GSwap (new_unit_code dir))) \/
  (~ g_code d (unit_code dir) /\ rotation_word d /\ uc_g_code dir d = Ok GRotation) \/
  (~ g_code d (unit_code dir) /\ ~ rotation_word d /\ uc_g_code dir d = Ok GOther).
Proof.
  intro R. unfold uc_g_code, rotation_word. destruct (d_value d) as [v|] eqn:V.
  - destruct (String.eqb_spec (d_word d) "G") as [W|W].
    + destruct (readable_value d v R W V) as (n & D & S). rewrite S. cbn [bind].
      assert (G : forall k, g_code d k <-> n = k).
      { intro k. split.
        - intros (_ & v' & V' & D'). rewrite V in V'. inv V'. now apply (denotes_fun v').
        - intros <-. split; [exact W|]. exists v. auto. }
      destruct (Z.eq_dec n (unit_code dir)) as [U|U].
      * left. split; [now apply G|]. subst n. destruct dir; reflexivity.
      * assert (NU : ~ g_code d (unit_code dir)) by now rewrite G.
        right. destruct (Z.eqb_spec n 68) as [E|E].
        { subst n.
          destruct (d_value2 d) as [v2|] eqn:V2.
          - destruct (readable_value2 d v2 R W V2) as (n2 & D2 & S2). rewrite S2. cbn [bind].
            destruct (bool_dec ((n2 =? 2) || (n2 =? 3) || (n2 =? 4)) true) as [B|B].
            + left. rewrite B. split; [exact NU|]. split; [|destruct dir; reflexivity].
              split; [split; [exact W|exists v; auto]|]. right. exists v2, n2. split; [reflexivity|]. split; [exact D2|lia].
            + right. apply not_true_is_false in B. rewrite B. split; [exact NU|]. split; [|destruct dir; reflexivity].
              intros (_ & [Q|(v3 & n3 & Q & D3 & L)]); [discriminate|]. inv Q.
              rewrite (denotes_fun _ _ _ D3 D2) in L. lia.
          - left. split; [exact NU|]. split; [|destruct dir; reflexivity].
            split; [split; [exact W|exists v; auto]|now left]. }
        { right. split; [exact NU|]. split.
          - intros (G68 & _). apply G in G68. contradiction.
          - destruct dir; cbn in U; destruct (Z.eqb_spec n 20), (Z.eqb_spec n 21); try contradiction; reflexivity. }
    + right; right. split; [|split; [|reflexivity]].
      * intros [? _]. contradiction.
      * intros [[? _] _]. contradiction.
  - right; right. split; [|split; [|reflexivity]].
    + intros (_ & v & V' & _). congruence.
    + intros ((_ & v & V' & _) & _). congruence.
Qed.

Lemma conv_entry_spec g w :
  (exists e, conv_entry g w = Some e /\ assoc w g = Some e /\ measured g w) \/
  (conv_entry g w = None /\ ~ measured g w).
Proof.
  unfold conv_entry, measured. destruct (assoc w g) as [e|] eqn:A.
  - destruct (word_type_eqb (g_type e) WTlength || word_type_eqb (g_type e) WTfeed) eqn:T.
    + left. exists e. repeat split. exists e. split; [reflexivity|]. destruct (g_type e); cbn in T; auto; discriminate.
    + right. split; [reflexivity|]. intros (e' & E & H). inv E. destruct (g_type e'); cbn in T; destruct H; discriminate.
  - right. split; [reflexivity|]. intros (e' & E & _). discriminate.
Qed.

(** ** The frame *)

Lemma uc_number_other dir e d d' : uc_number dir e d = Ok d' -> other_number d d'.
Proof.
  unfold uc_number. destruct (stod _) as [x|]; cbn [bind]; [|discriminate].
  destruct (split_point _) as [[ip fp]|]; intro H; inv H; repeat split.
Qed.

Lemma uc_visit_allowed dir g s d s' d' : readable (ADec d) ->
  uc_visit dir g s d = Ok (s', d') -> allowed dir g (ADec d) (ADec d').
Proof.
  intros R H. unfold uc_visit in H.
  destruct (uc_ignore s); [inv H; now left|].
  destruct (negb (uc_first s) && String.eqb (d_word d) "/"); [inv H; now left|].
  destruct (dwell_spec d R) as [[_ E]|[_ E]]; rewrite E in H; cbn [bind] in H; [inv H; now left|].
  destruct (is_some (d_macro d) || is_some (d_open d) || is_some (d_close d)) eqn:B; [inv H; now left|].
  assert (NB : ~ bracketed d) by (rewrite <- bracketed_test, B; discriminate).
  destruct (g_code_spec dir d R) as [[U E2]|[(_ & _ & E2)|(_ & _ & E2)]]; rewrite E2 in H; cbn [bind] in H.
  - inv H. right. exists d, (uc_set_value d (new_unit_code dir)). repeat split; auto.
  - inv H. now left.
  - destruct (uc_g68 s && mem_str (d_word d) g68_ignored); [inv H; now left|].
    destruct (conv_entry_spec g (d_word d)) as [(e & C & A & M)|[C _]]; rewrite C in H; [|inv H; now left].
    destruct (uc_number dir e d) as [d2|] eqn:N; cbn [bind] in H; [|discriminate]. inv H.
    right. exists d, d'. pose proof (uc_number_other dir e d d' N) as O. auto 7.
Qed.

Lemma frame_from dir g b : forall s b', Forall readable b -> uc_block dir g s b = Ok b' ->
  Forall2 (allowed dir g) b b'.
Proof.
  induction b as [|a b IH]; intros s b' R H; cbn [uc_block] in H; [inv H; constructor|]. inv R.
  destruct (uc_step dir g s a) as [r|] eqn:S; cbn [bind] in H; [|discriminate].
  destruct (uc_block dir g (fst r) b) as [b2|] eqn:B; cbn [bind] in H; [|discriminate]. inv H.
  constructor; [|now apply (IH (fst r))].
  destruct a as [d|w v|w c]; cbn [uc_step] in S; [|inv S; now left..].
  destruct (uc_visit dir g s d) as [[s1 d1]|] eqn:V; cbn [bind] in S; [|discriminate]. inv S.
  now apply (uc_visit_allowed dir g s d s1).
Qed.

Lemma convert_frame dir fg b b' : Forall readable b -> unit_convert dir fg b = Ok b' ->
  Forall2 (allowed dir (produced dir fg)) b b'.
Proof. apply frame_from. Qed.

Lemma optional_from dir g b : forall s d, uc_first s = false -> uc_ignore s = false ->
  first_numeric b = Some d -> d_word d = "/" -> uc_block dir g s b = Ok b.
Proof.
  induction b as [|a b IH]; intros s d F I N W; cbn [first_numeric] in N; [discriminate|].
  destruct a as [d0|w v|w c]; cbn [uc_block uc_step].
  - inv N. unfold uc_visit. rewrite F, I, W, String.eqb_refl. cbn [negb andb bind fst snd].
    rewrite (uc_run_block dir g b (mkUC false true (uc_g68 s)) (mkUC false true (uc_g68 s)) b) by now apply uc_ignored.
    reflexivity.
  - cbn [bind fst snd]. rewrite (IH s d) by assumption. reflexivity.
  - cbn [bind fst snd]. rewrite (IH s d) by assumption. reflexivity.
Qed.

Lemma optional_unchanged dir fg b : optional_block b -> unit_convert dir fg b = Ok b.
Proof. intros (d & N & W). now apply (optional_from dir _ b uc_init d). Qed.

Lemma dwell_stops dir fg pre a post b' : readable a -> is_g a 4 ->
  unit_convert dir fg (pre ++ a :: post) = Ok b' ->
  exists pre', unit_convert dir fg pre = Ok pre' /\ b' = (pre' ++ a :: post)%list.
Proof.
  intros R (d & -> & G) H. unfold unit_convert in *. rewrite uc_block_app in H.
  destruct (uc_run dir _ uc_init pre) as [[s pre']|] eqn:P; cbn [bind fst snd] in H; [|discriminate].
  exists pre'. split; [now apply (uc_run_block _ _ _ _ s)|].
  cbn [uc_block uc_step] in H.
  assert (V : exists s', uc_ignore s' = true /\ uc_visit dir (target_grammar dir fg) s d = Ok (s', d)).
  { unfold uc_visit. destruct (uc_ignore s) eqn:I; [exists s; auto|].
    destruct (negb (uc_first s) && String.eqb (d_word d) "/"); [eexists; split; [|reflexivity]; reflexivity|].
    destruct (dwell_spec d R) as [[_ E]|[N _]]; [|contradiction]. rewrite E. cbn [bind].
    eexists; split; [|reflexivity]. reflexivity. }
  destruct V as (s' & I & V). rewrite V in H. cbn [bind fst snd] in H.
  rewrite (uc_run_block dir _ post s' s' post) in H by now apply uc_ignored.
  cbn [bind] in H. now inv H.
Qed.

(** ** The state after a prefix *)

Record after (pre : block) (s : uc_state) : Prop := {
  af_first : uc_ignore s = false -> (uc_first s = true <-> first_numeric pre <> None);
  af_ignore : uc_ignore s = true -> optional_block pre \/ dwell_in pre;
  af_g68 : uc_g68 s = true -> rotation_in pre;
  af_rot : uc_ignore s = false -> rotation_in pre -> uc_g68 s = true;
  af_live : uc_ignore s = false -> ~ optional_block pre /\ ~ dwell_in pre
}.

Lemma first_numeric_app b c : first_numeric (b ++ c) = match first_numeric b with Some d => Some d | None => first_numeric c end.
Proof. induction b as [|[d|w v|w x] b IH]; cbn; auto. Qed.

Lemma after_init : after [] uc_init.
Proof.
  split; cbn; try discriminate; intros.
  - split; intro H1; [discriminate|]. congruence.
  - destruct H0 as (a & [] & _).
  - split; [intros (d & D & _); discriminate|intros (a & [] & _)].
Qed.

Lemma in_snoc {A} (x a : A) l : In x (l ++ [a]) <-> In x l \/ x = a.
Proof. rewrite in_app_iff. cbn. intuition congruence. Qed.

Lemma dwell_snoc pre a : dwell_in (pre ++ [a]) <-> dwell_in pre \/ is_g a 4.
Proof.
  unfold dwell_in. split.
  - intros (x & I & G). apply in_snoc in I as [I| ->]; [left; eauto|now right].
  - intros [(x & I & G)|G]; [exists x|exists a]; rewrite in_snoc; auto.
Qed.

Lemma rotation_snoc pre a : rotation_in (pre ++ [a]) <-> rotation_in pre \/ rotation_code a.
Proof.
  unfold rotation_in. split.
  - intros (x & I & G). apply in_snoc in I as [I| ->]; [left; eauto|now right].
  - intros [(x & I & G)|G]; [exists x|exists a]; rewrite in_snoc; auto.
Qed.

Lemma optional_mono pre c : optional_block pre -> optional_block (pre ++ c).
Proof. intros (d & F & W). exists d. now rewrite first_numeric_app, F. Qed.

Lemma optional_more pre c : first_numeric pre <> None -> optional_block (pre ++ c) -> optional_block pre.
Proof.
  intros N (d & F & W). rewrite first_numeric_app in F. destruct (first_numeric pre) as [d0|] eqn:E; [|congruence].
  inv F. exists d. auto.
Qed.

Lemma after_other pre a s : (forall d, a <> ADec d) -> after pre s -> after (pre ++ [a]) s.
Proof.
  intros N [A1 A2 A3 A4 A5].
  assert (F : first_numeric (pre ++ [a]) = first_numeric pre).
  { rewrite first_numeric_app. destruct (first_numeric pre); [reflexivity|]. destruct a; [now elim (N d)|reflexivity..]. }
  assert (O : optional_block (pre ++ [a]) <-> optional_block pre) by (unfold optional_block; now rewrite F).
  assert (D : dwell_in (pre ++ [a]) <-> dwell_in pre).
  { rewrite dwell_snoc. split; [|now left]. intros [?|(d & E & _)]; [assumption|now elim (N d)]. }
  assert (R : rotation_in (pre ++ [a]) <-> rotation_in pre).
  { rewrite rotation_snoc. split; [|now left]. intros [?|(d & E & _)]; [assumption|now elim (N d)]. }
  split; rewrite ?F, ?O, ?D, ?R; assumption.
Qed.

Lemma after_step dir g pre d s s' d' : readable (ADec d) -> after pre s ->
  uc_visit dir g s d = Ok (s', d') -> after (pre ++ [ADec d]) s'.
Proof.
  intros R [A1 A2 A3 A4 A5] H. unfold uc_visit in H.
  destruct (uc_ignore s) eqn:I.
  { injection H as <- <-. split; try congruence.
    - intros _. destruct (A2 eq_refl); [left; now apply optional_mono|right; apply dwell_snoc; now left].
    - intro G. apply rotation_snoc. left. auto. }
  specialize (A1 eq_refl). specialize (A4 eq_refl). destruct (A5 eq_refl) as [NO ND].
  destruct (negb (uc_first s) && String.eqb (d_word d) "/") eqn:T.
  { injection H as <- <-. apply andb_true_iff in T as [T1 T2]. apply String.eqb_eq in T2. apply negb_true_iff in T1.
    split; cbn; try discriminate.
    - intros _. left. exists d. split; [|exact T2]. rewrite first_numeric_app.
      destruct (first_numeric pre); [|reflexivity]. exfalso. rewrite T1 in A1. assert (false = true) by (apply A1; discriminate). discriminate.
    - intro G. apply rotation_snoc. left. auto. }
  assert (NO' : ~ optional_block (pre ++ [ADec d])).
  { intros (d1 & F & W). rewrite first_numeric_app in F. destruct (first_numeric pre) as [d0|] eqn:E.
    - apply NO. exists d0. split; [exact E|]. congruence.
    - cbn in F. inv F. destruct (uc_first s) eqn:Fs; [now apply A1|]. rewrite W in T. discriminate. }
  assert (FN : first_numeric (pre ++ [ADec d]) <> None).
  { rewrite first_numeric_app. destruct (first_numeric pre); discriminate. }
  destruct (dwell_spec d R) as [[G E]|[G E]]; rewrite E in H; cbn [bind] in H.
  { injection H as <- <-. split; cbn; try discriminate.
    - intros _. right. apply dwell_snoc. right. exists d. auto.
    - intro Q. apply rotation_snoc. left. auto. }
  assert (ND' : ~ dwell_in (pre ++ [ADec d])).
  { rewrite dwell_snoc. intros [?|(d1 & Q & G1)]; [auto|]. injection Q as ->. auto. }
  assert (K : forall q, (rotation_code (ADec d) <-> q = true) ->
              after (pre ++ [ADec d]) (mkUC true false (uc_g68 s || q))).
  { intros q Hq. split; cbn; try discriminate.
    - intros _. tauto.
    - intro Q. apply rotation_snoc. apply orb_true_iff in Q as [Q|Q]; [left; auto|right; now apply Hq].
    - intros _ Q. apply orb_true_iff. apply rotation_snoc in Q as [Q|Q]; [left; auto|right; now apply Hq].
    - intros _. auto. }
  destruct (is_some (d_macro d) || is_some (d_open d) || is_some (d_close d)) eqn:B.
  { injection H as <- <-. replace (uc_g68 s) with (uc_g68 s || false) by apply orb_false_r. apply K.
    split; [|discriminate]. intros (d1 & Q & _ & NB & _). injection Q as ->. apply bracketed_test in B. contradiction. }
  assert (NB : ~ bracketed d) by (rewrite <- bracketed_test, B; discriminate).
  assert (RC : rotation_code (ADec d) <-> rotation_word d).
  { split.
    - intros (d1 & Q & G1 & _ & V). injection Q as ->. split; assumption.
    - intros [G1 V]. exists d. auto. }
  destruct (g_code_spec dir d R) as [[U E2]|[(U & W & E2)|(U & W & E2)]]; rewrite E2 in H; cbn [bind] in H.
  - injection H as <- <-. replace (uc_g68 s) with (uc_g68 s || false) by apply orb_false_r. apply K. rewrite RC.
    split; [|discriminate]. intros [(_ & v & V & D) _]. destruct U as (_ & v' & V' & D'). rewrite V in V'. inv V'.
    pose proof (denotes_fun _ _ _ D D'). destruct dir; discriminate.
  - injection H as <- <-. replace true with (uc_g68 s || true) at 2 by apply orb_true_r. apply K. rewrite RC. tauto.
  - assert (K0 : after (pre ++ [ADec d]) (mkUC true false (uc_g68 s))).
    { replace (uc_g68 s) with (uc_g68 s || false) by apply orb_false_r. apply K. rewrite RC.
      split; [contradiction|discriminate]. }
    destruct (uc_g68 s && mem_str (d_word d) g68_ignored); [injection H as <- <-; exact K0|].
    destruct (conv_entry g (d_word d)); [|injection H as <- <-; exact K0].
    destruct (uc_number dir w d); cbn [bind] in H; [|discriminate]. injection H as <- <-. exact K0.
Qed.

Lemma after_run dir g b : forall done s s' b', Forall readable b -> after done s ->
  uc_run dir g s b = Ok (s', b') -> after (done ++ b) s'.
Proof.
  induction b as [|a b IH]; intros done s s' b' R A H; cbn [uc_run] in H.
  - inv H. now rewrite app_nil_r.
  - inv R. destruct (uc_step dir g s a) as [r|] eqn:S; cbn [bind] in H; [|discriminate].
    destruct (uc_run dir g (fst r) b) as [q|] eqn:Q; cbn [bind] in H; [|discriminate]. inv H. destruct q as [s' b'].
    replace (done ++ a :: b)%list with ((done ++ [a]) ++ b)%list by (rewrite <- app_assoc; reflexivity).
    apply (IH (done ++ [a])%list (fst r) s' b'); [assumption| |exact Q].
    destruct a as [d|w v|w c]; cbn [uc_step] in S; [|inv S; now apply after_other..].
    destruct (uc_visit dir g s d) as [[s1 d1]|] eqn:V; cbn [bind] in S; [|discriminate]. inv S.
    now apply (after_step dir g done d s s1 d1).
Qed.

(** A word that is due is rewritten by [uc_number]. *)
Lemma due_converted dir fg pre d post b' : Forall readable (pre ++ ADec d :: post) ->
  due (produced dir fg) pre d -> unit_convert dir fg (pre ++ ADec d :: post) = Ok b' ->
  exists e pre' d' post', assoc (d_word d) (produced dir fg) = Some e /\
    b' = (pre' ++ ADec d' :: post')%list /\ List.length pre' = List.length pre /\
    uc_number dir e d = Ok d'.
Proof.
  intros R (M & NB & NG & NO & ND & NR) H. apply Forall_app in R as [R1 R2]. inv R2.
  unfold unit_convert in H. rewrite uc_block_app in H.
  destruct (uc_run dir _ uc_init pre) as [[s pre']|] eqn:P; cbn [bind fst snd] in H; [|discriminate].
  pose proof (after_run _ _ pre [] uc_init s pre' R1 after_init P) as [A1 A2 A3 A4 A5]. cbn [app] in *.
  change (target_grammar dir fg) with (produced dir fg) in *.
  cbn [uc_block uc_step] in H. unfold uc_visit in H.
  destruct (uc_ignore s) eqn:I.
  { exfalso. destruct (A2 eq_refl); [now apply NO, optional_mono|contradiction]. }
  destruct (negb (uc_first s) && String.eqb (d_word d) "/") eqn:T.
  { exfalso. apply andb_true_iff in T as [T1 T2]. apply String.eqb_eq in T2. apply negb_true_iff in T1.
    apply NO. exists d. split; [|exact T2]. rewrite first_numeric_app. destruct (first_numeric pre); [|reflexivity].
    specialize (A1 eq_refl). rewrite T1 in A1. assert (false = true) by (apply A1; discriminate). discriminate. }
  destruct (dwell_spec d H2) as [[G E]|[_ E]]; [now destruct G|]. rewrite E in H. cbn [bind] in H.
  destruct (is_some (d_macro d) || is_some (d_open d) || is_some (d_close d)) eqn:B; [apply bracketed_test in B; contradiction|].
  destruct (g_code_spec dir d H2) as [[U _]|[(_ & W & _)|(_ & _ & E2)]]; [now destruct U|now destruct W as [[? _] _]|].
  rewrite E2 in H. cbn [bind] in H.
  destruct (uc_g68 s && mem_str (d_word d) g68_ignored) eqn:K.
  { exfalso. apply andb_true_iff in K as [K1 K2]. apply NR. split; [auto|]. unfold mem_str in K2.
    apply existsb_exists in K2 as (x & I1 & E1). apply String.eqb_eq in E1. now subst x. }
  destruct (conv_entry_spec (produced dir fg) (d_word d)) as [(e & C & A & _)|[_ C]]; [|contradiction].
  rewrite C in H. destruct (uc_number dir e d) as [d'|] eqn:N; cbn [bind fst snd] in H; [|discriminate].
  destruct (uc_block dir _ _ post) as [post'|]; cbn [bind] in H; [|discriminate]. inv H.
  exists e, pre', d', post'. repeat split; try assumption. eapply uc_run_length, P.
Qed.

(** The unit code reached by the conversion is exchanged. *)
Lemma unit_code_exchanged dir fg pre d post b' : Forall readable (pre ++ ADec d :: post) ->
  ~ optional_block pre -> ~ dwell_in pre -> ~ bracketed d -> g_code d (unit_code dir) ->
  unit_convert dir fg (pre ++ ADec d :: post) = Ok b' ->
  exists pre' d' post', b' = (pre' ++ ADec d' :: post')%list /\ List.length pre' = List.length pre /\
    other_number d d' /\ d_value d' = Some (new_unit_code dir).
Proof.
  intros R NO ND NB U H. apply Forall_app in R as [R1 R2]. inv R2.
  unfold unit_convert in H. rewrite uc_block_app in H.
  destruct (uc_run dir _ uc_init pre) as [[s pre']|] eqn:P; cbn [bind fst snd] in H; [|discriminate].
  pose proof (after_run _ _ pre [] uc_init s pre' R1 after_init P) as [A1 A2 A3 A4 A5]. cbn [app] in *.
  cbn [uc_block uc_step] in H. unfold uc_visit in H.
  destruct (uc_ignore s) eqn:I; [exfalso; destruct (A2 eq_refl); contradiction|].
  assert (W : d_word d = "G") by apply U. rewrite W in H at 1.
  rewrite andb_false_r in H.
  destruct (dwell_spec d H2) as [[G E]|[_ E]].
  { destruct G as (_ & v & V & D). destruct U as (_ & v' & V' & D'). rewrite V in V'. inv V'.
    pose proof (denotes_fun _ _ _ D D'). destruct dir; discriminate. }
  rewrite E in H. cbn [bind] in H.
  destruct (is_some (d_macro d) || is_some (d_open d) || is_some (d_close d)) eqn:B; [apply bracketed_test in B; contradiction|].
  destruct (g_code_spec dir d H2) as [[_ E2]|[(N & _)|(N & _)]]; [|contradiction..].
  rewrite E2 in H. cbn [bind fst snd] in H.
  destruct (uc_block dir _ _ post) as [post'|]; cbn [bind] in H; [|discriminate]. inv H.
  exists pre', (uc_set_value d (new_unit_code dir)), post'. repeat split. eapply uc_run_length, P.
Qed.

(** After a rotation code the centre and angle words stay. *)
Lemma rotation_kept dir fg pre d post b' : Forall readable (pre ++ ADec d :: post) ->
  rotation_in pre -> In (d_word d) ["I"; "J"; "K"; "R"] ->
  unit_convert dir fg (pre ++ ADec d :: post) = Ok b' ->
  exists pre' post', b' = (pre' ++ ADec d :: post')%list /\ List.length pre' = List.length pre.
Proof.
  intros R RI W H. apply Forall_app in R as [R1 R2]. inv R2.
  unfold unit_convert in H. rewrite uc_block_app in H.
  destruct (uc_run dir _ uc_init pre) as [[s pre']|] eqn:P; cbn [bind fst snd] in H; [|discriminate].
  pose proof (after_run _ _ pre [] uc_init s pre' R1 after_init P) as [A1 A2 A3 A4 A5]. cbn [app] in *.
  assert (V : exists s', uc_visit dir (target_grammar dir fg) s d = Ok (s', d)).
  { unfold uc_visit. destruct (uc_ignore s) eqn:I; [eauto|].
    destruct (negb (uc_first s) && String.eqb (d_word d) "/"); [eauto|].
    assert (NG : d_word d <> "G") by (intro E; rewrite E in W; cbn in W; intuition discriminate).
    destruct (dwell_spec d H2) as [[G E]|[_ E]]; [now destruct G|]. rewrite E. cbn [bind].
    destruct (is_some (d_macro d) || is_some (d_open d) || is_some (d_close d)); [eauto|].
    destruct (g_code_spec dir d H2) as [[U _]|[(_ & X & _)|(_ & _ & E2)]]; [now destruct U|now destruct X as [[? _] _]|].
    rewrite E2. cbn [bind]. rewrite A4 by auto.
    assert (M : mem_str (d_word d) g68_ignored = true).
    { unfold mem_str. apply existsb_exists. exists (d_word d). split; [exact W|apply String.eqb_refl]. }
    rewrite M. cbn [andb]. eauto. }
  destruct V as [s' V]. cbn [uc_block uc_step] in H. rewrite V in H. cbn [bind fst snd] in H.
  destruct (uc_block dir _ s' post) as [post'|]; cbn [bind] in H; [|discriminate]. inv H.
  exists pre', post'. split; [reflexivity|]. eapply uc_run_length, P.
Qed.

(** ** Counterexamples *)

Definition mm_grammar : word_map :=
  [("X", mkWG "X" (-9999) 9999 0 999 true WTlength); ("F", mkWG "F" 0 9999 0 0 true WTfeed);
   ("G", mkWG "G" 0 999 0 9 false WTcode)].

Definition ex_units : fanuc_grammar := mkFG mm_grammar mm_grammar.

(** A word in front of a dwell code is converted. *)
Lemma dwell_block_changed : exists fg b b', dwell_in b /\ unit_convert MetricToImperial fg b = Ok b' /\ b' <> b.
Proof.
  exists ex_units, [ADec (plain "X" "254"); ADec (plain "G" "4")], [ADec (plain "X" "10"); ADec (plain "G" "4")].
  split; [|split; [vm_compute; reflexivity|discriminate]].
  exists (ADec (plain "G" "4")). split; [cbn; auto|]. exists (plain "G" "4"). split; [reflexivity|].
  split; [reflexivity|]. exists "4"%string. split; [reflexivity|]. repeat split. discriminate.
Qed.

(** Without decimals the zeros of the number itself are trimmed: 10 inches a
    minute, 254 mm a minute, becomes F1; F0 loses its number. *)
Lemma no_decimals_wrong : exists fg d d' e,
  due (produced MetricToImperial fg) [] d /\ assoc (d_word d) (produced MetricToImperial fg) = Some e /\ g_dto e = 0 /\
  has_number d 254 0 /\ unit_convert MetricToImperial fg [ADec d] = Ok [ADec d'] /\
  has_number d' 1 0 /\ ~ rounded (exact_num MetricToImperial 254) (exact_den MetricToImperial 0) 0 1 0.
Proof.
  exists ex_units, (plain "F" "254"), (plain "F" "1"), (mkWG "F" 0 9999 0 0 true WTfeed).
  split; [|split; [|split; [|split; [|split; [|split]]]]].
  - split; [eexists; split; [reflexivity|now right]|].
    split; [intros [H|[H|H]]; apply H; reflexivity|]. split; [discriminate|].
    split; [intros (d & F & W); inversion F; subst; discriminate|].
    split; [intros (a & [] & _)|intros [(a & [] & _) _]].
  - reflexivity.
  - reflexivity.
  - split; [split; [discriminate|split; reflexivity]|]. split; [reflexivity|]. split; [reflexivity|now right].
  - vm_compute. reflexivity.
  - split; [split; [discriminate|split; reflexivity]|]. split; [reflexivity|]. split; [reflexivity|now right].
  - vm_compute. intro H. now apply H.
Qed.

Lemma zero_lost : exists fg d d',
  has_number d 0 0 /\ unit_convert MetricToImperial fg [ADec d] = Ok [ADec d'] /\ forall n k, ~ has_number d' n k.
Proof.
  exists ex_units, (plain "F" "0"), (plain "F" "").
  split; [split; [split; [discriminate|split; reflexivity]|split; [reflexivity|split; [reflexivity|now right]]]|].
  split; [vm_compute; reflexivity|]. intros n k ((N & _) & _). now apply N.
Qed.
