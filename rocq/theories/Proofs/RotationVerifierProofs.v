From Verif Require Import Model.Base Model.Attr Model.Double Model.Verifiers.
From Verif Require Import Spec.RotationVerifierSpec Proofs.Tactics Proofs.TextProofs.

Definition word_is (w : string) (p : Z -> bool) (a : attr) : bool :=
  match a with
  | ADec d => String.eqb (d_word d) w &&
      match d_value d with
      | Some v => match stoi v with Ok n => p n | Exc _ => false end
      | None => false
      end
  | _ => false
  end.

Definition cutting_n n := (n =? 1) || ((81 <=? n) && (n <=? 89)).
Definition on_n n := (n =? 3) || (n =? 4).
Definition cutb b := existsb (word_is "G" cutting_n) b.
Definition onb b := existsb (word_is "M" on_n) b.
Definition speedb (b : block) :=
  existsb (fun a => match a with ADec d => String.eqb (d_word d) "S" | _ => false end) b.

Lemma word_is_spec w p b : readable b -> w = "G" \/ w = "M" ->
  (existsb (word_is w p) b = true <-> exists a n, In a b /\ number_of w a n /\ p n = true).
Proof.
  intros R Hw. rewrite existsb_exists. split.
  - intros (a & I & H). destruct a as [d|s v|s c]; try discriminate. cbn in H.
    destruct (String.eqb_spec (d_word d) w) as [W|]; [|discriminate]. cbn in H.
    destruct (d_value d) as [v|] eqn:V; [|discriminate].
    destruct (R d v I) as (n & D & Hn); [now rewrite W|exact V|].
    rewrite (stoi_ok _ _ D Hn) in H. exists (ADec d), n. split; [exact I|]. split; [|exact H].
    exists d, v. auto.
  - intros (a & n & I & (d & v & -> & W & V & D) & P). exists (ADec d). split; [exact I|]. cbn.
    rewrite W, String.eqb_refl, V. cbn [andb].
    destruct (R d v I) as (n' & D' & Hn); [now rewrite W|exact V|].
    rewrite (stoi_ok _ _ D' Hn), (denotes_fun _ _ _ D' D). exact P.
Qed.

Lemma cutb_spec b : readable b -> (cutb b = true <-> cutting b).
Proof.
  intro R. unfold cutb, cutting. rewrite word_is_spec by auto.
  split; intros (a & n & I & N & H); exists a, n; (split; [exact I|]; split; [exact N|]);
    unfold cutting_n in *; lia.
Qed.

Lemma onb_spec b : readable b -> (onb b = true <-> spindle_on b).
Proof.
  intro R. unfold onb, spindle_on. rewrite word_is_spec by auto.
  split; intros (a & n & I & N & H); exists a, n; (split; [exact I|]; split; [exact N|]);
    unfold on_n in *; lia.
Qed.

Lemma speedb_spec b : speedb b = true <-> speed b.
Proof.
  unfold speedb, speed. rewrite existsb_exists. split.
  - intros (a & I & H). destruct a as [d|s v|s c]; try discriminate.
    apply String.eqb_eq in H. exists d. auto.
  - intros (d & I & H). exists (ADec d). split; [exact I|]. now apply String.eqb_eq.
Qed.

Lemma readable_tl a b : readable (a :: b) -> readable b.
Proof. intros R d v I. apply R. now right. Qed.

Lemma visit_all_off st b : readable b ->
  rot_visit_all false st b =
  (mkRot (r_G st || cutb b) (r_M st || onb b) (r_S st || speedb b) (r_reported st), None).
Proof.
  revert st. induction b as [|a b IH]; intros st R; cbn [rot_visit_all].
  - cbn. rewrite !orb_false_r. now destruct st.
  - pose proof (readable_tl _ _ R) as Rb. unfold cutb, onb, speedb. cbn [existsb].
    fold (cutb b) (onb b) (speedb b).
    destruct a as [d|s v|s c]; [|rewrite (IH st Rb); reflexivity|rewrite (IH st Rb); reflexivity].
    unfold rot_visit. cbn [word_is].
    destruct (String.eqb_spec (d_word d) "S") as [W|W].
    { rewrite W. cbn [String.eqb Ascii.eqb Bool.eqb andb orb].
      change (String.eqb "S" "G") with false. change (String.eqb "S" "M") with false. cbn [andb orb].
      rewrite (IH _ Rb). cbn. now rewrite orb_true_r. }
    cbn [orb].
    destruct (d_value d) as [v|] eqn:V.
    2:{ rewrite (IH _ Rb), !andb_false_r. reflexivity. }
    destruct (String.eqb_spec (d_word d) "M") as [W1|W1].
    { rewrite W1. change (String.eqb "M" "G") with false. cbn [andb orb].
      destruct (R d v (or_introl eq_refl) (or_intror W1) V) as (n & D & Hn).
      rewrite (stoi_ok _ _ D Hn). fold (on_n n). destruct (on_n n); rewrite (IH _ Rb); cbn; [|reflexivity].
      now rewrite orb_true_r. }
    cbn [negb andb].
    destruct (String.eqb_spec (d_word d) "G") as [W2|W2].
    { destruct (R d v (or_introl eq_refl) (or_introl W2) V) as (n & D & Hn). cbn [andb].
      rewrite (stoi_ok _ _ D Hn). fold (cutting_n n).
      destruct (cutting_n n); rewrite (IH _ Rb); cbn; [|reflexivity]. now rewrite orb_true_r. }
    rewrite (IH _ Rb). reflexivity.
Qed.

Definition bad (g m s : bool) : bool := g && negb (m && s).
Definition msg (s : bool) : exn := ERotation ["ValueNotSet"; if s then "M3/M4" else "S"].

Lemma verifier_off st b : readable b ->
  let g := r_G st || cutb b in let m := r_M st || onb b in let s := r_S st || speedb b in
  rotation_verifier false st b =
  if negb (r_reported st) && bad g m s
  then (mkRot g m s true, Some (msg s)) else (mkRot g m s (r_reported st), None).
Proof.
  intros R g m s. unfold rotation_verifier. rewrite (visit_all_off st b R). fold g m s.
  cbn [r_reported r_G r_M r_S negb andb]. rewrite andb_true_r. unfold bad, msg.
  destruct (r_reported st), g, m, s; reflexivity.
Qed.

(** Flags accumulated over the first blocks. *)
Definition any (f : block -> bool) (p : list block) := existsb f p.

Lemma run_off p : forall st i, Forall readable p ->
  let g := r_G st || any cutb (firstn (S i) p) in
  let m := r_M st || any onb (firstn (S i) p) in
  let s := r_S st || any speedb (firstn (S i) p) in
  (i < List.length p)%nat ->
  nth_error (rotation_run false st p) i =
  Some (if negb (r_reported st) && bad g m s &&
           forallb (fun j => negb (bad (r_G st || any cutb (firstn (S j) p))
                                       (r_M st || any onb (firstn (S j) p))
                                       (r_S st || any speedb (firstn (S j) p)))) (seq 0 i)
        then Some (msg s) else None).
Proof.
  induction p as [|b p IH]; intros st i R g m s L; [inversion L|].
  inv R. cbn [rotation_run]. rewrite (verifier_off st b H1).
  set (g0 := r_G st || cutb b). set (m0 := r_M st || onb b). set (s0 := r_S st || speedb b).
  destruct i as [|i].
  - unfold g, m, s, any. cbn [firstn existsb seq forallb]. rewrite !orb_false_r, andb_true_r.
    fold g0 m0 s0. destruct (negb (r_reported st) && bad g0 m0 s0); reflexivity.
  - assert (L' : (i < List.length p)%nat) by (cbn in L; apply Nat.succ_lt_mono in L; exact L).
    cbn [seq forallb]. rewrite <- seq_shift.
    assert (FM : forall (A B : Type) (h : A -> B) (f : B -> bool) l, forallb f (map h l) = forallb (fun x => f (h x)) l).
    { intros A B h f l. induction l; cbn; [reflexivity|]. now rewrite IHl. }
    rewrite FM. clear FM.
    assert (E : forall f (x : bool) k, x || any f (firstn (S (S k)) (b :: p)) = (x || f b) || any f (firstn (S k) p)).
    { intros. unfold any. cbn [firstn existsb]. now rewrite orb_assoc. }
    set (F := forallb _ (seq 0 i)).
    assert (F' : F = forallb (fun j => negb (bad (g0 || any cutb (firstn (S j) p))
                       (m0 || any onb (firstn (S j) p)) (s0 || any speedb (firstn (S j) p)))) (seq 0 i)).
    { unfold F. clear. induction (seq 0 i) as [|k l IHl]; cbn [forallb]; [reflexivity|].
      rewrite IHl. unfold any. cbn [firstn existsb]. now rewrite !orb_assoc. }
    rewrite F'. clear F F'. set (F := forallb _ (seq 0 i)).
    unfold g, m, s. rewrite !E. fold g0 m0 s0.
    replace (bad (r_G st || any cutb (firstn 1 (b :: p))) (r_M st || any onb (firstn 1 (b :: p)))
                 (r_S st || any speedb (firstn 1 (b :: p)))) with (bad g0 m0 s0)
      by (unfold any; cbn [firstn existsb]; now rewrite !orb_false_r).
    destruct (negb (r_reported st) && bad g0 m0 s0) eqn:B.
    + cbn [nth_error]. rewrite (IH (mkRot g0 m0 s0 true) i H2 L'). cbn [r_reported negb andb].
      apply andb_true_iff in B as [-> ->]. cbn [negb andb]. rewrite andb_false_r. reflexivity.
    + cbn [nth_error]. rewrite (IH (mkRot g0 m0 s0 (r_reported st)) i H2 L').
      cbn [r_reported r_G r_M r_S]. fold F.
      destruct (r_reported st); [reflexivity|]. cbn [negb andb] in B |- *. rewrite B. reflexivity.
Qed.

Lemma run_length op p : forall st, List.length (rotation_run op st p) = List.length p.
Proof.
  induction p as [|b p IH]; intro st; cbn; [reflexivity|].
  destruct (rotation_verifier op st b). cbn. now rewrite IH.
Qed.

Lemma by_now_any (P : block -> Prop) f p i : Forall readable p ->
  (forall b, readable b -> (f b = true <-> P b)) ->
  (any f (firstn (S i) p) = true <-> by_now P p i).
Proof.
  intros R H. unfold any, by_now. rewrite existsb_exists. rewrite Forall_forall in R. split.
  - intros (b & I & F). apply In_nth_error in I as [j E]. exists j, b.
    assert (j < S i)%nat.
    { assert (j < List.length (firstn (S i) p))%nat by (apply nth_error_Some; congruence).
      rewrite firstn_length in H0. lia. }
    assert (E' : nth_error p j = Some b).
    { rewrite <- (firstn_skipn (S i) p). rewrite nth_error_app1; [exact E|].
      apply nth_error_Some. congruence. }
    split; [lia|]. split; [exact E'|]. apply H; [|exact F]. apply R. eapply nth_error_In; eauto.
  - intros (j & b & L & E & Pb). exists b. split.
    + apply (nth_error_In _ j). rewrite <- (firstn_skipn (S i) p) in E.
      rewrite nth_error_app1 in E; [exact E|]. rewrite firstn_length.
      assert (j < List.length p)%nat; [|lia].
      apply nth_error_Some. rewrite <- (firstn_skipn (S i) p). congruence.
    + apply H; [|exact Pb]. apply R. eapply nth_error_In; eauto.
Qed.

Lemma missing_bad p i : Forall readable p ->
  (bad (any cutb (firstn (S i) p)) (any onb (firstn (S i) p)) (any speedb (firstn (S i) p)) = true
   <-> missing p i).
Proof.
  intro R. unfold bad, missing.
  rewrite <- (by_now_any cutting cutb p i R cutb_spec).
  rewrite <- (by_now_any spindle_on onb p i R onb_spec).
  rewrite <- (by_now_any speed speedb p i R (fun b _ => speedb_spec b)).
  destruct (any cutb (firstn (S i) p)), (any onb (firstn (S i) p)), (any speedb (firstn (S i) p)); cbn;
    intuition congruence.
Qed.

Lemma rotation_off p i e : Forall readable p ->
  (nth_error (rotation_run false rot_init p) i = Some (Some e) <->
   (i < List.length p)%nat /\ missing p i /\ (forall j, (j < i)%nat -> ~ missing p j) /\
   ((~ by_now speed p i /\ e = ERotation ["ValueNotSet"; "S"]) \/
    (by_now speed p i /\ e = ERotation ["ValueNotSet"; "M3/M4"]))).
Proof.
  intro R. destruct (Nat.lt_ge_cases i (List.length p)) as [L|L].
  2:{ assert (nth_error (rotation_run false rot_init p) i = None)
        by (apply nth_error_None; rewrite run_length; exact L).
      rewrite H. split; [discriminate|]. intros [? _]. lia. }
  rewrite (run_off p rot_init i R L). cbn [r_reported r_G r_M r_S rot_init negb orb andb].
  pose proof (missing_bad p i R) as MB.
  pose proof (by_now_any speed speedb p i R (fun b _ => speedb_spec b)) as SB.
  destruct (bad (any cutb (firstn (S i) p)) (any onb (firstn (S i) p)) (any speedb (firstn (S i) p)));
    cbn [andb].
  2:{ split; [discriminate|]. intros (_ & M & _). apply MB in M. discriminate. }
  destruct (forallb _ (seq 0 i)) eqn:F.
  - rewrite forallb_forall in F.
    assert (NM : forall j, (j < i)%nat -> ~ missing p j).
    { intros j Hj M. apply (missing_bad p j R) in M.
      assert (I : In j (seq 0 i)) by (apply in_seq; lia). specialize (F j I). rewrite M in F. discriminate. }
    unfold msg. destruct (any speedb (firstn (S i) p)).
    + split.
      * intro E. inv E. split; [exact L|]. split; [now apply MB|]. split; [exact NM|]. right. split; [now apply SB|reflexivity].
      * intros (_ & _ & _ & [[H _]|[_ ->]]); [exfalso; apply H; now apply SB|reflexivity].
    + split.
      * intro E. inv E. split; [exact L|]. split; [now apply MB|]. split; [exact NM|]. left.
        split; [|reflexivity]. intro H. apply SB in H. discriminate.
      * intros (_ & _ & _ & [[_ ->]|[H _]]); [reflexivity|apply SB in H; discriminate].
  - split; [discriminate|]. intros (_ & _ & NM & _). exfalso.
    assert (X : forallb (fun j => negb (bad (any cutb (firstn (S j) p)) (any onb (firstn (S j) p))
              (any speedb (firstn (S j) p)))) (seq 0 i) = true).
    { apply forallb_forall. intros j I. apply in_seq in I. apply negb_true_iff.
      apply not_true_is_false. intro M. apply (NM j); [lia|]. now apply missing_bad. }
    congruence.
Qed.

(** Operator-controlled rotation. *)
Lemma visit_all_on st b : readable b ->
  match snd (rot_visit_all true st b) with
  | Some e => (speed b \/ spindle_on b) /\
      (e = ERotation ["SNotAllowedWhenOperatorTurnsRotation"] \/
       e = ERotation ["M3M4NotAllowedWhenOperatorTurnsRotation"])
  | None => ~ speed b /\ ~ spindle_on b
  end.
Proof.
  revert st. induction b as [|a b IH]; intros st R; cbn [rot_visit_all].
  - cbn. split; [intros (d & [] & _)|intros (a & n & [] & _)].
  - pose proof (readable_tl _ _ R) as Rb.
    assert (Next : forall st', (forall d, a = ADec d -> d_word d <> "S") ->
      (forall n, number_of "M" a n -> ~ (n = 3 \/ n = 4)) ->
      match snd (rot_visit_all true st' b) with
      | Some e => (speed (a :: b) \/ spindle_on (a :: b)) /\
          (e = ERotation ["SNotAllowedWhenOperatorTurnsRotation"] \/
           e = ERotation ["M3M4NotAllowedWhenOperatorTurnsRotation"])
      | None => ~ speed (a :: b) /\ ~ spindle_on (a :: b)
      end).
    { intros st' NS NM. specialize (IH st' Rb). destruct (snd (rot_visit_all true st' b)).
      - destruct IH as [[(d & I & W)|(x & n & I & H)] E]; (split; [|exact E]).
        + left. exists d. split; [now right|exact W].
        + right. exists x, n. split; [now right|exact H].
      - destruct IH as [I1 I2]. split.
        + intros (d & [I|I] & W); [exact (NS d I W)|apply I1; exists d; auto].
        + intros (x & n & [I|I] & Nx & H); [subst; exact (NM n Nx H)|apply I2; exists x, n; auto]. }
    destruct a as [d|s v|s c].
    2,3: apply Next; [intros; discriminate|intros n (d & v' & E & _); discriminate].
    unfold rot_visit. destruct (String.eqb_spec (d_word d) "S") as [W|W].
    { cbn. split; [left; exists d; split; [now left|exact W]|now left]. }
    destruct (d_value d) as [v|] eqn:V.
    2:{ apply Next; [intros d' E; inv E; exact W|].
        intros n (d' & v' & E & _ & V' & _). inv E. congruence. }
    destruct (String.eqb_spec (d_word d) "M") as [W1|W1].
    + destruct (R d v (or_introl eq_refl) (or_intror W1) V) as (n & D & Hn).
      rewrite (stoi_ok _ _ D Hn). destruct ((n =? 3) || (n =? 4)) eqn:E.
      * cbn. split; [right|now right]. exists (ADec d), n. split; [now left|]. split; [exists d, v; auto|lia].
      * apply Next; [intros d' E'; inv E'; exact W|].
        intros n' (d' & v' & E' & _ & V' & D'). inv E'. rewrite V in V'. inv V'.
        rewrite (denotes_fun _ _ _ D' D). lia.
    + cbn [negb andb]. apply Next; [intros d' E'; inv E'; exact W|].
      intros n' (d' & v' & E' & W' & _). inv E'. congruence.
Qed.

Lemma verifier_on st b : readable b ->
  match snd (rotation_verifier true st b) with
  | Some e => (speed b \/ spindle_on b) /\
      (e = ERotation ["SNotAllowedWhenOperatorTurnsRotation"] \/
       e = ERotation ["M3M4NotAllowedWhenOperatorTurnsRotation"])
  | None => ~ speed b /\ ~ spindle_on b
  end.
Proof.
  intro R. pose proof (visit_all_on st b R) as H. unfold rotation_verifier.
  destruct (rot_visit_all true st b) as [st' [e|]]; cbn [snd] in H; [exact H|].
  cbn [negb]. rewrite andb_false_r. exact H.
Qed.

Lemma rotation_on p : forall st i b, Forall readable p -> nth_error p i = Some b ->
  exists r, nth_error (rotation_run true st p) i = Some r /\
  match r with
  | Some e => (speed b \/ spindle_on b) /\
      (e = ERotation ["SNotAllowedWhenOperatorTurnsRotation"] \/
       e = ERotation ["M3M4NotAllowedWhenOperatorTurnsRotation"])
  | None => ~ speed b /\ ~ spindle_on b
  end.
Proof.
  induction p as [|b0 p IH]; intros st i b R E; [destruct i; discriminate|]. inv R.
  cbn [rotation_run]. pose proof (verifier_on st b0 H1) as V.
  destruct (rotation_verifier true st b0) as [st' r]. cbn [snd] in V.
  destruct i as [|i]; cbn in E |- *.
  - inv E. exists r. auto.
  - apply IH; assumption.
Qed.
