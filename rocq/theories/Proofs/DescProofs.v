(** Description tables: proofs. *)
From Coq Require Import Permutation.
From Verif Require Import Model.Base Model.MacrosDesc Spec.Text Spec.DescSpec.
From Verif Require Import Proofs.Tactics Proofs.TextProofs Proofs.StringFacts Proofs.FramingProofs.
From Verif Require Proofs.EnumProofs.

(** ** The map *)

Lemma assoc_in {A} c (m : list (string * A)) x : assoc c m = Some x -> In (c, x) m.
Proof.
  induction m as [|[k v] m IH]; cbn; [discriminate|]. destruct (String.eqb_spec c k) as [->|]; [|auto].
  intro H. inv H. auto.
Qed.

Lemma assoc_none {A} c (m : list (string * A)) : assoc c m = None <-> forall x, ~ In (c, x) m.
Proof.
  induction m as [|[k v] m IH]; cbn; [tauto|]. destruct (String.eqb_spec c k) as [->|N].
  - split; [discriminate|]. intro H. exfalso. apply (H v). auto.
  - rewrite IH. split; intros H x; specialize (H x); intuition congruence.
Qed.

Lemma assoc_first {A} c (m : list (string * A)) x :
  assoc c m = Some x <-> exists l1 l2, m = (l1 ++ (c, x) :: l2)%list /\ forall y, ~ In (c, y) l1.
Proof.
  induction m as [|[k v] m IH]; cbn.
  - split; [discriminate|]. intros (l1 & l2 & E & _). destruct l1; discriminate.
  - destruct (String.eqb_spec c k) as [->|N].
    + split.
      * intro H. inv H. exists [], m. split; auto.
      * intros (l1 & l2 & E & H). destruct l1 as [|[k' v'] l1]; cbn in E; inv E; auto.
        exfalso. apply (H v'). cbn. auto.
    + rewrite IH. split; intros (l1 & l2 & E & H).
      * exists ((k, v) :: l1), l2. split; [now rewrite E|]. intros y [Q|Q]; [congruence|]. eapply H; eauto.
      * destruct l1 as [|[k' v'] l1]; cbn in E; inv E; [congruence|]. exists l1, l2. split; auto.
        intros y Q. apply (H y). cbn. auto.
Qed.

Lemma assoc_app {A} c (m1 m2 : list (string * A)) :
  assoc c (m1 ++ m2) = match assoc c m1 with Some x => Some x | None => assoc c m2 end.
Proof. induction m1 as [|[k v] m1 IH]; cbn; auto. now destruct (String.eqb c k). Qed.

Lemma assoc_emplace m k td c :
  assoc c (desc_emplace m k td) = match assoc c m with Some x => Some x | None => if String.eqb c k then Some td else None end.
Proof.
  unfold desc_emplace. destruct (assoc k m) eqn:E; cbn.
  - destruct (assoc c m) eqn:F; auto. destruct (String.eqb_spec c k) as [->|]; congruence.
  - destruct (String.eqb_spec c k) as [->|]; [now rewrite E|]. now destruct (assoc c m).
Qed.

Lemma assoc_titles k tds : forall m c,
  assoc c (fold_left (fun m td => desc_emplace m k td) tds m)
  = match assoc c m with Some x => Some x | None => assoc c (map (fun td => (k, td)) tds) end.
Proof.
  induction tds as [|td tds IH]; intros m c; cbn; [now destruct (assoc c m)|].
  rewrite IH, assoc_emplace. destruct (assoc c m); auto. now destruct (String.eqb c k).
Qed.

Lemma assoc_read f : forall m c,
  assoc c (read_json m f) = match assoc c m with Some x => Some x | None => assoc c (entries f) end.
Proof.
  induction f as [|[k tds] f IH]; intros m c; cbn; [now destruct (assoc c m)|].
  rewrite IH, assoc_titles, assoc_app. now destruct (assoc c m).
Qed.

Lemma emplace_nodup m k td : NoDup (map fst m) -> NoDup (map fst (desc_emplace m k td)).
Proof.
  unfold desc_emplace. intro H. destruct (assoc k m) eqn:E; cbn; auto. constructor; auto.
  intro Q. apply in_map_iff in Q as ((k' & v) & <- & Q). now apply (proj1 (assoc_none k' m) E v).
Qed.

Lemma read_nodup f : forall m, NoDup (map fst m) -> NoDup (map fst (read_json m f)).
Proof.
  induction f as [|[k tds] f IH]; intros m H; cbn; auto. apply IH. revert m H.
  induction tds as [|td tds IH2]; intros m H; cbn; auto. apply IH2. now apply emplace_nodup.
Qed.

Lemma data_nodup user builtin : NoDup (map fst (read_data user builtin)).
Proof. apply read_nodup. destruct user; [apply read_nodup|]; constructor. Qed.

Lemma data_assoc user builtin c td : assoc c (read_data user builtin) = Some td <-> effective user builtin c td.
Proof.
  unfold read_data, effective, described, undescribed. rewrite assoc_read. destruct user as [u|].
  - rewrite assoc_read. cbn. rewrite <- !assoc_first, <- assoc_none. destruct (assoc c (entries u)).
    + intuition congruence.
    + intuition congruence.
  - cbn. now rewrite <- assoc_first.
Qed.

Lemma data_none user builtin c : assoc c (read_data user builtin) = None <-> forall td, ~ effective user builtin c td.
Proof.
  split.
  - intros E td H. apply data_assoc in H. congruence.
  - intro H. destruct (assoc c (read_data user builtin)) eqn:E; auto. apply data_assoc in E. now apply H in E.
Qed.

Lemma nodup_in {A} (m : list (string * A)) c x : NoDup (map fst m) -> In (c, x) m -> assoc c m = Some x.
Proof.
  induction m as [|[k v] m IH]; cbn; [tauto|]. intros N [H|H]; inv N.
  - inv H. now rewrite String.eqb_refl.
  - destruct (String.eqb_spec c k) as [->|]; auto. exfalso. apply H2. apply in_map_iff. now exists (k, x).
Qed.

Lemma order_in user builtin order c td : Permutation order (read_data user builtin) ->
  In (c, td) order <-> effective user builtin c td.
Proof.
  intro P. rewrite <- data_assoc. split.
  - intro H. apply nodup_in; [apply data_nodup|]. eapply Permutation_in; eauto.
  - intro H. eapply Permutation_in; [apply Permutation_sym; exact P|]. now apply assoc_in.
Qed.

(** ** The ranges of a text *)

Lemma after_prefix_some p : forall s r, after_prefix p s = Some r <-> s = p ++ r.
Proof.
  induction p as [|c p IH]; intros s r; cbn; [split; congruence|].
  destruct s as [|d s]; [split; discriminate|]. destruct (Ascii.eqb_spec c d) as [->|N].
  - rewrite IH. split; congruence.
  - split; congruence.
Qed.

Lemma some_digits_iff s ds r : some_digits s = Some (ds, r) <->
  s = ds ++ r /\ ds <> "" /\ all_chars is_digit ds = true /\ no_digit r.
Proof.
  unfold some_digits. destruct (span is_digit s) as [a b] eqn:E. split.
  - intro H. apply EnumProofs.span_parts in E as (-> & A & B). destruct a; [discriminate|]. inv H.
    repeat split; auto; try discriminate. intros c q ->. exact B.
  - intros (-> & N & A & D). rewrite span_app in E; auto.
    + inv E. destruct a; congruence.
    + destruct r; auto. eapply D; eauto.
Qed.

Lemma match_pair_iff s nb ne r : match_pair s = Some ((nb, ne), r) <->
  s = "#" ++ nb ++ "-#" ++ ne ++ r /\ nb <> "" /\ all_chars is_digit nb = true /\ ne <> "" /\ all_chars is_digit ne = true /\ no_digit r.
Proof.
  unfold match_pair. split.
  - destruct (after_prefix "#" s) as [s1|] eqn:E1; [|discriminate]. apply after_prefix_some in E1 as ->.
    destruct (some_digits s1) as [[b s2]|] eqn:E2; [|discriminate].
    destruct (after_prefix "-#" s2) as [s3|] eqn:E3; [|discriminate].
    destruct (some_digits s3) as [[e s4]|] eqn:E4; [|discriminate]. intro H. inv H.
    apply some_digits_iff in E2 as (-> & N2 & A2 & D2). apply some_digits_iff in E4 as (-> & N4 & A4 & D4).
    apply after_prefix_some in E3 as ->. repeat split; auto.
  - intros (-> & N2 & A2 & N4 & A4 & D4).
    rewrite (proj2 (after_prefix_some "#" _ (nb ++ "-#" ++ ne ++ r)) eq_refl).
    rewrite (proj2 (some_digits_iff _ nb ("-#" ++ ne ++ r))).
    2:{ repeat split; auto. intros c q H. inv H. reflexivity. }
    rewrite (proj2 (after_prefix_some "-#" _ (ne ++ r)) eq_refl).
    now rewrite (proj2 (some_digits_iff _ ne r)).
Qed.

Lemma search_some {A} (m : string -> option A) s x : regex_search m s = Some x ->
  exists p q, s = p ++ q /\ m q = Some x.
Proof.
  induction s as [|c s IH]; cbn.
  - destruct (m "") eqn:E; [|discriminate]. intro H. inv H. now exists "", "".
  - destruct (m (String c s)) eqn:E.
    + intro H. inv H. now exists "", (String c s).
    + intro H. destruct (IH H) as (p & q & -> & Q). now exists (String c p), q.
Qed.

Lemma search_at {A} (m : string -> option A) p : forall q,
  (forall p' q', p ++ q = p' ++ q' -> m q' <> None -> p' = p) ->
  regex_search m (p ++ q) = m q.
Proof.
  induction p as [|c p IH]; intros q H.
  - cbn [append]. destruct (m q) eqn:E; [destruct q; cbn; now rewrite E|].
    assert (K : forall q1 q2, q = q1 ++ q2 -> m q2 = None).
    { intros q1 q2 Q. destruct (m q2) eqn:F; auto. assert (q1 = "") by (apply (H q1 q2); [exact Q|congruence]).
      subst. cbn in E. congruence. }
    clear H E. induction q as [|c q IH]; cbn.
    + now rewrite (K "" "" eq_refl).
    + rewrite (K "" (String c q) eq_refl). apply IH. intros q1 q2 ->. now apply (K (String c q1)).
  - cbn [append regex_search]. destruct (m (String c (p ++ q))) eqn:E.
    + specialize (H "" (String c (p ++ q)) eq_refl ltac:(congruence)). discriminate.
    + apply IH. intros p' q' Q N. specialize (H (String c p') q'). cbn [append] in H. rewrite Q in H.
      specialize (H eq_refl N). congruence.
Qed.

Lemma match_r1_some s l : match_r1 s = Some l ->
  exists nb ne r, s = "Range: " ++ "#" ++ nb ++ "-#" ++ ne ++ r /\ l = [(nb, ne)] /\
    denotes nb (digits_val nb) /\ denotes ne (digits_val ne) /\ no_digit r.
Proof.
  unfold match_r1. destruct (after_prefix "Range: " s) as [s1|] eqn:E1; [|discriminate]. apply after_prefix_some in E1 as ->.
  destruct (match_pair s1) as [[[nb ne] r]|] eqn:E2; [|discriminate]. cbn [option_map fst]. intro H. inv H.
  apply match_pair_iff in E2 as (-> & ? & ? & ? & ? & ?). exists nb, ne, r. repeat split; auto.
Qed.

Lemma match_r2_some s l : match_r2 s = Some l ->
  exists nb ne nb' ne' r, s = "Range: " ++ "#" ++ nb ++ "-#" ++ ne ++ " - " ++ "#" ++ nb' ++ "-#" ++ ne' ++ r /\
    l = [(nb, ne); (nb', ne')] /\ denotes nb (digits_val nb) /\ denotes ne (digits_val ne) /\
    denotes nb' (digits_val nb') /\ denotes ne' (digits_val ne') /\ no_digit r.
Proof.
  unfold match_r2. destruct (after_prefix "Range: " s) as [s1|] eqn:E1; [|discriminate]. apply after_prefix_some in E1 as ->.
  destruct (match_pair s1) as [[[nb ne] r]|] eqn:E2; [|discriminate].
  destruct (after_prefix " - " r) as [s2|] eqn:E3; [|discriminate]. apply after_prefix_some in E3 as ->.
  destruct (match_pair s2) as [[[nb' ne'] r']|] eqn:E4; [|discriminate]. cbn [option_map fst]. intro H. inv H.
  apply match_pair_iff in E2 as (-> & ? & ? & ? & ? & ?). apply match_pair_iff in E4 as (-> & ? & ? & ? & ? & ?).
  exists nb, ne, nb', ne', r'. repeat split; auto.
Qed.

Lemma text_ranges_sound text nb ne : In (nb, ne) (text_ranges text) ->
  denotes nb (digits_val nb) /\ denotes ne (digits_val ne) /\ mentions text (digits_val nb) (digits_val ne).
Proof.
  unfold text_ranges, mentions. destruct (regex_search match_r2 text) as [l|] eqn:E2.
  - apply search_some in E2 as (p & q & -> & Q). apply match_r2_some in Q as (a & b & a' & b' & r & -> & -> & Ha & Hb & Ha' & Hb' & Hr).
    intros [H|[H|[]]]; inv H; split; auto; split; auto.
    + exists (p ++ "Range: "), nb, ne, (" - " ++ "#" ++ a' ++ "-#" ++ b' ++ r). split; [now rewrite !string_app_assoc|].
      repeat split; auto; try apply Ha; try apply Hb. intros c k H. inv H. reflexivity.
    + exists (p ++ "Range: #" ++ a ++ "-#" ++ b ++ " - "), nb, ne, r. split; [now rewrite ?string_app_assoc; cbn; rewrite ?string_app_assoc; cbn; rewrite ?string_app_assoc|].
      repeat split; auto; try apply Ha'; try apply Hb'.
  - destruct (regex_search match_r1 text) as [l|] eqn:E1; [|intros []].
    apply search_some in E1 as (p & q & -> & Q). apply match_r1_some in Q as (a & b & r & -> & -> & Ha & Hb & Hr).
    intros [H|[]]. inv H. split; auto. split; auto.
    exists (p ++ "Range: "), nb, ne, r. split; [now rewrite !string_app_assoc|]. repeat split; auto; try apply Ha; try apply Hb.
Qed.

Lemma match_r1_at q : match_r1 q <> None -> exists r, q = "Range: " ++ r.
Proof. destruct (match_r1 q) eqn:E; [|congruence]. intros _. apply match_r1_some in E as (? & ? & ? & -> & _). eauto. Qed.
Lemma match_r2_at q : match_r2 q <> None -> exists r, q = "Range: " ++ r.
Proof. destruct (match_r2 q) eqn:E; [|congruence]. intros _. apply match_r2_some in E as (? & ? & ? & ? & ? & -> & _). eauto. Qed.

Lemma string_app_inj_r a b c d : a ++ b = c ++ d -> String.length a = String.length c -> a = c /\ b = d.
Proof.
  revert c. induction a as [|x a IH]; intros [|y c] E L; cbn in *; try discriminate; auto.
  inv E. destruct (IH c H1) as [-> ->]; auto.
Qed.

Lemma text_ranges_complete text b e : documents text b e ->
  exists nb ne, In (nb, ne) (text_ranges text) /\ denotes nb b /\ denotes ne e.
Proof.
  intros (pre & rest & l & -> & U & P & I). unfold text_ranges.
  assert (S1 : regex_search match_r1 (pre ++ "Range: " ++ rest) = match_r1 ("Range: " ++ rest)).
  { apply search_at. intros p' q' E N. destruct (match_r1_at _ N) as [r ->]. eapply U; eauto. }
  assert (S2 : regex_search match_r2 (pre ++ "Range: " ++ rest) = match_r2 ("Range: " ++ rest)).
  { apply search_at. intros p' q' E N. destruct (match_r2_at _ N) as [r ->]. eapply U; eauto. }
  rewrite S1, S2. clear S1 S2 U.
  destruct P as [nb ne b0 e0 suf Db De Ds|nb ne b0 e0 nb' ne' b' e' suf Db De Db' De' Ds].
  - destruct I as [I|[]]. inv I.
    destruct (match_r2 ("Range: " ++ "#" ++ nb ++ "-#" ++ ne ++ suf)) as [l|] eqn:E2.
    + pose proof E2 as E2'. unfold match_r2 in E2'.
      rewrite (proj2 (after_prefix_some "Range: " _ ("#" ++ nb ++ "-#" ++ ne ++ suf)) eq_refl) in E2'.
      rewrite (proj2 (match_pair_iff _ nb ne suf)) in E2' by (destruct Db as (?&?&?), De as (?&?&?); repeat split; auto).
      destruct (after_prefix " - " suf); [|discriminate]. destruct (match_pair s); [|discriminate]. inv E2'.
      exists nb, ne. cbn; auto.
    + unfold match_r1.
      rewrite (proj2 (after_prefix_some "Range: " _ ("#" ++ nb ++ "-#" ++ ne ++ suf)) eq_refl).
      rewrite (proj2 (match_pair_iff _ nb ne suf)) by (destruct Db as (?&?&?), De as (?&?&?); repeat split; auto).
      exists nb, ne. cbn; auto.
  - unfold match_r2.
    rewrite (proj2 (after_prefix_some "Range: " _ ("#" ++ nb ++ "-#" ++ ne ++ " - " ++ "#" ++ nb' ++ "-#" ++ ne' ++ suf)) eq_refl).
    rewrite (proj2 (match_pair_iff _ nb ne (" - " ++ "#" ++ nb' ++ "-#" ++ ne' ++ suf))).
    2:{ destruct Db as (?&?&?), De as (?&?&?); repeat split; auto. intros c k HH. inv HH. reflexivity. }
    rewrite (proj2 (after_prefix_some " - " _ ("#" ++ nb' ++ "-#" ++ ne' ++ suf)) eq_refl).
    rewrite (proj2 (match_pair_iff _ nb' ne' suf)) by (destruct Db' as (?&?&?), De' as (?&?&?); repeat split; auto).
    cbn [option_map fst]. destruct I as [I|[I|[]]]; inv I; [exists nb, ne|exists nb', ne']; cbn; auto.
Qed.

(** ** Reading the ranges *)

Lemma range_of_in logger c p rs b e k : range_of logger c p = Ok rs -> In (b, e, k) rs ->
  k = c /\ stoi (fst p) = Ok b /\ stoi (snd p) = Ok e.
Proof.
  unfold range_of, log_or_crash. destruct (stoi (fst p)).
  - destruct (stoi (snd p)); [|destruct logger; intro H; inv H; intros []].
    intro H. inv H. intros [H|[]]. inv H. auto.
  - destruct logger; intro H; inv H; intros [].
Qed.

Lemma ranges_of_in logger c ps : forall rs, ranges_of logger c ps = Ok rs -> forall b e k, In (b, e, k) rs <->
  k = c /\ exists p, In p ps /\ stoi (fst p) = Ok b /\ stoi (snd p) = Ok e.
Proof.
  induction ps as [|p ps IH]; cbn; intros rs H b e k.
  - inv H. split; [intros []|intros (_ & p & [] & _)].
  - destruct (range_of logger c p) as [a|] eqn:E; [|discriminate]. cbn in H.
    destruct (ranges_of logger c ps) as [r|] eqn:F; [|discriminate]. cbn in H. inv H.
    rewrite in_app_iff, (IH r eq_refl). split.
    + intros [H|(-> & q & Q & R)].
      * destruct (range_of_in _ _ _ _ _ _ _ E H) as (-> & ?). eauto.
      * eauto 6.
    + intros (-> & q & [->|Q] & R1 & R2); [|right; eauto]. left.
      unfold range_of in E. rewrite R1, R2 in E. inv E. cbn. auto.
Qed.

Lemma read_ranges_in logger order : forall rs, read_ranges logger order = Ok rs -> forall b e k, In (b, e, k) rs <->
  exists t text p, In (k, (t, text)) order /\ In p (text_ranges text) /\ stoi (fst p) = Ok b /\ stoi (snd p) = Ok e.
Proof.
  induction order as [|[c [t text]] order IH]; cbn; intros rs H b e k.
  - inv H. split; [intros []|intros (? & ? & ? & [] & _)].
  - destruct (ranges_of logger c (text_ranges text)) as [a|] eqn:E; [|discriminate]. cbn in H.
    destruct (read_ranges logger order) as [r|] eqn:F; [|discriminate]. cbn in H. inv H.
    rewrite in_app_iff, (IH r eq_refl), (ranges_of_in _ _ _ _ E). split.
    + intros [(-> & p & Q & R)|(t' & x' & p & Q & R)]; [|eauto 8]. exists t, text, p. intuition.
    + intros (t' & x' & p & [Q|Q] & R); [inv Q; left; eauto|right; eauto 8].
Qed.

Lemma range_of_logger c p : exists rs, range_of true c p = Ok rs.
Proof. unfold range_of. destruct (stoi (fst p)); cbn; eauto. destruct (stoi (snd p)); cbn; eauto. Qed.
Lemma ranges_of_logger c ps : exists rs, ranges_of true c ps = Ok rs.
Proof. induction ps as [|p ps [r IH]]; cbn; eauto. destruct (range_of_logger c p) as [a ->]. cbn. rewrite IH. cbn. eauto. Qed.
Lemma read_ranges_logger order : exists rs, read_ranges true order = Ok rs.
Proof.
  induction order as [|[c [t text]] order [r IH]]; cbn; eauto. destruct (ranges_of_logger c (text_ranges text)) as [a ->].
  cbn. rewrite IH. cbn. eauto.
Qed.

Lemma read_ranges_fit order :
  (forall c t text b e, In (c, (t, text)) order -> mentions text b e -> b <= int_max /\ e <= int_max) ->
  exists rs, read_ranges false order = Ok rs.
Proof.
  induction order as [|[c [t text]] order IH]; intro H; cbn; eauto.
  destruct IH as [r IH]; [intros; eapply H; [right; eauto|eauto]|].
  assert (K : exists a, ranges_of false c (text_ranges text) = Ok a).
  { assert (J : forall p, In p (text_ranges text) -> exists b e, stoi (fst p) = Ok b /\ stoi (snd p) = Ok e).
    { intros [nb ne] I. destruct (text_ranges_sound _ _ _ I) as (Db & De & M).
      destruct (H c t text _ _ (or_introl eq_refl) M). cbn.
      exists (digits_val nb), (digits_val ne). split; apply stoi_ok; auto. }
    induction (text_ranges text) as [|p ps IHp]; cbn; eauto.
    destruct (J p (or_introl eq_refl)) as (b & e & Eb & Ee). unfold range_of. rewrite Eb, Ee. cbn.
    destruct IHp as [a ->]; [intros; apply J; cbn; auto|]. cbn. eauto. }
  destruct K as [a ->]. cbn. rewrite IH. cbn. eauto.
Qed.

(** ** Lookup *)

Section Table.
Variables (user : option desc_file) (builtin : desc_file) (order : desc_data) (logger : bool) (rs : list (Z * Z * string)).
Hypothesis P : Permutation order (read_data user builtin).
Hypothesis R : read_ranges logger order = Ok rs.
Let md := mkMD (read_data user builtin) rs.

Lemma desc_exact c td : effective user builtin c td -> get_desc logger md c = Ok td.
Proof. intro H. unfold get_desc, md. cbn [md_data]. apply data_assoc in H. now rewrite H. Qed.

Lemma range_entry b e k : In (b, e, k) rs <-> exists t text p, effective user builtin k (t, text) /\
  In p (text_ranges text) /\ stoi (fst p) = Ok b /\ stoi (snd p) = Ok e.
Proof.
  rewrite (read_ranges_in _ _ _ R). split; intros (t & text & p & H & Q); exists t, text, p; split; auto;
    now apply (order_in _ _ _ _ _ P).
Qed.

Lemma desc_inside c n td : denotes c n -> n <= int_max -> (forall td', ~ effective user builtin c td') ->
  get_desc logger md c = Ok td ->
  (exists k t text b e, effective user builtin k (t, text) /\ td = (t, text) /\ mentions text b e /\ b < n < e) \/
  (td = ("", "") /\ forall k t text b e, effective user builtin k (t, text) -> documents text b e ->
     b <= int_max -> e <= int_max -> ~ b < n < e).
Proof.
  intros D L N. unfold get_desc, md. cbn [md_data md_ranges].
  rewrite (proj2 (data_none user builtin c) N), (stoi_ok _ _ D L).
  destruct (find _ rs) as [[[b e] k]|] eqn:F.
  - apply find_some in F as [F G]. apply range_entry in F as (t & text & [nb ne] & E & I & Sb & Se).
    cbn in Sb, Se. pose proof E as E'. apply data_assoc in E'. rewrite E'. intro H. inv H. left.
    destruct (text_ranges_sound _ _ _ I) as (Db & De & M).
    exists k, t, text, (digits_val nb), (digits_val ne). repeat split; auto.
    + rewrite (stoi_denotes _ _ Db) in Sb. destruct (int_max <? digits_val nb); inv Sb. lia.
    + rewrite (stoi_denotes _ _ De) in Se. destruct (int_max <? digits_val ne); inv Se. lia.
  - intro H. inv H. right. split; auto. intros k t text b e E Dc Lb Le C.
    destruct (text_ranges_complete _ _ _ Dc) as (nb & ne & I & Db & De).
    assert (Q : In (b, e, k) rs).
    { apply range_entry. exists t, text, (nb, ne). cbn. repeat split; auto; now apply stoi_ok. }
    pose proof (find_none _ _ F _ Q) as Z0. cbn in Z0. lia.
Qed.

Lemma desc_total c n : denotes c n -> n <= int_max -> exists td, get_desc logger md c = Ok td.
Proof.
  intros D L. unfold get_desc. rewrite (stoi_ok _ _ D L). destruct (assoc c _); eauto. destruct (find _ _) as [[[? ?] k]|]; eauto.
  destruct (assoc k _); eauto.
Qed.
End Table.
