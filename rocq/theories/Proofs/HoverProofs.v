(** Text searches of hover, and requests that succeed: proofs. *)
From Verif Require Import Model.Base Model.Double Model.Macro Model.NCText Model.MacrosDesc Model.Server.
From Verif Require Import Spec.Text Spec.NCTextSpec Spec.DescSpec Spec.ServerSpec Spec.HoverSpec.
From Verif Require Import Proofs.Tactics Proofs.TextProofs Proofs.StringFacts Proofs.FramingProofs Proofs.DescProofs Proofs.NCTextProofs Proofs.ServerProofs.

Lemma substring_app a b : substring 0 (String.length a) (a ++ b) = a.
Proof. induction a as [|c a IH]; cbn; [now destruct b|now rewrite IH]. Qed.

Lemma substring_all a : substring 0 (String.length a) a = a.
Proof. rewrite <- (string_app_nil a) at 2. apply substring_app. Qed.

Lemma tail_1 c s : tail_from 1 (String c s) = s.
Proof. unfold tail_from. cbn. rewrite Nat.sub_0_r. apply substring_all. Qed.
Lemma tail_2 c d s : tail_from 2 (String c (String d s)) = s.
Proof. unfold tail_from. cbn. rewrite Nat.sub_0_r. apply substring_all. Qed.

(** ** The expressions *)

Lemma match_macro_iff s n : match_macro s = Some n <->
  exists ds r, s = "#" ++ ds ++ r /\ n = S (String.length ds) /\ ds <> "" /\ all_chars is_digit ds = true /\ no_digit r.
Proof.
  unfold match_macro. destruct s as [|c s]; [split; [discriminate|intros (? & ? & H & _); discriminate]|].
  destruct (Ascii.eqb_spec c "#") as [->|N].
  - destruct (some_digits s) as [[ds r]|] eqn:E; cbn [option_map fst].
    + apply some_digits_iff in E as (-> & A & B & C). split.
      * intro H. inv H. exists ds, r. repeat split; auto.
      * intros (ds' & r' & H & -> & A' & B' & C'). inv H.
        assert (K : some_digits (ds ++ r) = Some (ds', r')) by (apply some_digits_iff; auto).
        rewrite (proj2 (some_digits_iff (ds ++ r) ds r)) in K by auto. congruence.
    + split; [discriminate|]. intros (ds' & r' & H & -> & A' & B' & C'). inv H.
      rewrite (proj2 (some_digits_iff (ds' ++ r') ds' r')) in E by auto. discriminate.
  - split; [discriminate|]. intros (? & ? & H & _). inv H. congruence.
Qed.

Lemma match_code_macro_iff s n : match_code_macro s = Some n <->
  exists c ds r, s = String c ("#" ++ ds ++ r) /\ is_gm c = true /\ n = S (S (String.length ds)) /\ ds <> "" /\ all_chars is_digit ds = true /\ no_digit r.
Proof.
  unfold match_code_macro. destruct s as [|c s]; [split; [discriminate|intros (? & ? & ? & H & _); discriminate]|].
  destruct (is_gm c) eqn:G; cbn; [|split; [discriminate|intros (? & ? & ? & H & ? & _); congruence]].
  destruct (match_macro s) as [k|] eqn:E; cbn.
  - apply match_macro_iff in E as (ds & r & -> & -> & A & B & C). split.
    + intro H. inv H. exists c, ds, r. repeat split; auto.
    + intros (c' & ds' & r' & H & G' & -> & A' & B' & C'). inv H.
      assert (K : match_macro ("#" ++ ds ++ r) = Some (S (String.length ds))) by (apply match_macro_iff; eauto 10).
      assert (K' : match_macro ("#" ++ ds ++ r) = Some (S (String.length ds'))) by (apply match_macro_iff; cbn; rewrite H2; eauto 10).
      congruence.
  - split; [discriminate|]. intros (c' & ds' & r' & H & G' & -> & A' & B' & C'). inv H.
    assert (K' : match_macro ("#" ++ ds' ++ r') = Some (S (String.length ds'))) by (apply match_macro_iff; eauto 10).
    cbn in *. congruence.
Qed.

Lemma match_code_iff s n : match_code s = Some n <->
  exists c ds f r, s = String c (ds ++ f ++ r) /\ is_gm c = true /\ ds <> "" /\ all_chars is_digit ds = true /\
    fraction_stop f r /\ n = String.length (String c (ds ++ f)).
Proof.
  assert (ONE : forall c ds f r, is_gm c = true -> ds <> "" -> all_chars is_digit ds = true -> fraction_stop f r ->
            match_code (String c (ds ++ f ++ r)) = Some (String.length (String c (ds ++ f)))).
  { intros c ds f r G A B F. unfold match_code. rewrite G.
    rewrite (proj2 (some_digits_iff (ds ++ f ++ r) ds (f ++ r))).
    2:{ repeat split; auto. intros x y E. destruct F as [[-> F]|[[-> F]|(d & F & ->)]]; cbn in E; [|inv E; auto..].
        subst r. apply F. }
    cbn [String.length]. rewrite string_app_length. destruct F as [[-> F]|[[-> F]|(d & F & ->)]]; cbn [append String.length].
    - destruct r as [|x r]; cbn [append]; [f_equal; lia|]. destruct F as [F1 F2].
      destruct (Ascii.eqb_spec x "."); [congruence|]. rewrite F1. f_equal. lia.
    - cbn. destruct r as [|x r]; [f_equal; lia|]. rewrite (F x r eq_refl). f_equal. lia.
    - cbn. rewrite F. f_equal. lia. }
  split; [|intros (c & ds & f & r & -> & G & A & B & F & ->); now apply ONE].
  intro H. pose proof H as H'. unfold match_code in H'. destruct s as [|c s]; [discriminate|].
  destruct (is_gm c) eqn:G; [|discriminate]. destruct (some_digits s) as [[ds r]|] eqn:E; [|discriminate]. clear H'.
  apply some_digits_iff in E as (-> & A & B & C).
  assert (K : exists f r', r = f ++ r' /\ fraction_stop f r').
  { unfold fraction_stop. destruct r as [|x r]; [exists "", ""; auto|]. destruct (Ascii.eqb_spec x ".") as [->|N].
    - destruct r as [|y r]; [exists ".", ""; split; auto; right; left; split; auto; intros ? ? Q; discriminate|].
      destruct (is_digit y) eqn:Y.
      + exists (String "." (String y "")), r. split; auto. right. right. eauto.
      + exists ".", (String y r). split; auto. right. left. split; auto. intros ? ? Q. inv Q. auto.
    - exists "", (String x r). split; auto. left. split; auto. split; auto. now apply (C x r). }
  destruct K as (f & r' & -> & F). rewrite (ONE c ds f r' G A B F) in H. inv H. exists c, ds, f, r'. auto 10.
Qed.

(** ** The search *)

Lemma search_pattern_some m ch : (forall s n, m s = Some n -> exists w r, s = w ++ r /\ n = String.length w /\ w <> "") ->
  forall s k pos w f t, search_pattern m ch k pos s = Some (w, f, t) ->
  exists pre suf, s = pre ++ w ++ suf /\ m (w ++ suf) = Some (String.length w) /\
    f = pos + Z.of_nat (String.length pre) /\ t = f + Z.of_nat (String.length w) /\ f <= ch < t.
Proof.
  intro M. induction s as [|c s IH]; intros k pos w f t H; [discriminate|]. cbn in H.
  assert (REC : forall k', search_pattern m ch k' (pos + 1) s = Some (w, f, t) ->
     exists pre suf, String c s = pre ++ w ++ suf /\ m (w ++ suf) = Some (String.length w) /\
       f = pos + Z.of_nat (String.length pre) /\ t = f + Z.of_nat (String.length w) /\ f <= ch < t).
  { intros k' Q. destruct (IH _ _ _ _ _ Q) as (pre & suf & -> & A & B & C & D). exists (String c pre), suf.
    cbn [String.length append]. repeat split; auto; lia. }
  destruct k as [|k]; [|eauto]. destruct (m (String c s)) as [n|] eqn:E; [|eauto].
  destruct ((pos <=? ch) && (ch <? pos + Z.of_nat n)) eqn:T; [|eauto].
  injection H as <- <- <-. destruct (M _ _ E) as (w & r & Q & -> & N). 
  assert (W : match String.length w with 0%nat => "" | S m' => String c (substring 0 m' s) end = w).
  { change (substring 0 (String.length w) (String c s) = w). rewrite Q. apply substring_app. }
  rewrite W. exists "", r. cbn [append String.length]. rewrite <- Q. repeat split; auto; lia.
Qed.

Lemma same_triple (w : string) (a b c d : Z) : a = c -> b = d -> Some (w, a, b) = Some (w, c, d).
Proof. now intros -> ->. Qed.

(** A match that starts at [pre] and is never inside another match is found. *)
Lemma search_pattern_at m ch (starts : ascii -> bool) :
  (forall s n, m s = Some n -> exists c w r, s = String c w ++ r /\ n = S (String.length w) /\ starts c = true /\ all_chars (fun x => negb (starts x)) w = true) ->
  forall pre w suf k pos, m (w ++ suf) = Some (String.length w) ->
  match w with String c _ => starts c = true | "" => False end ->
  (k <= String.length pre)%nat ->
  (k <= String.length (fst (span (fun x => negb (starts x)) (pre ++ w ++ suf))))%nat ->
  pos + Z.of_nat (String.length pre) <= ch < pos + Z.of_nat (String.length pre) + Z.of_nat (String.length w) ->
  search_pattern m ch k pos (pre ++ w ++ suf) =
    Some (w, pos + Z.of_nat (String.length pre), pos + Z.of_nat (String.length pre) + Z.of_nat (String.length w)).
Proof.
  intros M pre w suf. induction pre as [|c pre IH]; intros k pos E St L K B.
  - cbn [append String.length] in *. assert (k = 0)%nat by lia. subst k. clear L K. rewrite !Z.add_0_r in *.
    destruct w as [|x w]; [contradiction|]. cbn [append] in E |- *. cbn [search_pattern]. rewrite E.
    replace ((pos <=? ch) && _) with true by lia. repeat f_equal.
    exact (substring_app (String x w) suf).
  - cbn [append String.length] in *. cbn [search_pattern]. 
    destruct k as [|k].
    + destruct (m (String c (pre ++ w ++ suf))) as [n|] eqn:F.
      * destruct (M _ _ F) as (y & v & r & Q & -> & Sy & Av). cbn in Q. injection Q as -> Q.
        assert (V : (String.length v <= String.length pre)%nat).
        { destruct (Nat.le_gt_cases (String.length v) (String.length pre)) as [|G]; auto. exfalso.
          destruct w as [|x w]; [contradiction|]. clear -Q Av G St. revert pre Q G. induction v as [|a v IHv]; intros pre Q G; cbn in G; [lia|].
          cbn in Av. apply andb_true_iff in Av as [A1 A2]. destruct pre as [|b pre]; cbn in Q; injection Q as -> Q.
          - rewrite St in A1. discriminate.
          - cbn in G. eapply IHv; eauto. lia. }
        replace ((pos <=? ch) && (ch <? pos + Z.of_nat (S (String.length v)))) with false by lia.
        cbn [pred]. rewrite (IH _ (pos + 1) E St); [apply same_triple; lia|lia| |lia].
        rewrite Q. clear -Av. induction v as [|a v IHv]; cbn; [lia|]. cbn in Av. apply andb_true_iff in Av as [-> A2].
        specialize (IHv A2). destruct (span _ (v ++ r)). cbn in *. lia.
      * rewrite (IH _ (pos + 1) E St); [apply same_triple; lia|lia|lia|lia].
    + rewrite (IH _ (pos + 1) E St); [apply same_triple; lia|lia| |lia].
      cbn in K. destruct (negb (starts c)); [|cbn in K; lia]. destruct (span _ (pre ++ w ++ suf)). cbn in *. lia.
Qed.

Lemma search_pattern_none m ch : forall s k pos,
  (forall pre w suf, s = pre ++ w ++ suf -> m (w ++ suf) = Some (String.length w) ->
     ~ (pos + Z.of_nat (String.length pre) <= ch < pos + Z.of_nat (String.length pre) + Z.of_nat (String.length w))) ->
  (forall s n, m s = Some n -> exists w r, s = w ++ r /\ n = String.length w /\ w <> "") ->
  search_pattern m ch k pos s = None.
Proof.
  intros s k pos H M. destruct (search_pattern m ch k pos s) as [[[w f] t]|] eqn:E; auto. exfalso.
  destruct (search_pattern_some m ch M s k pos w f t E) as (pre & suf & Q & A & B & C & D).
  apply (H pre w suf Q A). lia.
Qed.

Lemma match_macro_word s n : match_macro s = Some n -> exists w r, s = w ++ r /\ n = String.length w /\ w <> "".
Proof. intro H. apply match_macro_iff in H as (ds & r & -> & -> & _). exists ("#" ++ ds), r. repeat split; discriminate. Qed.
Lemma match_code_macro_word s n : match_code_macro s = Some n -> exists w r, s = w ++ r /\ n = String.length w /\ w <> "".
Proof. intro H. apply match_code_macro_iff in H as (c & ds & r & -> & _ & -> & _). exists (String c ("#" ++ ds)), r. repeat split; discriminate. Qed.
Lemma match_code_word s n : match_code s = Some n -> exists w r, s = w ++ r /\ n = String.length w /\ w <> "".
Proof.
  intro H. apply match_code_iff in H as (c & ds & f & r & -> & _ & _ & _ & _ & ->). exists (String c (ds ++ f)), r.
  cbn. rewrite string_app_assoc. repeat split; discriminate.
Qed.

Lemma digit_no_gm x : is_digit x = true -> negb (is_gm x) = true.
Proof.
  unfold is_gm. intro H. destruct (Ascii.eqb_spec x "G") as [->|]; [discriminate|].
  destruct (Ascii.eqb_spec x "g") as [->|]; [discriminate|]. destruct (Ascii.eqb_spec x "M") as [->|]; [discriminate|].
  destruct (Ascii.eqb_spec x "m") as [->|]; [discriminate|]. reflexivity.
Qed.
Lemma digit_no_hash x : is_digit x = true -> negb (Ascii.eqb x "#") = true.
Proof. intro H. destruct (Ascii.eqb_spec x "#") as [->|]; [discriminate|reflexivity]. Qed.

Lemma all_chars_impl (p q : ascii -> bool) s : (forall c, p c = true -> q c = true) -> all_chars p s = true -> all_chars q s = true.
Proof. intro H. induction s as [|c s IH]; cbn; auto. rewrite !andb_true_iff. intuition. Qed.

Lemma match_code_starts s n : match_code s = Some n ->
  exists c w r, s = String c w ++ r /\ n = S (String.length w) /\ is_gm c = true /\ all_chars (fun x => negb (is_gm x)) w = true.
Proof.
  intro H. apply match_code_iff in H as (c & ds & f & r & -> & G & _ & B & F & ->). exists c, (ds ++ f), r.
  cbn. rewrite string_app_assoc. repeat split; auto. rewrite all_chars_app. apply andb_true_iff. split.
  - eapply all_chars_impl; [|exact B]. apply digit_no_gm.
  - destruct F as [[-> _]|[[-> _]|(d & F & ->)]]; cbn; auto. now rewrite (digit_no_gm d F).
Qed.
Lemma match_macro_starts s n : match_macro s = Some n ->
  exists c w r, s = String c w ++ r /\ n = S (String.length w) /\ Ascii.eqb c "#" = true /\ all_chars (fun x => negb (Ascii.eqb x "#")) w = true.
Proof.
  intro H. apply match_macro_iff in H as (ds & r & -> & -> & _ & B & _). exists "#"%char, ds, r. repeat split; auto.
  eapply all_chars_impl; [|exact B]. apply digit_no_hash.
Qed.
Lemma match_code_macro_starts s n : match_code_macro s = Some n ->
  exists c w r, s = String c w ++ r /\ n = S (String.length w) /\ is_gm c = true /\ all_chars (fun x => negb (is_gm x)) w = true.
Proof.
  intro H. apply match_code_macro_iff in H as (c & ds & r & -> & G & -> & _ & B & _). exists c, ("#" ++ ds), r. repeat split; auto.
  cbn. eapply all_chars_impl; [|exact B]. apply digit_no_gm.
Qed.

Lemma extract_code_denotes s n : denotes s n -> denotes (extract_code s) n.
Proof.
  revert n. induction s as [|c s IH]; intros n D; auto.
  destruct s as [|d s]; auto. change (extract_code (String c (String d s))) with (if Ascii.eqb c "0" then extract_code (String d s) else String c (String d s)).
  destruct (Ascii.eqb_spec c "0") as [->|]; auto. apply IH. destruct D as (_ & A & V). repeat split; [discriminate| |].
  - cbn in A. exact A.
  - rewrite <- V. reflexivity.
Qed.

Lemma get_desc_total lg md c n : denotes c n -> n <= int_max -> exists td, get_desc lg md c = Ok td.
Proof.
  intros D L. unfold get_desc. rewrite (stoi_ok _ _ D L). destruct (assoc c _); eauto. destruct (find _ _) as [[[? ?] k]|]; eauto.
  destruct (assoc k _); eauto.
Qed.

(** ** Requests that succeed *)

Lemma line_in_text t l : In l (content_lines t) -> exists p q, t = p ++ l ++ q.
Proof.
  intro I. destruct (content_segments t) as [_ [E|(init & last & E & _ & T)]].
  - rewrite E. clear E. induction (content_lines t) as [|x ls IH]; [destruct I|]. cbn. destruct I as [->|I].
    + eexists "", _. cbn. rewrite string_app_assoc. reflexivity.
    + destruct (IH I) as (p & q & ->). exists ((x ++ String lf "") ++ p), q. now rewrite !string_app_assoc.
  - rewrite E in I. rewrite T. clear T E. apply in_app_iff in I as [I|[->|[]]].
    + induction init as [|x ls IH]; [destruct I|]. cbn. destruct I as [->|I].
      * eexists "", _. cbn. rewrite !string_app_assoc. reflexivity.
      * destruct (IH I) as (p & q & E). exists ((x ++ String lf "") ++ p), q. rewrite !string_app_assoc in *. now rewrite E.
    + eexists _, "". now rewrite string_app_nil.
Qed.

Lemma small_line t l : small_macros t -> In l (content_lines t) -> small_macros l.
Proof.
  intros S I. destruct (line_in_text t l I) as (p & q & ->). intros a ds b -> A. apply (S (p ++ a) ds (b ++ q)); auto.
  now rewrite !string_app_assoc.
Qed.

Section Handler.
Variable env : server_env.
Variables gc mc : codes.
Hypothesis GC : env_gcodes env = Ok gc.
Hypothesis MC : env_mcodes env = Ok mc.

Lemma fetch_gcodes_ok v : exists v', fetch_gcodes env v = Ok v'.
Proof. unfold fetch_gcodes. destruct (sv_gcodes v); eauto. rewrite GC. cbn. eauto. Qed.
Lemma fetch_mcodes_ok v : exists v', fetch_mcodes env v = Ok v'.
Proof. unfold fetch_mcodes. destruct (sv_mcodes v); eauto. rewrite MC. cbn. eauto. Qed.

(** Both tables. *)
Lemma fetch_both v : exists v1 v2, fetch_gcodes env v = Ok v1 /\ fetch_mcodes env v1 = Ok v2 /\ sv_gcodes v2 <> None /\ sv_mcodes v2 <> None.
Proof.
  destruct (fetch_gcodes_ok v) as [v1 E1]. destruct (fetch_mcodes_ok v1) as [v2 E2]. exists v1, v2. repeat split; auto.
  - apply fetch_gcodes_grown in E1 as [_ N]. apply fetch_mcodes_grown in E2 as [(_ & _ & _ & _ & A & _) _]. rewrite A; auto.
  - now apply fetch_mcodes_grown in E2 as [_ N].
Qed.

Lemma code_desc_ok c k : c <> None -> exists d, code_desc c k = Ok d.
Proof. destruct c; cbn; [eauto|congruence]. Qed.

Lemma hover_line_ok v text mm line ch : small_macros text -> (mm <> None -> sv_macros v <> None) ->
  exists v' r, hover_line env v text mm line ch = Ok (v', r).
Proof.
  intros SM0 MM. unfold hover_line. destruct (fetch_both v) as (v1 & v2 & E1 & E2 & N1 & N2).
  destruct (search_pattern match_code ch 0 0 text) as [[[w f] t]|].
  - rewrite E1. cbn [bind]. rewrite E2. cbn [bind]. unfold hover_code.
    destruct (code_desc_ok (if match w with String c _ => Ascii.eqb c "G" || Ascii.eqb c "g" | "" => false end then sv_gcodes v2 else sv_mcodes v2)
                (extract_code (tail_from 1 w))) as [dd ->]; [now destruct (match w with String _ _ => _ | "" => _ end)|]. cbn. eauto.
  - destruct mm as [[|m1 mm]|]; [eauto| |eauto].
    destruct (search_pattern match_code_macro ch 0 0 text) as [[[w f] t]|] eqn:E.
    + destruct (search_pattern_some _ _ match_code_macro_word _ _ _ _ _ _ E) as (pre & suf & -> & A & _).
      apply match_code_macro_iff in A as (c & ds & r & Q & G & L & A & B & C).
      assert (w = String c ("#" ++ ds)) as ->.
      { assert (K : w = substring 0 (String.length w) (w ++ suf)) by (now rewrite substring_app). rewrite Q, L in K.
        change (S (S (String.length ds))) with (String.length (String c ("#" ++ ds))) in K.
        change (String c ("#" ++ ds ++ r)) with ((String c ("#" ++ ds)) ++ r) in K. now rewrite substring_app in K. }
      unfold hover_code_macro. cbn [append]. rewrite tail_2.
      assert (D : denotes ds (digits_val ds)) by (repeat split; auto).
      rewrite (stoi_ok _ _ (extract_code_denotes _ _ D)).
      2:{ apply (SM0 (pre ++ String c "") ds suf); auto. rewrite !string_app_assoc. reflexivity. }
      cbn [bind]. destruct (macro_lookup _ _ _); [|eauto]. rewrite E1. cbn [bind]. rewrite E2. cbn [bind].
      match goal with |- context [code_desc ?a ?b] => destruct (code_desc_ok a b) as [dd ->] end; [now destruct (_ || _)|]. cbn. eauto.
    + destruct (search_pattern match_macro ch 0 0 text) as [[[w f] t]|] eqn:E'; [|eauto].
      destruct (search_pattern_some _ _ match_macro_word _ _ _ _ _ _ E') as (pre & suf & -> & A & _).
      apply match_macro_iff in A as (ds & r & Q & L & A & B & C).
      assert (w = "#" ++ ds) as ->.
      { assert (K : w = substring 0 (String.length w) (w ++ suf)) by (now rewrite substring_app). rewrite Q, L in K.
        change (S (String.length ds)) with (String.length ("#" ++ ds)) in K.
        change ("#" ++ ds ++ r) with (("#" ++ ds) ++ r) in K. now rewrite substring_app in K. }
      unfold hover_macro. cbn [append]. rewrite tail_1.
      assert (D : denotes ds (digits_val ds)) by (repeat split; auto).
      assert (SM : digits_val ds <= int_max) by (apply (SM0 pre ds suf); auto).
      rewrite (stoi_ok _ _ (extract_code_denotes _ _ D) SM). cbn [bind].
      destruct (sv_macros v) as [md|]; [|exfalso; apply MM; congruence].
      destruct (get_desc_total (env_logger env) md _ _ (extract_code_denotes _ _ D) SM) as [td ->]. cbn. eauto.
Qed.

Lemma get_int_at d id : get_int d = Ok id <-> d = JInt id /\ - 2 ^ 31 <= id < 2 ^ 31.
Proof.
  destruct d; cbn; try (split; [discriminate|intros [H _]; discriminate]).
  unfold is_int, int_min, int_max. destruct ((_ <=? n) && _) eqn:E; split.
  - intro H. inv H. split; auto. lia.
  - intros [H B]. inv H. auto.
  - discriminate.
  - intros [H B]. inv H. lia.
Qed.

Lemma request_answered v p d id (doc : string -> option string) : good_state env v -> int_at d ["id"] id ->
  (forall u, context_of env (doc u) (assoc u (sv_files v))) ->
  good_request (fun l => In l (sv_suggestions v)) doc d ->
  exists v' p' r, handle env (v, p) d = Ok (v', p', [r]).
Proof.
  intros G I C Q. pose proof (request_id_int _ _ I) as R.
  destruct I as [I B]. apply at_path_one in I. pose proof (proj2 (get_int_at (JInt id) id) (conj eq_refl B)) as GI.
  destruct Q as [m Hm M|l M L O|u line ch M U [Li Lb] [Ci Cb] Z S|u M U|line M [Li Lb]]; unfold method in M; apply at_path_one, get_member in M;
    unfold handle; rewrite R; cbn [bind]; rewrite M; cbn [bind get_string].
  - destruct Hm as [<-|[<-|[<-|[]]]]; cbn; eauto.
    destruct (fetch_both v) as (v1 & v2 & E1 & E2 & _). rewrite E1. cbn. rewrite E2. cbn. eauto.
  - cbn [String.eqb Ascii.eqb Bool.eqb]. cbn. unfold resolve_item. rewrite I. cbn [bind]. rewrite GI. cbn [bind].
    apply at_path_cons in L as (ps & G1 & L). apply at_path_one in L. rewrite (proj1 (get_member _ _ _) G1). cbn [bind].
    rewrite L. cbn [bind]. assert (MB : forall k, exists f, copied ps k = Ok f).
    { intro k. unfold copied. destruct ps; try discriminate. cbn. eauto. }
    destruct (MB "insertTextFormat") as [f1 ->]. destruct (MB "kind") as [f2 ->]. destruct (MB "data") as [f3 ->]. cbn [bind get_string].
    destruct (suggestions_ready env v l (proj1 G) O) as [(c & -> & N)|[(c & -> & N)|(c & md & -> & EM & N)]]; cbn.
    + destruct (code_desc_ok (sv_gcodes v) c N) as [dd ->]. cbn. eauto.
    + destruct (code_desc_ok (sv_mcodes v) c N) as [dd ->]. cbn. eauto.
    + rewrite EM. unfold get_desc. destruct (assoc c (md_data md)) as [td|]; [|congruence]. cbn. eauto.
  - cbn [String.eqb Ascii.eqb Bool.eqb]. cbn. unfold hover.
    apply at_path_cons in U as (ps & G1 & U). apply at_path_cons in U as (td & G2 & U). apply at_path_one in U.
    apply at_path_cons in Li as (ps' & G1' & Li). apply at_path_cons in Li as (po & G3 & Li). apply at_path_one in Li.
    apply at_path_cons in Ci as (ps'' & G1'' & Ci). apply at_path_cons in Ci as (po' & G3' & Ci). apply at_path_one in Ci.
    assert (ps' = ps) by congruence. assert (ps'' = ps) by congruence. subst ps' ps''. assert (po' = po) by congruence. subst po'.
    rewrite G1. cbn [bind]. rewrite G3. cbn [bind]. rewrite Li. cbn [bind]. rewrite (proj2 (get_int_at (JInt line) line) (conj eq_refl Lb)). cbn [bind].
    rewrite Ci. cbn [bind]. rewrite (proj2 (get_int_at (JInt ch) ch) (conj eq_refl Cb)). cbn [bind].
    rewrite G2. cbn [bind]. rewrite U. cbn [bind get_c_string get_string]. fold (hover_text v (c_str u) line).
    assert (K : small_macros (fst (hover_text v (c_str u) line)) /\ (snd (hover_text v (c_str u) line) <> None -> sv_macros v <> None)).
    { unfold hover_text. rewrite (c_str_plain u Z). specialize (C u). unfold context_of in C.
      assert (E0 : small_macros "") by (intros a ds b E _; destruct a; discriminate).
      destruct (assoc u (sv_files v)) as [fc|] eqn:A; cbn; [|split; [exact E0|congruence]].
      destruct ((line <? 0) || _) eqn:T; cbn; [split; [exact E0|congruence]|].
      destruct (doc u) as [t|] eqn:D; [|contradiction]. destruct C as [CL _]. split.
      - apply (small_line t); [apply S; auto|]. rewrite <- CL. apply nth_In. lia.
      - intros _. apply (proj2 G). intro X. rewrite X in A. discriminate. }
    destruct (hover_text v (c_str u) line) as [text mm]. cbn [fst snd] in K. destruct K as [K1 K2].
    rewrite I. cbn [bind]. rewrite GI. cbn [bind].
    destruct (hover_line_ok v text mm line ch K1 K2) as (v' & r & ->). cbn. eauto.
  - cbn [String.eqb Ascii.eqb Bool.eqb]. cbn. unfold code_lens.
    apply at_path_cons in U as (ps & G1 & U). apply at_path_cons in U as (td & G2 & U). apply at_path_one in U.
    rewrite G1. cbn [bind]. rewrite G2. cbn [bind]. rewrite U. cbn [bind get_c_string get_string].
    destruct (assoc (c_str u) (sv_files v)); rewrite I; cbn [bind]; rewrite GI; cbn; eauto.
  - cbn [String.eqb Ascii.eqb Bool.eqb]. cbn. unfold resolve_lens.
    apply at_path_cons in Li as (ps & G1 & Li). apply at_path_cons in Li as (ra & G2 & Li). apply at_path_cons in Li as (st & G3 & Li). apply at_path_one in Li.
    rewrite G1. cbn [bind]. rewrite G2. cbn [bind]. rewrite G3. cbn [bind]. rewrite Li. cbn [bind].
    rewrite (proj2 (get_int_at (JInt line) line) (conj eq_refl Lb)). cbn [bind]. rewrite I. cbn [bind]. rewrite GI. cbn. eauto.
Qed.
End Handler.
