(** Codes that are both offered and shown. *)
From Coq Require Import Permutation.
From Verif Require Import Model.Base Model.Double Model.Macro Model.NCText Model.MacrosDesc Model.Server.
From Verif Require Import Spec.Text Spec.DescSpec Spec.ServerSpec Spec.HoverSpec Spec.LensSpec Spec.CompletionSpec.
From Verif Require Import Proofs.Tactics Proofs.ServerProofs Proofs.DescProofs Proofs.LensProofs.
Local Open Scope string_scope. Local Open Scope list_scope. Local Open Scope Z_scope.

Lemma says_assoc f n o : assoc n (entries f) = o -> says_of f n o.
Proof.
  intro H. destruct o as [td|]; cbn.
  - apply assoc_first in H. exact H.
  - intros td. exact (proj1 (assoc_none _ _) H td).
Qed.

(** A plain name is no other plain name with a zero in front. *)
Lemma plain_zero n m : plain_name n -> plain_name m -> n <> String "0" m.
Proof.
  intros (ds & f & E & N & A & F & Z) (ds' & f' & E' & N' & A' & F' & Z') Q. apply Z in Q. rewrite E' in Q.
  destruct ds'; [congruence|discriminate].
Qed.

Lemma not_own_zero (n : string) : n <> String "0" n.
Proof. intro H. apply (f_equal String.length) in H. cbn in H. lia. Qed.

(** The table for a name and for the name with a zero in front. *)
Definition faithful (es : list (string * (string * string))) (m : desc_data) : Prop :=
  forall n, plain_name n -> assoc n m = assoc n es /\ (add_synonym n = true -> assoc (String "0" n) m = assoc n es).

Lemma title_faithful es m code td : plain_name code -> faithful es m ->
  faithful (es ++ [(code, td)]) (codes_title (add_synonym code) code m td).
Proof.
  intros P H n Pn. destruct (H n Pn) as [A B]. destruct (H code P) as [Ac Bc].
  assert (AE : forall k, assoc k (es ++ [(code, td)]) = match assoc k es with Some x => Some x | None => if String.eqb k code then Some td else None end).
  { intro k. rewrite assoc_app. now destruct (assoc k es). }
  rewrite AE. unfold codes_title. rewrite (assoc_emplace m code td code), String.eqb_refl.
  destruct (add_synonym code) eqn:S.
  - specialize (Bc eq_refl).
    set (x := match assoc code m with Some x => Some x | None => Some td end).
    assert (X : exists y, x = Some y) by (unfold x; destruct (assoc code m); eauto). destruct X as [y Ey].
    rewrite Ey. unfold x in Ey. change ("0" ++ code)%string with (String "0" code).
    rewrite !assoc_emplace. rewrite A. split.
    + destruct (assoc n es); auto. destruct (String.eqb n code); auto.
      destruct (String.eqb_spec n (String "0" code)) as [Q|]; auto. now apply plain_zero in Q.
    + intro Sn. rewrite (B Sn). destruct (assoc n es) eqn:En; auto.
      destruct (String.eqb_spec (String "0" n) code) as [Q|_]; [symmetry in Q; now apply plain_zero in Q|].
      destruct (String.eqb_spec n code) as [->|N].
      * rewrite String.eqb_refl. rewrite Ac, En in Ey. now symmetry.
      * destruct (String.eqb_spec (String "0" n) (String "0" code)) as [Q|]; auto. congruence.
  - rewrite !assoc_emplace, A. split; auto. intro Sn. rewrite (B Sn). destruct (assoc n es); auto.
    destruct (String.eqb_spec (String "0" n) code) as [Q|_]; [symmetry in Q; now apply plain_zero in Q|].
    destruct (String.eqb_spec n code) as [->|]; auto. congruence.
Qed.

Lemma titles_faithful code tds : plain_name code -> forall es m, faithful es m ->
  faithful (es ++ map (fun td => (code, td)) tds) (fold_left (codes_title (add_synonym code) code) tds m).
Proof.
  intro P. induction tds as [|td tds IH]; intros es m H; cbn; [now rewrite app_nil_r|].
  change ((code, td) :: map (fun td => (code, td)) tds) with ([(code, td)] ++ map (fun td => (code, td)) tds).
  rewrite app_assoc. apply IH. now apply title_faithful.
Qed.

(** The codes of a table are its names, and those with a zero in front. *)
Definition listed (names : list string) (l : list string) : Prop :=
  forall c, In c l <-> exists n, In n names /\ (c = n \/ (add_synonym n = true /\ c = String "0" n)).

Lemma codes_faithful f : Forall plain_name (map fst f) ->
  faithful (entries f) (co_data (codes_read f)) /\ listed (map fst f) (co_codes (codes_read f)).
Proof.
  unfold codes_read.
  assert (K : forall f' names es c, Forall plain_name (map fst f') -> faithful es (co_data c) -> listed names (co_codes c) ->
    faithful (es ++ entries f') (co_data (fold_left codes_entry f' c)) /\ listed (names ++ map fst f') (co_codes (fold_left codes_entry f' c))).
  { induction f' as [|[code tds] f' IH]; intros names es c P H L; cbn [fold_left map fst entries flat_map].
    - rewrite !app_nil_r. auto.
    - cbn in P. inv P. rewrite app_assoc.
      assert (N : names ++ code :: map fst f' = (names ++ [code]) ++ map fst f') by now rewrite <- app_assoc.
      rewrite N. apply IH; auto.
      + cbn. now apply titles_faithful.
      + cbn [codes_entry co_codes]. intro x. rewrite in_app_iff, (L x). split.
        * intros [(n & I & Q)|[<-|I]]; [exists n; rewrite in_app_iff; auto| |].
          -- exists code. rewrite in_app_iff. cbn. auto.
          -- destruct (add_synonym code) eqn:S; [|contradiction]. destruct I as [<-|[]]. exists code. rewrite in_app_iff. cbn. auto.
        * intros (n & I & Q). rewrite in_app_iff in I. destruct I as [I|[<-|[]]]; [left; eauto|right].
          destruct Q as [->|[S ->]]; [left; auto|]. right. rewrite S. left. auto. }
  intro P. apply (K f [] [] (mkCodes [] [])); auto.
  - intros n _. split; reflexivity.
  - intro c. cbn. split; [contradiction|]. intros (n & [] & _).
Qed.

(** What is asked for when the pointer is on an offered code. *)
Lemma listed_key n c : plain_name n -> c = n \/ (add_synonym n = true /\ c = String "0" n) -> stripped c n.
Proof.
  intros (ds & f & E & N & A & F & Z) [->|[_ ->]].
  - exists "". repeat split; auto. rewrite E. destruct ds; [congruence|discriminate].
  - exists "0". repeat split; auto. rewrite E. destruct ds; [congruence|discriminate].
Qed.

Lemma listed_word n c l suf : plain_name n -> c = n \/ (add_synonym n = true /\ c = String "0" n) ->
  code_letter l -> number_stops suf -> code_word (String l c) suf l c.
Proof.
  intros (ds & f & E & N & A & F & Z) C L S.
  assert (FS : fraction_stop f suf).
  { destruct F as [->|(d & D & ->)]; [left|right; right; eauto]. split; auto. }
  destruct C as [->|[_ ->]].
  - exists ds, f. rewrite E. repeat split; auto.
  - exists (String "0" ds), f. rewrite E. repeat split; auto; discriminate.
Qed.

Section Items.
Variable env : server_env.

(** What is shown for an offered item. *)
Lemma item_reply gc mc p0 ds v p outs d d' l r ra v1 p1 v2 p2 :
  env_gcodes env = Ok gc -> env_mcodes env = Ok mc ->
  handle_all env (server_init, p0) ds = Ok (v, p, outs) ->
  method d "textDocument/completion" -> handle env (v, p) d = Ok (v1, p1, [r]) ->
  method d' "completionItem/resolve" -> at_path d' ["params"; "label"] = Some (JStr l) ->
  handle env (v1, p1) d' = Ok (v2, p2, [ra]) ->
  forall c, (l = String "G" c -> item_shown ra l (assoc c (co_data gc))) /\ (l = String "M" c -> item_shown ra l (assoc c (co_data mc))).
Proof.
  intros Eg Em H M Hd M' Lb Hd' c.
  destruct (all_good env ds _ _ _ _ _ H (good_init env)) as (GS & _).
  assert (T : sv_gcodes v1 = Some gc /\ sv_mcodes v1 = Some mc).
  { apply handle_step in Hd. inv Hd; try (match goal with X : method d ?k |- _ => pose proof (method_fun _ _ _ X M); discriminate end).
    - match goal with X : fetch_gcodes _ _ = _, Y : fetch_mcodes _ _ = _ |- _ => rename X into H3x, Y into H5x end. pose proof (fetch_gcodes_sound _ _ _ (proj1 GS) H3x) as S1. pose proof (fetch_mcodes_sound _ _ _ S1 H5x) as (A & B & _).
      pose proof (fetch_gcodes_grown _ _ _ H3x) as [_ N1]. pose proof (fetch_mcodes_grown _ _ _ H5x) as [(_ & _ & _ & _ & Q & _) N2]. specialize (Q N1).
      split.
      + destruct (sv_gcodes v1) as [x|]; [|congruence]. rewrite (A x eq_refl) in Eg. congruence.
      + destruct (sv_mcodes v1) as [x|]; [|congruence]. rewrite (B x eq_refl) in Em. congruence. }
  destruct T as [Tg Tm].
  apply handle_step in Hd'. inv Hd'; try (match goal with X : method d' ?k |- _ => pose proof (method_fun _ _ _ X M'); discriminate end).
  match goal with X : resolve_item _ _ _ = _ |- _ => rename X into HR end. unfold resolve_item in HR. apply bind_ok in HR as (ji & _ & HR). apply bind_ok in HR as (id & _ & HR). apply bind_ok in HR as (ps & Ep & HR).
  apply at_path_cons in Lb as (params & G1 & Lb). apply at_path_one in Lb. apply get_member in G1. rewrite G1 in Ep. injection Ep as <-.
  apply bind_ok in HR as (lab & El & HR). rewrite Lb in El. injection El as <-.
  apply bind_ok in HR as (f1 & E1 & HR). apply bind_ok in HR as (f2 & E2 & HR). apply bind_ok in HR as (f3 & E3 & HR).
  apply bind_ok in HR as (l' & El & HR). injection El as <-. apply bind_ok in HR as (td & Etd & HR). injection HR as <-.
  assert (CP : forall k f, copied params k = Ok f -> f = [] \/ exists x, f = [(k, x)]).
  { intros k f Q. unfold copied in Q. apply bind_ok in Q as ([x|] & _ & Q); inv Q; eauto. }
  assert (DE : forall s, dec_or_empty s = item_text s) by (intros [|]; reflexivity).
  split; intros ->.
  - cbn in Etd. rewrite Tg in Etd. cbn in Etd.
    assert (TD : td = match assoc c (co_data gc) with Some x => x | None => ("", "") end) by (destruct (assoc c (co_data gc)); congruence).
    unfold item_shown. split; [reflexivity|].
    destruct (assoc c (co_data gc)) as [x|]; subst td; rewrite <- ?DE;
      destruct (CP _ _ E1) as [-> |(x1 & ->)], (CP _ _ E2) as [-> |(x2 & ->)], (CP _ _ E3) as [-> |(x3 & ->)]; split; reflexivity.
  - cbn in Etd. rewrite Tm in Etd. cbn in Etd.
    assert (TD : td = match assoc c (co_data mc) with Some x => x | None => ("", "") end) by (destruct (assoc c (co_data mc)); congruence).
    unfold item_shown. split; [reflexivity|].
    destruct (assoc c (co_data mc)) as [x|]; subst td; rewrite <- ?DE;
      destruct (CP _ _ E1) as [-> |(x1 & ->)], (CP _ _ E2) as [-> |(x2 & ->)], (CP _ _ E3) as [-> |(x3 & ->)]; split; reflexivity.
Qed.

(** Which labels are offered. *)
Lemma offered_codes gc mc p0 ds v p outs d v1 p1 r ls a c :
  env_gcodes env = Ok gc -> env_mcodes env = Ok mc ->
  handle_all env (server_init, p0) ds = Ok (v, p, outs) ->
  method d "textDocument/completion" -> handle env (v, p) d = Ok (v1, p1, [r]) -> items r ls -> In (String a c) ls ->
  a = "G"%char \/ a = "M"%char ->
  (a = "G"%char /\ In c (co_codes gc)) \/ (a = "M"%char /\ In c (co_codes mc)).
Proof.
  intros Eg Em H M Hd I In' A.
  destruct (all_good env ds _ _ _ _ _ H (good_init env)) as (GS & _).
  destruct (completion_reply env v p d v1 p1 [r] gc mc GS Eg Em M Hd) as (r' & ls' & E & I' & P). injection E as <-.
  assert (ls' = ls).
  { destruct I as (js & R & L & Q), I' as (js' & R' & L' & Q'). rewrite R in R'. injection R' as <-.
    assert (LL : List.length ls' = List.length ls) by lia. clear -Q Q' LL.
    apply (nth_ext _ _ "" "" LL). intros i Hi.
    destruct (nth_error ls' i) as [x|] eqn:X; [|apply nth_error_None in X; lia].
    destruct (nth_error ls i) as [y|] eqn:Y; [|apply nth_error_None in Y; lia].
    rewrite (nth_error_nth _ _ _ X), (nth_error_nth _ _ _ Y).
    destruct (Q _ _ Y) as (j & J & B & _), (Q' _ _ X) as (j' & J' & B' & _). congruence. }
  subst ls'. apply (Permutation_in _ P) in In'. rewrite !in_app_iff in In'.
  assert (PF : forall b (x : list string), In (String a c) (prefixed (String b "") x) -> a = b /\ In c x).
  { intros b x Q. unfold prefixed in Q. apply in_map_iff in Q as (y & E & Q). injection E as <- <-. auto. }
  destruct In' as [Q|[Q|Q]].
  - apply PF in Q as [-> Q]. auto.
  - apply PF in Q as [-> Q]. auto.
  - exfalso. destruct (sv_macros v); [|contradiction]. destruct (env_macros env) as [[? [?|]]|]; try contradiction.
    apply PF in Q as [-> _]. destruct A; discriminate.
Qed.
End Items.

(** A test for names. *)
Fixpoint name_digits (s : string) : string * string :=
  match s with
  | String c r => if is_digit c then let '(d, f) := name_digits r in (String c d, f) else ("", s)
  | "" => ("", "")
  end.
Definition plain_nameb (n : string) : bool :=
  let '(ds, f) := name_digits n in
  negb (String.eqb ds "") &&
  match f with "" => true | String c (String d "") => Ascii.eqb c "." && is_digit d | _ => false end &&
  match n with String c (String _ _) => negb (Ascii.eqb c "0") | _ => true end.

Lemma name_digits_spec s : forall d f, name_digits s = (d, f) -> s = (d ++ f)%string /\ all_chars is_digit d = true.
Proof.
  induction s as [|c s IH]; cbn; intros d f E; [inv E; auto|]. destruct (is_digit c) eqn:D.
  - destruct (name_digits s) as [d0 f0]. inv E. destruct (IH _ _ eq_refl) as [-> A]. split; [reflexivity|]. cbn. rewrite D. exact A.
  - inv E. auto.
Qed.

Lemma plain_nameb_spec n : plain_nameb n = true -> plain_name n.
Proof.
  unfold plain_nameb. destruct (name_digits n) as [ds f] eqn:E. apply name_digits_spec in E as [E A].
  rewrite !Bool.andb_true_iff. intros [[N F] Z]. exists ds, f. split; auto. split.
  { intros ->. discriminate N. } split; auto. split.
  - destruct f as [|c [|d [|? ?]]]; try discriminate F; auto. right. apply andb_prop in F as [C D].
    apply Ascii.eqb_eq in C as ->. eauto.
  - intros r ->. destruct r; auto. discriminate Z.
Qed.

Lemma plain_names_spec l : forallb plain_nameb l = true -> Forall plain_name l.
Proof. rewrite forallb_forall, Forall_forall. intros H x I. apply plain_nameb_spec. auto. Qed.
