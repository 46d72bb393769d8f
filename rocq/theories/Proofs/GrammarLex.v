(** Facts about the lexical parts of the line grammar. *)
From Verif Require Import Model.Base Model.Attr Model.Grammar Proofs.Tactics Proofs.TextProofs Proofs.StringFacts.

(** First character that is not a blank. *)
Definition hd (t : string) : option ascii := match skip t with String c _ => Some c | EmptyString => None end.

Lemma span_spec p s : let '(a, b) := span p s in s = (a ++ b)%string /\ all_chars p a = true /\
  match b with String c _ => p c = false | EmptyString => True end.
Proof.
  induction s as [|c s IH]; cbn; [auto|]. destruct (p c) eqn:E.
  - destruct (span p s) as [a b]. destruct IH as (-> & A & B). cbn. rewrite E. auto.
  - cbn. rewrite E. auto.
Qed.

Lemma span_app p a b : all_chars p a = true -> match b with String c _ => p c = false | EmptyString => True end ->
  span p (a ++ b) = (a, b).
Proof.
  induction a as [|c a IH]; cbn; intros A B; [now apply span_none|].
  apply andb_true_iff in A as [-> A]. now rewrite IH.
Qed.

Lemma skip_spec t : exists b, t = (b ++ skip t)%string /\ all_chars is_blank b = true /\
  match skip t with String c _ => is_blank c = false | EmptyString => True end.
Proof. unfold skip. pose proof (span_spec is_blank t) as H. destruct (span is_blank t) as [a b]. exists a. cbn. tauto. Qed.

Lemma skip_none t : match t with String c _ => is_blank c = false | EmptyString => True end -> skip t = t.
Proof. intro H. unfold skip. now rewrite span_none. Qed.

Lemma skip_skip t : skip (skip t) = skip t.
Proof. destruct (skip_spec t) as (b & _ & _ & H). now apply skip_none. Qed.

Lemma skip_length t : (String.length (skip t) <= String.length t)%nat.
Proof. destruct (skip_spec t) as (b & E & _). rewrite E at 2. rewrite string_app_length. lia. Qed.

Lemma skip_blank c t : is_blank c = true -> skip (String c t) = skip t.
Proof. intro H. unfold skip. cbn. rewrite H. destruct (span is_blank t). reflexivity. Qed.

Lemma hd_skip t : hd (skip t) = hd t.
Proof. unfold hd. now rewrite skip_skip. Qed.

Lemma prefix_app a b : prefix a (a ++ b) = true.
Proof. induction a as [|c a IH]; cbn; [now destruct b|]. destruct (ascii_dec c c); [exact IH|contradiction]. Qed.

Lemma prefix_iff a t : prefix a t = true <-> exists b, t = (a ++ b)%string.
Proof.
  split; [|intros (b & ->); apply prefix_app]. revert t. induction a as [|c a IH]; intros t H; [exists t; reflexivity|].
  destruct t as [|d t]; [discriminate H|]. cbn in H. destruct (ascii_dec c d); [|discriminate H]. subst.
  destruct (IH _ H) as (b & ->). exists b. reflexivity.
Qed.

Lemma drop_app a b : drop (String.length a) (a ++ b) = b.
Proof.
  unfold drop. rewrite string_app_length. replace (String.length a + String.length b - String.length a)%nat with (String.length b) by lia.
  induction a as [|c a IH]; cbn; [|exact IH]. clear. induction b as [|c b IH]; cbn; congruence.
Qed.

Lemma app_prefix_cases a b : forall c d, (a ++ b = c ++ d)%string ->
  (exists x, a = c ++ x /\ d = x ++ b)%string \/ (exists x, c = a ++ x /\ b = x ++ d)%string.
Proof.
  induction a as [|h a IH]; intros c d H; cbn in H; [right; exists c; auto|].
  destruct c as [|k c]; cbn in H; [left; exists (String h a); auto|]. inv H.
  destruct (IH _ _ H2) as [(x & -> & ->)|(x & -> & ->)]; [left|right]; exists x; auto.
Qed.

Lemma prefix_eq a b c d : (a ++ b = c ++ d)%string -> String.length a = String.length c -> a = c /\ b = d.
Proof.
  revert c. induction a as [|h a IH]; intros [|k c] H L; cbn in *; try discriminate; [auto|]. inv H. inv L.
  destruct (IH c); auto. now subst.
Qed.

Local Arguments Nat.ltb : simpl never.

(** The longest symbol. *)
Lemma sym_match_some l t w : sym_match l t = Some w <->
  In w l /\ prefix w t = true /\ forall u, In u l -> prefix u t = true -> (String.length u <= String.length w)%nat.
Proof.
  assert (A : forall w, sym_match l t = Some w ->
    In w l /\ prefix w t = true /\ forall u, In u l -> prefix u t = true -> (String.length u <= String.length w)%nat).
  { induction l as [|a l IH]; cbn; intros v H; [discriminate|].
    assert (N : sym_match l t = None -> forall u, In u l -> prefix u t = true -> False).
    { clear. induction l as [|b l IH]; cbn; [tauto|]. destruct (sym_match l t) eqn:E.
      - destruct (prefix b t && _); discriminate.
      - destruct (prefix b t) eqn:P; [discriminate|]. intros _ u [<-|I] Q; [congruence|eauto]. }
    destruct (sym_match l t) as [b|] eqn:E.
    - destruct (IH b eq_refl) as (I & P & M). destruct (prefix a t && Nat.ltb _ _) eqn:X; inv H.
      + apply andb_true_iff in X as [Pa L]. apply Nat.ltb_lt in L. split; [auto|]. split; auto.
        intros u [<-|Iu] Pu; [lia|]. specialize (M u Iu Pu). lia.
      + split; [auto|]. split; auto. intros u [<-|Iu] Pu; [|auto]. rewrite Pu in X. cbn in X. apply Nat.ltb_ge in X. exact X.
    - destruct (prefix a t) eqn:Pa; inv H. split; [auto|]. split; auto.
      intros u [<-|Iu] Pu; [lia|]. exfalso. eauto. }
  split; [apply A|]. intros (I & P & M).
  destruct (sym_match l t) as [b|] eqn:E.
  - destruct (A b eq_refl) as (Ib & Pb & Mb). f_equal. specialize (M b Ib Pb). specialize (Mb w I P).
    apply prefix_iff in P as (x & ->). apply prefix_iff in Pb as (y & Y).
    apply prefix_eq in Y; [symmetry; tauto|]. lia.
  - exfalso. revert E. clear A M. induction l as [|a l IH]; cbn; [destruct I|].
    destruct I as [->|I].
    + destruct (sym_match l t); [destruct (_ && _); discriminate|]. rewrite P. discriminate.
    + destruct (sym_match l t); [destruct (_ && _); discriminate|]. now destruct (IH I).
Qed.

Lemma sym_match_none l t : sym_match l t = None <-> forall u, In u l -> prefix u t = false.
Proof.
  destruct (sym_match l t) as [w|] eqn:E.
  - apply sym_match_some in E as (I & P & _). split; [discriminate|]. intro H. rewrite (H _ I) in P. discriminate.
  - split; [|reflexivity]. intros _ u I. destruct (prefix u t) eqn:P; [|reflexivity]. exfalso. revert E I P. clear.
    induction l as [|a l IH]; cbn; [tauto|]. destruct (sym_match l t); [destruct (_ && _); discriminate|].
    destruct (prefix a t) eqn:Q; [discriminate|]. intros _ [<-|I] P; [congruence|auto].
Qed.

(** Optional parts at the very start. *)
Lemma opt_char_spec cs t c r : opt_char cs t = (c, r) ->
  t = (opt_chr c ++ r)%string /\ match c with Some x => in_set cs x = true | None => match r with String y _ => in_set cs y = false | _ => True end end.
Proof. destruct t as [|x t]; cbn; intro H; [inv H; auto|]. destruct (in_set cs x) eqn:E; inv H; cbn; auto. Qed.

Lemma opt_run_spec p t v r : opt_run p t = (v, r) ->
  t = (opt_str v ++ r)%string /\ match v with Some x => x <> ""%string /\ all_chars p x = true | None => True end /\
  match r with String y _ => p y = false | _ => True end.
Proof.
  unfold opt_run. intro H. pose proof (span_spec p t) as S. destruct (span p t) as [a b]. destruct S as (-> & A & B).
  destruct a; inv H; cbn; [auto|]. split; [reflexivity|]. split; [|exact B]. split; [discriminate|]. exact A.
Qed.

Lemma opt_char_some cs x r : in_set cs x = true -> opt_char cs (String x r) = (Some x, r).
Proof. intro H. cbn. now rewrite H. Qed.

Lemma opt_char_none cs t : match t with String y _ => in_set cs y = false | _ => True end -> opt_char cs t = (None, t).
Proof. destruct t; cbn; [reflexivity|]. now intros ->. Qed.

Lemma opt_run_some p x r : x <> ""%string -> all_chars p x = true -> match r with String y _ => p y = false | _ => True end ->
  opt_run p (x ++ r) = (Some x, r).
Proof. intros N A B. unfold opt_run. rewrite span_app by auto. now destruct x. Qed.

Lemma opt_run_none p t : match t with String y _ => p y = false | _ => True end -> opt_run p t = (None, t).
Proof. intro H. unfold opt_run. now rewrite span_none. Qed.
