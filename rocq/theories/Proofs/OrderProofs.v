(** Reading two numbers of a line in a given order. *)
From Verif Require Import Model.Base Model.Messages Model.OrderAttr Spec.OrderSpec Proofs.Tactics.
From Coq Require Import Lia.
Local Open Scope Z_scope.
Local Open Scope string_scope.

Lemma is_graph_iff : forall x, is_graph x = true <-> 33 <= code x <= 126.
Proof. intros. unfold is_graph. rewrite andb_true_iff, !Z.leb_le. tauto. Qed.

Lemma is_blank_iff : forall x, is_blank x = true <-> x = " "%char \/ x = "009"%char.
Proof.
  intros x. split.
  - destruct x as [b0 b1 b2 b3 b4 b5 b6 b7].
    destruct b0, b1, b2, b3, b4, b5, b6, b7; intros H; vm_compute in H; try discriminate H; auto.
  - intros [->| ->]; reflexivity.
Qed.

Lemma passable_iff : forall c x, is_graph c = true ->
  (is_blank x || (is_graph x && negb (Ascii.eqb x c)) = true <-> passable c x).
Proof.
  intros c x C. unfold passable. rewrite orb_true_iff, andb_true_iff, negb_true_iff, is_blank_iff, is_graph_iff, Ascii.eqb_neq.
  apply is_graph_iff in C. split.
  - intros [[->| ->]|[A B]].
    + split; [auto|]. intros <-. change (code " "%char) with 32 in C. lia.
    + split; [auto|]. intros <-. change (code "009"%char) with 9 in C. lia.
    + auto.
  - intros [[A|[A|A]] B]; auto.
Qed.

Lemma skip_to_app : forall c pre x t, is_graph c = true -> passed c pre -> skip_to c (pre ++ String x t) = skip_to c (String x t).
Proof.
  intros c pre x t C P. unfold passed in P.
  induction pre as [|y pre IH]; [reflexivity|]. cbn [list_ascii_of_string] in P. inversion P as [|? ? P1 P2]; subst.
  cbn [append skip_to]. apply passable_iff in P1; [|exact C]. rewrite P1. apply IH, P2.
Qed.

Lemma skip_to_self : forall c t, is_graph c = true -> skip_to c (String c t) = String c t.
Proof.
  intros c t C. cbn [skip_to]. rewrite Ascii.eqb_refl.
  destruct (is_blank c) eqn:B.
  - exfalso. apply is_blank_iff in B. apply is_graph_iff in C. destruct B; subst c;
      [change (code " "%char) with 32 in C|change (code "009"%char) with 9 in C]; lia.
  - rewrite andb_false_r. reflexivity.
Qed.

Lemma skip_to_behind : forall c data t, is_graph c = true -> (skip_to c data = String c t <-> behind c data t).
Proof.
  intros c data t C. split.
  - revert t. induction data as [|x data IH]; intros t; cbn [skip_to]; [discriminate|].
    destruct (is_blank x || (is_graph x && negb (Ascii.eqb x c))) eqn:E.
    + intros H. destruct (IH t H) as [pre [P Q]]. exists (String x pre). split.
      * constructor; [apply passable_iff; assumption|exact P].
      * cbn. rewrite Q. reflexivity.
    + intros H. exists "". split; [constructor|]. exact H.
  - intros [pre [P ->]]. rewrite (skip_to_app c pre c t C P). apply skip_to_self, C.
Qed.

Lemma behind_one : forall c data t t', is_graph c = true -> behind c data t -> behind c data t' -> t = t'.
Proof.
  intros c data t t' C A B. apply skip_to_behind in A; [|exact C]. apply skip_to_behind in B; [|exact C].
  rewrite A in B. congruence.
Qed.

Section Order.
Context {V : Type}.
Variable read : string -> option (V * string).

Lemma attribute_cases : forall c t, is_graph c = true ->
  match attribute read c t with
  | Missing => forall t', ~ behind c t t'
  | NoNumber r => behind c t r /\ read r = None
  | Number v r => exists t', behind c t t' /\ read t' = Some (v, r)
  end.
Proof.
  intros c t C. unfold attribute. destruct (skip_to c t) as [|x t'] eqn:E.
  - intros t' B. apply skip_to_behind in B; [|exact C]. rewrite B in E. discriminate E.
  - destruct (Ascii.eqb x c) eqn:X.
    + apply Ascii.eqb_eq in X. subst x. apply skip_to_behind in E; [|exact C].
      destruct (read t') as [[v r]|] eqn:R; [exists t'|]; auto.
    + intros t'' B. apply skip_to_behind in B; [|exact C]. rewrite B in E.
      injection E as E1 E2. subst x. rewrite Ascii.eqb_refl in X. discriminate X.
Qed.

Theorem order_parse_says : forall data c1 c2 a b m o, is_graph c1 = true -> is_graph c2 = true ->
  (order_parse read data c1 c2 (a, b) m = o <-> order_says read order_message data c1 c2 a b m o).
Proof.
  intros data c1 c2 a b m o C1 C2. pose proof (attribute_cases c1 data C1) as A. unfold order_parse. cbn [snd].
  split.
  - destruct (attribute read c1 data) as [|r|v1 t].
    + intros <-. apply SaysNoFirst, A.
    + intros <-. destruct A. eapply SaysNoNumber; eassumption.
    + destruct A as [t' [A1 A2]]. pose proof (attribute_cases c2 t C2) as B.
      destruct (attribute read c2 t) as [|r|v2 t2]; intros <-.
      * eapply SaysNoSecond; eassumption.
      * destruct B. eapply SaysNoSecondNumber; eassumption.
      * destruct B as [t'' [B1 B2]]. eapply SaysBoth; eassumption.
  - assert (N : forall t, behind c1 data t -> attribute read c1 data = match read t with Some (v, r) => Number v r | None => NoNumber t end).
    { intros t B. unfold attribute. apply skip_to_behind in B; [|exact C1]. rewrite B, Ascii.eqb_refl. reflexivity. }
    assert (M : forall s t, behind c2 s t -> attribute read c2 s = match read t with Some (v, r) => Number v r | None => NoNumber t end).
    { intros s t B. unfold attribute. apply skip_to_behind in B; [|exact C2]. rewrite B, Ascii.eqb_refl. reflexivity. }
    clear A. intros S. destruct S as [t1 v1 t2 t3 v2 t4 B1 R1 B2 R2|NB|t B1 R1|t1 v1 t2 B1 R1 NB|t1 v1 t2 t3 B1 R1 B2 R2].
    + rewrite (N t1 B1), R1, (M t2 t3 B2), R2. reflexivity.
    + pose proof (attribute_cases c1 data C1) as A. destruct (attribute read c1 data) as [|r|v r].
      * reflexivity.
      * destruct A as [A _]. exfalso. eapply NB, A.
      * destruct A as [t' [A _]]. exfalso. eapply NB, A.
    + rewrite (N t B1), R1. reflexivity.
    + rewrite (N t1 B1), R1. pose proof (attribute_cases c2 t2 C2) as A. destruct (attribute read c2 t2) as [|r|v r].
      * reflexivity.
      * destruct A as [A _]. exfalso. eapply NB, A.
      * destruct A as [t' [A _]]. exfalso. eapply NB, A.
    + rewrite (N t1 B1), R1, (M t2 t3 B2), R2. reflexivity.
Qed.
End Order.

Lemma length_append : forall a b, String.length (a ++ b) = (String.length a + String.length b)%nat.
Proof. induction a as [|c a IH]; intros b; cbn; [reflexivity|]. rewrite IH. reflexivity. Qed.

Lemma append_assoc_s : forall a b c : string, (a ++ b) ++ c = a ++ b ++ c.
Proof. induction a as [|x a IH]; intros b c; cbn; [reflexivity|]. rewrite IH. reflexivity. Qed.

Lemma substring_front : forall a b, String.substring 0 (String.length (a ++ b) - String.length b) (a ++ b) = a.
Proof.
  intros a b. rewrite length_append. replace (String.length a + String.length b - String.length b)%nat with (String.length a) by lia.
  induction a as [|c a IH]; [destruct b; reflexivity|]. cbn. rewrite IH. reflexivity.
Qed.

Lemma columns_plain : forall s n, Forall (fun c => c <> "009"%char) (list_ascii_of_string s) ->
  columns n s = n + Z.of_nat (String.length s).
Proof.
  induction s as [|c s IH]; intros n H; cbn [columns String.length]; [lia|].
  cbn [list_ascii_of_string] in H. inversion H as [|? ? A B]; subst. apply Ascii.eqb_neq in A. rewrite A, IH; [lia|exact B].
Qed.

Lemma first_line_plain : forall s, Forall (fun c => c <> "010"%char /\ c <> "013"%char) (list_ascii_of_string s) -> first_line s = s.
Proof.
  induction s as [|c s IH]; intros H; [reflexivity|]. cbn [list_ascii_of_string] in H. inversion H as [|? ? [A B] C]; subst.
  cbn [first_line]. unfold is_line_end. apply Ascii.eqb_neq in A, B. rewrite A, B. cbn. rewrite IH; [reflexivity|exact C].
Qed.

(** On one line without tabulators: the line, and an arrow below the place. *)
Theorem order_message_says : forall a b,
  Forall (fun c => c <> "009"%char) (list_ascii_of_string a) ->
  Forall (fun c => c <> "010"%char /\ c <> "013"%char) (list_ascii_of_string (a ++ b)) ->
  order_message (a ++ b) b =
  "Parse error at line 1 column " ++ nat_to_string (Z.of_nat (String.length a) + 1) ++ ":" ++ nl
  ++ "'" ++ a ++ b ++ "'" ++ nl ++ spaces (S (String.length a)) ++ "^- here" ++ nl.
Proof.
  intros a b A B. unfold order_message. rewrite substring_front, (columns_plain a 1 A), (first_line_plain _ B).
  replace (1 + Z.of_nat (String.length a)) with (Z.of_nat (String.length a) + 1) by lia.
  replace (Z.to_nat (Z.max 1 (Z.of_nat (String.length a) + 1))) with (S (String.length a)) by lia.
  rewrite !append_assoc_s. reflexivity.
Qed.
