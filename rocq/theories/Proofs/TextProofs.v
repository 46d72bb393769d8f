From Verif Require Import Model.Base Spec.Text Proofs.Tactics.

Lemma span_all p s : all_chars p s = true -> span p s = (s, ""%string).
Proof.
  induction s as [|c s IH]; cbn; [reflexivity|]. intro H. apply andb_true_iff in H as [-> H].
  now rewrite IH.
Qed.

Lemma span_none p s : match s with String c _ => p c = false | _ => True end ->
  span p s = (""%string, s).
Proof. destruct s as [|c s]; cbn; [reflexivity|]. now intros ->. Qed.

Lemma digit_not_space c : is_digit c = true -> is_space c = false.
Proof. unfold is_digit, is_space. intro. lia. Qed.

Lemma digit_not_sign c : is_digit c = true -> Ascii.eqb c "-" = false /\ Ascii.eqb c "+" = false.
Proof.
  intro H. split; apply Ascii.eqb_neq; intros ->; discriminate H.
Qed.

Lemma digits_acc_nonneg s : all_chars is_digit s = true -> forall a, 0 <= a -> 0 <= digits_acc a s.
Proof.
  induction s as [|c s IH]; cbn; intros H a Ha; [exact Ha|].
  apply andb_true_iff in H as [Hc H]. apply IH; [exact H|].
  unfold is_digit in Hc. unfold digit_val. lia.
Qed.

Lemma digits_val_nonneg s : all_chars is_digit s = true -> 0 <= digits_val s.
Proof. intro. apply digits_acc_nonneg; [assumption|lia]. Qed.

Lemma denotes_nonneg s n : denotes s n -> 0 <= n.
Proof. intros (_ & A & <-). now apply digits_val_nonneg. Qed.

Lemma denotes_fun s n m : denotes s n -> denotes s m -> n = m.
Proof. intros (_ & _ & <-) (_ & _ & <-). reflexivity. Qed.

(** [stoi] reads decimal texts. *)
Lemma stoi_denotes s n : denotes s n ->
  stoi s = if int_max <? n then Exc EOutOfRange else Ok n.
Proof.
  intros D. pose proof (denotes_nonneg _ _ D) as N. destruct D as (E & A & V).
  destruct s as [|c s]; [contradiction|]. pose proof A as A'. cbn in A'.
  apply andb_true_iff in A' as [Hc _].
  unfold stoi. rewrite span_none by now apply digit_not_space.
  destruct (digit_not_sign c Hc) as [-> ->]. rewrite (span_all _ _ A). cbn [fst].
  rewrite V. replace (n <? int_min) with false by (unfold int_min; lia). reflexivity.
Qed.

Lemma stoi_ok s n : denotes s n -> n <= int_max -> stoi s = Ok n.
Proof. intros D H. rewrite (stoi_denotes _ _ D). now replace (int_max <? n) with false by lia. Qed.

Lemma foldM_app {S A} (f : S -> A -> res S) l1 : forall s l2,
  foldM f s (l1 ++ l2)%list = match foldM f s l1 with Ok s' => foldM f s' l2 | Exc e => Exc e end.
Proof.
  induction l1 as [|a l1 IH]; cbn; intros; [reflexivity|].
  destruct (f s a); [apply IH|reflexivity].
Qed.

Lemma mem_str_In w l : mem_str w l = true <-> In w l.
Proof.
  unfold mem_str. rewrite existsb_exists. split.
  - intros (x & I & E). apply String.eqb_eq in E. now subst.
  - intro I. exists w. split; [assumption|apply String.eqb_refl].
Qed.

Lemma mem_str_not_In w l : mem_str w l = false <-> ~ In w l.
Proof. rewrite <- mem_str_In. destruct (mem_str w l); split; congruence. Qed.
