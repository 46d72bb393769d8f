(** The ordered macro table refines the history of assignments. *)
From Coq Require Import Sorted.
From Verif Require Import Model.Base Model.Macro Spec.MacroSpec Proofs.Tactics.

Section P.
Variable V : Type.
Implicit Types (m : macro_map V) (k : mkey).

Definition klt k1 k2 : Prop :=
  k_id k2 < k_id k1 \/ (k_id k1 = k_id k2 /\ k_line k2 < k_line k1).

Lemma key_lt_iff k1 k2 : key_lt k1 k2 = true <-> klt k1 k2.
Proof.
  unfold key_lt, klt. destruct (k_id k1 <? k_id k2) eqn:A; [split; [discriminate|lia]|].
  destruct ((k_id k1 =? k_id k2) && (k_line k1 <=? k_line k2)) eqn:B;
    split; intros; try discriminate; try lia.
Qed.

Lemma key_lt_false k1 k2 : key_lt k1 k2 = false <-> ~ klt k1 k2.
Proof.
  rewrite <- key_lt_iff. destruct (key_lt k1 k2); intuition congruence.
Qed.

Lemma klt_trichotomy k1 k2 : klt k1 k2 \/ k1 = k2 \/ klt k2 k1.
Proof.
  destruct k1 as [i1 l1], k2 as [i2 l2]; unfold klt; cbn.
  destruct (Z.eq_dec i1 i2), (Z.eq_dec l1 l2); subst; auto; lia.
Qed.

Lemma klt_trans k1 k2 k3 : klt k1 k2 -> klt k2 k3 -> klt k1 k3.
Proof. unfold klt; lia. Qed.

Lemma klt_irrefl k : ~ klt k k.
Proof. unfold klt; lia. Qed.

Definition sorted m : Prop :=
  StronglySorted (fun a b => klt (fst a) (fst b)) m.

(** The partial function a table denotes. *)
Fixpoint find_key m k : option V :=
  match m with
  | [] => None
  | (k', v) :: m' =>
      if (k_id k' =? k_id k) && (k_line k' =? k_line k) then Some v else find_key m' k
  end.

Lemma keq_iff k1 k2 :
  (k_id k1 =? k_id k2) && (k_line k1 =? k_line k2) = true <-> k1 = k2.
Proof.
  destruct k1, k2; cbn. split; intro H; [f_equal; lia | inv H; lia].
Qed.

Lemma find_key_in m k v : find_key m k = Some v -> In (k, v) m.
Proof.
  induction m as [|[k' v'] m IH]; cbn; [discriminate|].
  destruct (_ && _) eqn:E; intro H.
  - apply keq_iff in E. inv H. auto.
  - auto.
Qed.

Lemma in_find_key m k v : sorted m -> In (k, v) m -> find_key m k = Some v.
Proof.
  induction m as [|[k' v'] m IH]; cbn; intros S I; [tauto|].
  inv S. rewrite Forall_forall in H2. destruct I as [I|I].
  - inv I. destruct (_ && _) eqn:E; [reflexivity|].
    pose proof (proj2 (keq_iff k k) eq_refl). congruence.
  - destruct (_ && _) eqn:E; [|auto].
    apply keq_iff in E; subst. apply H2 in I. cbn in I. now apply klt_irrefl in I.
Qed.

Lemma find_key_none_in m k v : find_key m k = None -> ~ In (k, v) m.
Proof.
  induction m as [|[k' v'] m IH]; cbn; [tauto|].
  destruct (_ && _) eqn:E; [discriminate|]. intros H [I|I].
  - inv I. pose proof (proj2 (keq_iff k k) eq_refl). congruence.
  - now apply IH in I.
Qed.

Definition all_after k m : Prop := Forall (fun e => klt k (fst e)) m.

Lemma sorted_cons k v m : sorted ((k, v) :: m) <-> sorted m /\ all_after k m.
Proof. split; [intro S; inv S; auto | intros [A B]; constructor; auto]. Qed.

Lemma all_after_trans k k' m : klt k k' -> all_after k' m -> all_after k m.
Proof.
  intros L A. eapply Forall_impl; [|exact A]. cbn; intros; eapply klt_trans; eauto.
Qed.

Lemma emplace_after k0 m k v : klt k0 k -> all_after k0 m -> all_after k0 (emplace m k v).
Proof.
  induction m as [|[k' v'] m IH]; cbn; intros L A.
  - constructor; auto.
  - inv A. destruct (key_lt k' k); [constructor; auto; now apply IH|].
    destruct (key_lt k k'); [constructor; [assumption|constructor; assumption]|constructor; assumption].
Qed.

Lemma assign_after k0 m k v : klt k0 k -> all_after k0 m -> all_after k0 (insert_or_assign m k v).
Proof.
  induction m as [|[k' v'] m IH]; cbn; intros L A.
  - constructor; auto.
  - inv A. destruct (key_lt k' k); [constructor; auto; now apply IH|].
    destruct (key_lt k k'); [constructor; [assumption|constructor; assumption]|constructor; assumption].
Qed.

Lemma emplace_sorted m k v : sorted m -> sorted (emplace m k v).
Proof.
  induction m as [|[k' v'] m IH]; cbn; intro S.
  - repeat constructor.
  - apply sorted_cons in S as [S A]. destruct (key_lt k' k) eqn:E.
    + apply key_lt_iff in E. apply sorted_cons; split; auto. now apply emplace_after.
    + destruct (key_lt k k') eqn:E2.
      * apply key_lt_iff in E2. apply sorted_cons; split; [now apply sorted_cons|].
        constructor; auto. now apply all_after_trans with k'.
      * now apply sorted_cons.
Qed.

Lemma assign_sorted m k v : sorted m -> sorted (insert_or_assign m k v).
Proof.
  induction m as [|[k' v'] m IH]; cbn; intro S.
  - repeat constructor.
  - apply sorted_cons in S as [S A]. destruct (key_lt k' k) eqn:E.
    + apply key_lt_iff in E. apply sorted_cons; split; auto. now apply assign_after.
    + destruct (key_lt k k') eqn:E2.
      * apply key_lt_iff in E2. apply sorted_cons; split; [now apply sorted_cons|].
        constructor; auto. now apply all_after_trans with k'.
      * now apply sorted_cons.
Qed.

Lemma find_key_after k m : all_after k m -> find_key m k = None.
Proof.
  induction m as [|[k' v'] m IH]; cbn; intro A; [reflexivity|].
  inv A. cbn in H1. destruct (_ && _) eqn:E; [|auto].
  apply keq_iff in E; subst. now apply klt_irrefl in H1.
Qed.

Definition keqb k1 k2 : bool := (k_id k1 =? k_id k2) && (k_line k1 =? k_line k2).

Lemma find_emplace m k v q : sorted m ->
  find_key (emplace m k v) q =
  if keqb k q then match find_key m k with None => Some v | s => s end else find_key m q.
Proof.
  induction m as [|[k' v'] m IH]; intro S; unfold keqb in *; cbn.
  - reflexivity.
  - apply sorted_cons in S as [S A]. specialize (IH S).
    destruct (key_lt k' k) eqn:E.
    + apply key_lt_iff in E. cbn. rewrite IH.
      destruct ((k_id k' =? k_id q) && (k_line k' =? k_line q)) eqn:F.
      * apply keq_iff in F; subst q.
        destruct ((k_id k =? k_id k') && (k_line k =? k_line k')) eqn:G; [|reflexivity].
        apply keq_iff in G; subst. now apply klt_irrefl in E.
      * destruct ((k_id k' =? k_id k) && (k_line k' =? k_line k)) eqn:G; [|reflexivity].
        apply keq_iff in G; subst. now apply klt_irrefl in E.
    + destruct (key_lt k k') eqn:E2.
      * apply key_lt_iff in E2. cbn.
        destruct ((k_id k =? k_id q) && (k_line k =? k_line q)) eqn:F; [|reflexivity].
        destruct ((k_id k' =? k_id k) && (k_line k' =? k_line k)) eqn:G.
        -- apply keq_iff in G; subst. now apply klt_irrefl in E2.
        -- rewrite find_key_after; [reflexivity|]. now apply all_after_trans with k'.
      * apply key_lt_false in E, E2.
        destruct (klt_trichotomy k k') as [T|[T|T]]; try tauto. subst k'. cbn.
        rewrite (proj2 (keq_iff k k) eq_refl).
        destruct ((k_id k =? k_id q) && (k_line k =? k_line q)) eqn:F; reflexivity.
Qed.

Lemma find_assign m k v q : sorted m ->
  find_key (insert_or_assign m k v) q = if keqb k q then Some v else find_key m q.
Proof.
  induction m as [|[k' v'] m IH]; intro S; unfold keqb in *; cbn.
  - reflexivity.
  - apply sorted_cons in S as [S A]. specialize (IH S).
    destruct (key_lt k' k) eqn:E.
    + apply key_lt_iff in E. cbn. rewrite IH.
      destruct ((k_id k' =? k_id q) && (k_line k' =? k_line q)) eqn:F; [|reflexivity].
      apply keq_iff in F; subst q.
      destruct ((k_id k =? k_id k') && (k_line k =? k_line k')) eqn:G; [|reflexivity].
      apply keq_iff in G; subst. now apply klt_irrefl in E.
    + destruct (key_lt k k') eqn:E2; [reflexivity|].
      apply key_lt_false in E, E2.
      destruct (klt_trichotomy k k') as [T|[T|T]]; try tauto. subst k'. cbn.
      destruct ((k_id k =? k_id q) && (k_line k =? k_line q)) eqn:F; reflexivity.
Qed.

Lemma mstep_sorted m o : sorted m -> sorted (mstep m o).
Proof. destruct o; cbn; [apply emplace_sorted|apply assign_sorted]. Qed.

Lemma given_find ops : forall m id line, sorted m ->
  find_key (fold_left mstep ops m) (mkKey id line) =
  given (find_key m (mkKey id line)) ops id line.
Proof.
  induction ops as [|o ops IH]; intros m id line S; cbn; [reflexivity|].
  rewrite IH by now apply mstep_sorted. f_equal.
  destruct o as [i l v|i l v]; cbn.
  - rewrite find_emplace by assumption. unfold keqb; cbn.
    destruct ((i =? id) && (l =? line)) eqn:E; [|reflexivity].
    assert (i = id /\ l = line) as [-> ->] by lia. now destruct (find_key m _).
  - rewrite find_assign by assumption. reflexivity.
Qed.

Lemma fold_sorted ops : forall m, sorted m -> sorted (fold_left mstep ops m).
Proof. induction ops; cbn; auto using mstep_sorted. Qed.

Lemma mrun_sorted (ops : list (mop V)) : sorted (mrun ops).
Proof. apply fold_sorted. constructor. Qed.

Lemma mrun_find (ops : list (mop V)) id line :
  find_key (mrun ops) (mkKey id line) = given_on ops id line.
Proof. unfold mrun. rewrite given_find by constructor. reflexivity. Qed.

Lemma mrun_in (ops : list (mop V)) id line v :
  In (mkKey id line, v) (mrun ops) <-> given_on ops id line = Some v.
Proof.
  rewrite <- mrun_find. split.
  - apply in_find_key, mrun_sorted.
  - apply find_key_in.
Qed.

Lemma sorted_nodup m : sorted m -> NoDup (map fst m).
Proof.
  induction m as [|[k v] m IH]; cbn; intro S; [constructor|].
  apply sorted_cons in S as [S A]. constructor; auto.
  intro I. apply in_map_iff in I as [[k' v'] [E I]]. cbn in E; subst k'.
  unfold all_after in A; rewrite Forall_forall in A. apply A in I. now apply klt_irrefl in I.
Qed.

(** [lower_bound] returns the first entry that is not before the key. *)
Lemma lower_bound_some m k k' v : sorted m -> lower_bound m k = Some (k', v) ->
  In (k', v) m /\ ~ klt k' k /\ forall k2 v2, In (k2, v2) m -> ~ klt k2 k -> k2 = k' \/ klt k' k2.
Proof.
  induction m as [|[k1 v1] m IH]; cbn; intros S H; [discriminate|].
  apply sorted_cons in S as [S A]. destruct (key_lt k1 k) eqn:E.
  - destruct (IH S H) as (I & N & M). repeat split; auto.
    intros k2 v2 [J|J] N2; [|eauto]. inv J. apply key_lt_iff in E. tauto.
  - inv H. apply key_lt_false in E. repeat split; auto.
    intros k2 v2 [J|J] N2; [inv J; auto|]. right.
    unfold all_after in A; rewrite Forall_forall in A. now apply A in J.
Qed.

Lemma lower_bound_none m k : lower_bound m k = None -> forall k2 v2, In (k2, v2) m -> klt k2 k.
Proof.
  induction m as [|[k1 v1] m IH]; cbn; intros H k2 v2 I; [tauto|].
  destruct (key_lt k1 k) eqn:E; [|discriminate].
  destruct I as [I|I]; [inv I; now apply key_lt_iff|eauto].
Qed.

Lemma macro_lookup_visible (ops : list (mop V)) id L v :
  macro_lookup (mrun ops) id L = Some v <-> visible ops id L v.
Proof.
  pose proof (mrun_sorted ops) as S. unfold macro_lookup, visible.
  split.
  - destruct (lower_bound _ _) as [[[i l] w]|] eqn:E; [|discriminate].
    cbn. destruct (i =? id) eqn:F; [|discriminate]. intro H; inv H.
    assert (i = id) by lia; subst i.
    apply lower_bound_some in E as (I & N & M); [|assumption].
    exists l. unfold klt in N; cbn in N. split; [lia|].
    split; [now apply mrun_in|]. intros l' Hl'.
    destruct (given_on ops id l') as [w'|] eqn:G; [|reflexivity]. exfalso.
    apply mrun_in in G.
    destruct (M _ _ G) as [Q|Q]; unfold klt in *; cbn in *; [lia|inv Q; lia|lia].
  - intros (l & Hl & G & M). apply mrun_in in G.
    destruct (lower_bound _ _) as [[[i l'] w]|] eqn:E.
    + pose proof (lower_bound_some _ _ _ _ S E) as (I & N & Min).
      unfold klt in N; cbn in N.
      destruct (Min _ _ G) as [Q|Q]; [unfold klt; cbn; lia| |].
      * inv Q. cbn. replace (i =? i) with true by lia. f_equal.
        apply mrun_in in G. apply mrun_in in I. congruence.
      * unfold klt in Q; cbn in Q. cbn. assert (i = id) by lia. subst i.
        apply mrun_in in I. rewrite M in I by lia. discriminate.
    + apply lower_bound_none with (2 := G) in E. unfold klt in E; cbn in E. lia.
Qed.

Lemma macro_lookup_nothing (ops : list (mop V)) id L :
  macro_lookup (mrun ops) id L = None <-> nothing_visible ops id L.
Proof.
  pose proof (mrun_sorted ops) as S. unfold macro_lookup, nothing_visible. split.
  - destruct (lower_bound _ _) as [[[i l] w]|] eqn:E; cbn.
    + destruct (i =? id) eqn:F; [discriminate|]. intros _ line Hl.
      pose proof (lower_bound_some _ _ _ _ S E) as (I & N & Min).
      destruct (given_on ops id line) as [w'|] eqn:G; [|reflexivity]. exfalso.
      apply mrun_in in G. unfold klt in N; cbn in N.
      destruct (Min _ _ G) as [Q|Q]; [unfold klt; cbn; lia|inv Q; lia|unfold klt in Q; cbn in Q; lia].
    + intros _ line Hl. destruct (given_on ops id line) as [w'|] eqn:G; [|reflexivity].
      apply mrun_in in G. apply lower_bound_none with (2 := G) in E. unfold klt in E; cbn in E. lia.
  - intro N. destruct (lower_bound _ _) as [[[i l] w]|] eqn:E; [|reflexivity]. cbn.
    destruct (i =? id) eqn:F; [|reflexivity]. exfalso. assert (i = id) by lia; subst i.
    apply lower_bound_some in E as (I & M & _); [|assumption].
    unfold klt in M; cbn in M. apply mrun_in in I. rewrite N in I; [discriminate|lia].
Qed.

End P.
