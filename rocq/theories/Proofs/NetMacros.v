(** The .NET side: tables of macro values. *)
From Verif Require Import Model.Base Model.Attr Model.Double Model.Macro Model.Verifiers Model.Grammar.
From Verif Require Import Model.PathCalc Model.Parser Model.Wrapper Model.Net.
From Verif Require Import Spec.WrapperSpec Spec.NetSpec Proofs.Tactics Proofs.StringFacts Proofs.MacroProofs Proofs.WrapperProofs Proofs.WrapperTables Proofs.NetProofs.
From Coq Require Import Sorting.Sorted.

Local Open Scope string_scope.
Local Open Scope list_scope.
Local Open Scope Z_scope.

Lemma value_of_assign k v m k' : value_of k' (net_assign k v m) = if Z.eq_dec (fst k) (fst k') then if Z.eq_dec (snd k) (snd k') then Some v else value_of k' m else value_of k' m.
Proof.
  destruct k as [i l], k' as [i' l']. cbn [fst snd]. induction m as [|[[i2 l2] v2] m IH]; cbn [net_assign value_of fst snd]; [reflexivity|].
  destruct ((i =? i2) && (l =? l2))%bool eqn:E; cbn [value_of fst snd].
  - apply andb_true_iff in E. destruct E as [E1 E2]. apply Z.eqb_eq in E1, E2. subst i2 l2.
    destruct (Z.eq_dec i i'); [|reflexivity]. destruct (Z.eq_dec l l'); reflexivity.
  - rewrite IH. destruct (Z.eq_dec i2 i') as [->|]; [|reflexivity]. destruct (Z.eq_dec l2 l') as [->|]; [|reflexivity].
    destruct (Z.eq_dec i i') as [->|]; [|reflexivity]. destruct (Z.eq_dec l l') as [->|]; [|reflexivity]. rewrite !Z.eqb_refl in E. discriminate E.
Qed.

Lemma net_assign_new k v m : ~ In k (map fst m) -> net_assign k v m = m ++ [(k, v)].
Proof.
  destruct k as [i l]. induction m as [|[[i2 l2] v2] m IH]; intros N; [reflexivity|]. cbn [net_assign fst snd].
  destruct ((i =? i2) && (l =? l2))%bool eqn:E.
  - apply andb_true_iff in E. destruct E as [E1 E2]. apply Z.eqb_eq in E1, E2. subst. exfalso. apply N. now left.
  - cbn. rewrite IH; [reflexivity|]. intros I. apply N. now right.
Qed.

Lemma net_assign_all_new l : forall m, NoDup (map fst (m ++ l)) -> net_assign_all l m = m ++ l.
Proof.
  unfold net_assign_all. induction l as [|[k v] l IH]; intros m N; cbn [fold_left]; [now rewrite app_nil_r|]. cbn [fst snd].
  rewrite net_assign_new.
  - rewrite IH by (now rewrite <- app_assoc). now rewrite <- app_assoc.
  - rewrite map_app in N. cbn in N. apply NoDup_remove_2 in N. intros I. apply N. apply in_or_app. now left.
Qed.

Lemma value_of_none k m : ~ In k (map fst m) -> value_of k m = None.
Proof.
  destruct k as [i l]. induction m as [|[[i2 l2] v2] m IH]; intros N; [reflexivity|]. cbn [value_of fst snd].
  assert (NI : ~ In (i, l) (map fst m)) by (intros I; apply N; now right).
  destruct (Z.eq_dec i2 i) as [->|]; [|now apply IH]. destruct (Z.eq_dec l2 l) as [->|]; [|now apply IH]. exfalso. apply N. now left.
Qed.

Lemma value_of_all l : forall m k, NoDup (map fst l) ->
  value_of k (net_assign_all l m) = match value_of k l with Some v => Some v | None => value_of k m end.
Proof.
  unfold net_assign_all. induction l as [|[[i n] v] l IH]; intros m k N; [reflexivity|]. cbn [fold_left fst snd map] in *. inv N.
  rewrite IH by assumption. rewrite value_of_assign. destruct k as [i' n']. cbn [value_of fst snd].
  destruct (Z.eq_dec i i') as [->|]; [|reflexivity]. destruct (Z.eq_dec n n') as [->|]; [|reflexivity].
  now rewrite value_of_none.
Qed.

Lemma as_dbls_all n l : n = Z.of_nat (List.length l) -> as_dbls n (CDbls (map Some l)) = Ok l.
Proof. intros E. unfold as_dbls. rewrite firstn_all_ok by (rewrite map_length; exact E). cbn [bind]. apply all_set_some. Qed.

Lemma first_n_padded {A} k (l : list A) : first_n (Z.of_nat (List.length l)) (padded_to k l) = Ok (map Some l).
Proof. unfold padded_to. apply first_n_app. now rewrite map_length. Qed.

Lemma combine_map {A B C} (f : A -> B) (g : A -> C) l : combine (map f l) (map g l) = map (fun x => (f x, g x)) l.
Proof. induction l as [|x l IH]; [reflexivity|]. cbn. now rewrite IH. Qed.

Lemma keys_once (mv : macro_map dbl) : sorted dbl mv -> NoDup (map (fun e => (k_id (fst e), k_line (fst e))) mv).
Proof.
  intros S. unfold sorted in S. induction S as [|e l S IH F]; [constructor|]. cbn. constructor; [|exact IH].
  intros I. apply in_map_iff in I. destruct I as (e' & E & I). rewrite Forall_forall in F. specialize (F e' I). unfold klt in F. inv E. lia.
Qed.

Lemma net_macros_eq mv h : sorted dbl mv -> Forall (fun e => 0 <= k_id (fst e) <= int_max) mv ->
  exists h', net_macros mv h = Ok (map (fun e => ((k_id (fst e), k_line (fst e)), snd e)) mv, h') /\ all_released h h'.
Proof.
  intros S F. unfold net_macros. destruct (get_macro_values mv (mkMO PNull PNull PNull 0) h) as [o h1] eqn:G.
  destruct (macros_released _ _ _ _ G) as (h2 & D & R).
  destruct (macros_exported _ _ _ _ _ G) as (_ & L & E0 & E1). rewrite L.
  assert (C : mv = [] \/ mv <> []) by (destruct mv; [now left|right; discriminate]). destruct C as [->|N].
  - cbn in G. inv G. cbn [List.length Z.of_nat Z.eqb]. eexists. split; [reflexivity|]. exists O. now rewrite app_nil_r.
  - replace (Z.of_nat (List.length mv) =? 0) with false by (symmetry; apply Z.eqb_neq; destruct mv; [contradiction|cbn [List.length]; lia]).
    assert (F' : Forall (fun e => k_id (fst e) <= int_max /\ 0 <= k_id (fst e)) mv) by (revert F; apply Forall_impl; intros; lia).
    clear E0. destruct (E1 N F') as ((m1 & A1) & (m2 & A2) & (m3 & A3)).
    assert (LD : forall p c, at_cell h1 p c -> load p h1 = Ok c) by (intros p c (n & -> & X); unfold load; now rewrite X).
    rewrite (LD _ _ A1), (LD _ _ A2), (LD _ _ A3). cbn [bind as_ints as_dbls].
    assert (FN : forall A (g : mkey * dbl -> A) m, first_n (Z.of_nat (List.length mv)) (map Some (map g mv) ++ m) = Ok (map Some (map g mv)))
      by (intros A g m; apply first_n_app; now rewrite !map_length).
    rewrite !FN. cbn [bind]. rewrite !all_set_some. cbn [bind]. rewrite D. cbn [bind]. exists h2. split; [|exact R].
    rewrite !combine_map. rewrite net_assign_all_new; [reflexivity|]. cbn [app]. rewrite map_map. cbn. now apply keys_once.
Qed.

Lemma line_keys_once mv line : sorted dbl mv ->
  NoDup (map (fun e : mkey * dbl => (k_id (fst e), line)) (filter (fun e => k_line (fst e) =? line) mv)).
Proof.
  intros S. pose proof (line_ids_once mv line S) as N. rewrite <- (map_map (fun e : mkey * dbl => k_id (fst e)) (fun i => (i, line))).
  induction N as [|x l H N IH]; [constructor|]. cbn. constructor; [|exact IH]. intros I. apply H. apply in_map_iff in I. destruct I as (y & E & I). now inv E.
Qed.

Lemma net_line_macros_eq mv line d h : sorted dbl mv -> Forall (fun e => 0 <= k_id (fst e) <= int_max) mv ->
  exists d' h', net_line_macros mv line d h = Ok (Z.of_nat (List.length (filter (fun e => k_line (fst e) =? line) mv)), d', h') /\ all_released h h' /\
    forall k, value_of k d' =
      match value_of k (map (fun e => ((k_id (fst e), k_line (fst e)), snd e)) (filter (fun e => k_line (fst e) =? line) mv)) with
      | Some v => Some v | None => value_of k d end.
Proof.
  intros S F. unfold net_line_macros. destruct (get_line_macro_values mv line (mkMO PNull PNull PNull 0) h) as [o h1] eqn:G.
  destruct (line_macros_released _ _ _ _ _ G) as (h2 & D & R).
  destruct (line_macros_exported _ _ _ _ _ _ S G) as (X & L & _ & E0 & E1). rewrite L.
  pose proof (line_keys_once mv line S) as NK.
  set (here := filter (fun e => k_line (fst e) =? line) mv) in *.
  assert (HL : Forall (fun e => k_line (fst e) = line) here) by (apply Forall_forall; intros e I; apply filter_In in I; lia).
  assert (C : here = [] \/ here <> []) by (destruct here; [now left|right; discriminate]). destruct C as [EH|N].
  - assert (HH : h1 = h).
    { unfold get_line_macro_values in G. rewrite line_macros_eq in G by exact S. fold here in G. rewrite EH in G. destruct mv; now inv G. }
    subst h1. rewrite EH. cbn [List.length Z.of_nat Z.eqb]. eexists _, _. split; [reflexivity|]. split; [exists O; now rewrite app_nil_r|]. intros k. reflexivity.
  - replace (Z.of_nat (List.length here) =? 0) with false by (symmetry; apply Z.eqb_neq; destruct here; [contradiction|cbn [List.length]; lia]).
    assert (F' : Forall (fun e => k_id (fst e) <= int_max /\ 0 <= k_id (fst e)) mv) by (revert F; apply Forall_impl; intros; lia).
    clear E0. destruct (E1 N F') as ((m1 & A1) & (m3 & A3)).
    assert (LD : forall p c, at_cell h1 p c -> load p h1 = Ok c) by (intros p c (n & -> & Y); unfold load; now rewrite Y).
    rewrite (LD _ _ A1), (LD _ _ A3). cbn [bind as_ints as_dbls].
    assert (FN : forall A (g : mkey * dbl -> A) m, first_n (Z.of_nat (List.length here)) (map Some (map g here) ++ m) = Ok (map Some (map g here)))
      by (intros A g m; apply first_n_app; now rewrite !map_length).
    rewrite !FN. cbn [bind]. rewrite !all_set_some. cbn [bind]. rewrite D. cbn [bind]. eexists _, h2. split; [reflexivity|]. split; [exact R|].
    intros k. rewrite map_map, combine_map. rewrite value_of_all.
    + replace (map (fun e : mkey * dbl => (k_id (fst e), k_line (fst e), snd e)) here) with (map (fun e : mkey * dbl => (k_id (fst e), line, snd e)) here); [reflexivity|].
      apply map_ext_in. intros e I. rewrite Forall_forall in HL. now rewrite (HL e I).
    + rewrite map_map. cbn. exact NK.
Qed.
