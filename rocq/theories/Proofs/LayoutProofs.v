(** What one side writes into a structure the other side reads. *)
From Verif Require Import Model.Base Model.Wrapper Model.Net Model.Layout.
From Verif Require Import Spec.NetSpec Spec.LayoutSpec.
From Verif Require Import Proofs.Tactics Proofs.NetProofs.
From Coq Require Import Lia.
Local Open Scope string_scope.
Local Open Scope list_scope.
Local Open Scope Z_scope.

(** ** Memory *)

Lemma load_agree n : forall a m m', (forall x, a <= x < a + Z.of_nat n -> m x = m' x) -> load_bytes n a m = load_bytes n a m'.
Proof.
  induction n as [|n IH]; intros a m m' H; [reflexivity|]. cbn [load_bytes]. rewrite (H a) by lia.
  f_equal. f_equal. apply IH. intros x B. apply H. lia.
Qed.

Lemma load_digits n : forall a v m, (forall x, a <= x < a + Z.of_nat n -> m x = v / 256 ^ (x - a) mod 256) -> load_bytes n a m = v mod 256 ^ Z.of_nat n.
Proof.
  induction n as [|n IH]; intros a v m H.
  - cbn. now rewrite Z.mod_1_r.
  - cbn [load_bytes]. rewrite (H a) by lia. replace (a - a) with 0 by lia. rewrite Z.pow_0_r, Z.div_1_r.
    rewrite (IH (a + 1) (v / 256) m).
    + replace (Z.of_nat (S n)) with (Z.succ (Z.of_nat n)) by lia. rewrite Z.pow_succ_r by lia.
      rewrite Z.rem_mul_r by (try lia; apply Z.pow_pos_nonneg; lia). reflexivity.
    + intros x B. rewrite H by lia. rewrite Z.div_div by (try lia; apply Z.pow_pos_nonneg; lia).
      f_equal. f_equal. replace (x - a) with (Z.succ (x - (a + 1))) by lia. now rewrite Z.pow_succ_r by lia.
Qed.

Lemma load_store n a v m : 0 <= n -> load_bytes (Z.to_nat n) a (store n a v m) = v mod 256 ^ n.
Proof.
  intros N. rewrite (load_digits (Z.to_nat n) a v).
  - now rewrite Z2Nat.id.
  - intros x B. rewrite Z2Nat.id in B by lia. unfold store.
    destruct (Z.leb_spec a x); [|lia]. destruct (Z.ltb_spec x (a + n)); [reflexivity|lia].
Qed.

Lemma store_other n a v m x : x < a \/ a + n <= x -> store n a v m x = m x.
Proof. intros H. unfold store. destruct (Z.leb_spec a x); [|reflexivity]. destruct (Z.ltb_spec x (a + n)); [lia|reflexivity]. Qed.

(** ** Fields in order *)

Fixpoint in_order (o : Z) (l : list (Z * Z)) (e : Z) : Prop :=
  match l with [] => o <= e | (n, f) :: l' => o <= f /\ 0 < n /\ in_order (f + n) l' e end.

Lemma in_order_le l : forall o e, in_order o l e -> o <= e.
Proof. induction l as [|[n f] l IH]; intros o e H; cbn in H; [lia|]. destruct H as (A & B & C). apply IH in C. lia. Qed.

Section WithAlloc.
Variable alloc : nat -> Z.
Variable most : nat.
Hypothesis AL : addresses alloc most.

Lemma made_fresh ts : made alloc ts -> forall i, (List.length ts <= i)%nat -> (i < most)%nat -> text_of (alloc i) ts = None.
Proof.
  induction 1 as [|t ts M IH]; intros i L B; [reflexivity|]. cbn in *.
  destruct (Z.eqb_spec (alloc i) (alloc (List.length ts))) as [E|]; [|apply IH; lia].
  apply (proj1 AL) in E; lia.
Qed.

Definition extends (ts ts' : texts) : Prop := forall a t, text_of a ts = Some t -> text_of a ts' = Some t.

(** What the bytes of a value are. *)
Definition holds (ts : texts) (n : Z) (v : value) (z : Z) : Prop :=
  match v with
  | VNum x => z = x mod 256 ^ n
  | VBool b => z = if b then 1 else 0
  | VText None => z = 0
  | VText (Some t) => 0 < z < 2 ^ 64 /\ text_of z ts = Some t
  end.

(** The size has room for the value. *)
Definition room (n : Z) (v : value) : Prop := 0 < n /\ match v with VText _ => n = 8 | _ => True end.

Lemma number_of_length n v ts z ts' : number_of alloc n v ts = (z, ts') -> (List.length ts <= List.length ts')%nat.
Proof. destruct v as [x|b|[t|]]; cbn; intros E; inv E; cbn; lia. Qed.

Lemma store_fields_length base l : forall vs m ts m' ts', store_fields alloc base l vs m ts = (m', ts') -> (List.length ts <= List.length ts')%nat.
Proof.
  induction l as [|[n f] l IH]; intros [|v vs] m ts m' ts' E; cbn [store_fields] in E; try (inv E; lia).
  destruct (number_of alloc n v ts) as [z ts1] eqn:N. apply number_of_length in N. apply IH in E. lia.
Qed.

Lemma store_all_length l size : forall vss base m ts m' ts', store_all alloc l size base vss m ts = (m', ts') -> (List.length ts <= List.length ts')%nat.
Proof.
  induction vss as [|vs vss IH]; intros base m ts m' ts' E; cbn [store_all] in E; [inv E; lia|].
  destruct (store_fields alloc base l vs m ts) as [m1 ts1] eqn:F. apply store_fields_length in F. apply IH in E. lia.
Qed.

Lemma number_of_ok n v ts z ts' : (List.length ts' <= most)%nat -> made alloc ts -> room n v -> number_of alloc n v ts = (z, ts') ->
  made alloc ts' /\ extends ts ts' /\ holds ts' n v (z mod 256 ^ n).
Proof.
  intros LE M [N R] E. destruct v as [x|b|[t|]]; cbn in E; inv E.
  - repeat split; auto; [intros ? ? H; exact H|]. cbn. apply Z.mod_mod. pose proof (Z.pow_pos_nonneg 256 n). lia.
  - repeat split; auto; [intros ? ? H; exact H|]. cbn. assert (256 ^ 1 <= 256 ^ n) by (apply Z.pow_le_mono_r; lia).
    change (256 ^ 1) with 256 in *. apply Z.mod_small. destruct b; lia.
  - repeat split; auto.
    + constructor. exact M.
    + intros a u H. cbn. destruct (Z.eqb_spec a (alloc (List.length ts))) as [->|]; [|exact H].
      rewrite (made_fresh ts M) in H by (cbn in LE; lia). discriminate.
    + cbn. destruct (proj2 AL (List.length ts)); [cbn in LE; lia|]. rewrite Z.mod_small by (change (256 ^ 8) with (2 ^ 64); lia). lia.
    + cbn. destruct (proj2 AL (List.length ts)); [cbn in LE; lia|]. rewrite Z.mod_small by (change (256 ^ 8) with (2 ^ 64); lia). lia.
    + cbn. destruct (proj2 AL (List.length ts)); [cbn in LE; lia|]. rewrite Z.mod_small by (change (256 ^ 8) with (2 ^ 64); lia).
      now rewrite Z.eqb_refl.
  - repeat split; auto; try (intros ? ? H; exact H).
Qed.

Lemma holds_extends ts ts' n v z : extends ts ts' -> holds ts n v z -> holds ts' n v z.
Proof. intros E H. destruct v as [x|b|[t|]]; auto. destruct H. split; auto. Qed.

(** What a structure at [base] holds. *)
Definition struct_holds (m : bytes) (ts : texts) (base : Z) (l : list (Z * Z)) (vs : list value) : Prop :=
  Forall2 (fun f v => holds ts (fst f) v (load_bytes (Z.to_nat (fst f)) (base + snd f) m)) l vs.

Lemma struct_agree m m' ts ts' base l vs : forall o e, in_order o l e -> (forall x, base + o <= x < base + e -> m x = m' x) -> extends ts ts' ->
  struct_holds m ts base l vs -> struct_holds m' ts' base l vs.
Proof.
  intros o e O A X H. revert o O A. induction H as [|[n f] v l vs H H0 IH]; intros o O A; constructor.
  - cbn [fst snd] in *. cbn in O. destruct O as (O1 & O2 & O3). apply in_order_le in O3.
    apply (holds_extends ts); [exact X|]. rewrite <- (load_agree _ _ m m'); [exact H|]. intros x B. apply A. lia.
  - cbn in O. destruct O as (O1 & O2 & O3). apply (IH (f + n) O3). intros x B. apply A. lia.
Qed.

Lemma store_fields_ok base l : forall vs m ts m' ts' o e, (List.length ts' <= most)%nat -> made alloc ts -> in_order o l e -> Forall2 (fun f v => room (fst f) v) l vs ->
  store_fields alloc base l vs m ts = (m', ts') ->
  made alloc ts' /\ extends ts ts' /\ (forall x, x < base + o \/ base + e <= x -> m' x = m x) /\ struct_holds m' ts' base l vs.
Proof.
  induction l as [|[n f] l IH]; intros vs m ts m' ts' o e LE M O R E.
  - inv R. cbn in E. inv E. repeat split; auto; [intros ? ? H; exact H|constructor].
  - inv R. rename y into v. rename l' into vs. cbn [fst] in *. cbn [store_fields] in E.
    destruct (number_of alloc n v ts) as [z ts1] eqn:N. pose proof (store_fields_length _ _ _ _ _ _ _ E) as LE1.
    destruct (number_of_ok _ _ _ _ _ (Nat.le_trans _ _ _ LE1 LE) M H1 N) as (M1 & X1 & H).
    cbn in O. destruct O as (O1 & O2 & O3).
    destruct (IH _ _ _ _ _ _ _ LE M1 O3 H3 E) as (M2 & X2 & U & S). pose proof (in_order_le _ _ _ O3).
    repeat split; auto.
    + intros a t A. auto.
    + intros x B. rewrite U by lia. apply store_other. lia.
    + constructor; [|exact S]. cbn [fst snd]. rewrite (load_agree _ _ m' (store n (base + f) z m)).
      * rewrite load_store by lia. apply (holds_extends ts1); assumption.
      * intros x B. apply U. lia.
Qed.

Lemma store_all_ok l size : forall vss base m ts m' ts', (List.length ts' <= most)%nat -> made alloc ts -> in_order 0 l size ->
  Forall (fun vs => Forall2 (fun f v => room (fst f) v) l vs) vss ->
  store_all alloc l size base vss m ts = (m', ts') ->
  made alloc ts' /\ extends ts ts' /\ (forall x, x < base \/ base + Z.of_nat (List.length vss) * size <= x -> m' x = m x) /\
  forall i vs, nth_error vss i = Some vs -> struct_holds m' ts' (base + Z.of_nat i * size) l vs.
Proof.
  induction vss as [|vs vss IH]; intros base m ts m' ts' LE M O R E.
  - cbn in E. inv E. repeat split; auto; [intros ? ? H; exact H|]. intros [|i] vs H; discriminate.
  - inv R. cbn [store_all] in E. destruct (store_fields alloc base l vs m ts) as [m1 ts1] eqn:F.
    pose proof (store_all_length _ _ _ _ _ _ _ _ E) as LE1.
    destruct (store_fields_ok base l vs m ts m1 ts1 0 size (Nat.le_trans _ _ _ LE1 LE) M O H1 F) as (M1 & X1 & U1 & S1).
    destruct (IH _ _ _ _ _ LE M1 O H2 E) as (M2 & X2 & U2 & S2). pose proof (in_order_le _ _ _ O).
    cbn [List.length]. repeat split; auto.
    + intros a t A. auto.
    + intros x B. rewrite U2 by nia. apply U1. nia.
    + intros [|i] us N; cbn in N.
      * inv N. replace (base + Z.of_nat 0 * size) with base by lia.
        apply (struct_agree m1 m' ts1 ts' base l us 0 size O); auto. intros x B. symmetry. apply U2. lia.
      * replace (base + Z.of_nat (S i) * size) with (base + size + Z.of_nat i * size) by lia. auto.
Qed.

End WithAlloc.

(** ** Readers *)

Definition kinds_match (k : net_kind) (c : cpp_kind) : bool :=
  match k, c with
  | NText, CText | NDouble, CDouble | NInt, CInt | NUint, CUint | NEnum, CEnum | NBool1, CBool => true
  | _, _ => false
  end.

Lemma match_size k c : kinds_match k c = true -> net_size k = cpp_size c.
Proof. destruct k, c; intros H; try discriminate; reflexivity. Qed.

Lemma to_i32_mod z : - 2 ^ 31 <= z < 2 ^ 31 -> to_i32 (z mod 256 ^ 4) = z.
Proof.
  intros H. unfold to_i32. change (256 ^ 4) with 4294967296. change (2 ^ 31) with 2147483648 in H.
  rewrite Zplus_mod_idemp_l. rewrite Z.mod_small; lia.
Qed.

Lemma cpp_field_ok m ts a k c v : kinds_match k c = true -> fits k v ->
  holds ts (net_size k) v (load_bytes (Z.to_nat (net_size k)) a m) -> cpp_field m ts a c = Ok (carried v).
Proof.
  intros K F H. unfold cpp_field. rewrite <- (match_size k c K).
  destruct k, c; try discriminate K; destruct v as [x|b|[t|]]; try contradiction F; cbn [holds fits carried] in *.
  - destruct H as [H1 H2]. destruct (Z.eqb_spec (load_bytes (Z.to_nat (net_size NText)) a m) 0); [lia|]. rewrite H2, c_text_terminated. reflexivity.
  - rewrite H. cbn [net_size]. rewrite Z.mod_small by exact F. reflexivity.
  - rewrite H. cbn [net_size]. rewrite to_i32_mod by exact F. reflexivity.
  - rewrite H. cbn [net_size]. rewrite Z.mod_small by exact F. reflexivity.
  - rewrite H. cbn [net_size]. rewrite to_i32_mod by exact F. reflexivity.
  - rewrite H. destruct b; reflexivity.
Qed.

Lemma net_field_ok m ts a k v : fits k v ->
  holds ts (net_size k) v (load_bytes (Z.to_nat (net_size k)) a m) -> net_field m ts a k = Ok (carried v).
Proof.
  intros F H. unfold net_field. destruct k; destruct v as [x|b|[t|]]; try contradiction F; cbn [holds fits carried] in *.
  - destruct H as [H1 H2]. destruct (Z.eqb_spec (load_bytes (Z.to_nat (net_size NText)) a m) 0); [lia|]. rewrite H2, c_text_terminated. reflexivity.
  - rewrite H. cbn [net_size]. rewrite Z.mod_small by exact F. reflexivity.
  - rewrite H. cbn [net_size]. rewrite to_i32_mod by exact F. reflexivity.
  - rewrite H. cbn [net_size]. rewrite Z.mod_small by exact F. reflexivity.
  - rewrite H. cbn [net_size]. rewrite to_i32_mod by exact F. reflexivity.
  - rewrite H. destruct b; reflexivity.
  - rewrite H. destruct b; reflexivity.
Qed.

(** ** Two declarations of one structure *)

Definition same_fieldb (n c : string) : bool := String.eqb n c || (String.eqb n "type" && String.eqb c "word_type").

Fixpoint same_layout (l : list (string * net_kind * Z)) (c : list (string * cpp_kind * Z)) : bool :=
  match l, c with
  | [], [] => true
  | (n, k, o) :: l', (n', k', o') :: c' => same_fieldb n n' && kinds_match k k' && Z.eqb o o' && same_layout l' c'
  | _, _ => false
  end.

Fixpoint in_orderb (o : Z) (l : list (Z * Z)) (e : Z) : bool :=
  match l with [] => Z.leb o e | (n, f) :: l' => Z.leb o f && Z.ltb 0 n && in_orderb (f + n) l' e end.

Lemma in_orderb_ok l : forall o e, in_orderb o l e = true -> in_order o l e.
Proof.
  induction l as [|[n f] l IH]; intros o e H; cbn in *; [lia|].
  apply andb_prop in H as [H H3]. apply andb_prop in H as [H1 H2]. repeat split; try lia. now apply IH.
Qed.

Definition pair_ok (p : list (string * net_kind) * list (string * cpp_kind)) : bool :=
  let '(n, c) := p in
  same_layout (net_layout 0 n) (cpp_layout 0 c) && Z.eqb (net_sizeof n) (cpp_sizeof c) && in_orderb 0 (net_places n) (net_sizeof n).

Lemma shared_ok : forallb pair_ok shared = true.
Proof. vm_compute. reflexivity. Qed.

Record pair_facts (n : list (string * net_kind)) (c : list (string * cpp_kind)) : Prop := {
  pf_layout : same_layout (net_layout 0 n) (cpp_layout 0 c) = true;
  pf_size : net_sizeof n = cpp_sizeof c;
  pf_order : in_order 0 (net_places n) (net_sizeof n) }.

Lemma shared_facts n c : In (n, c) shared -> pair_facts n c.
Proof.
  intros H. pose proof (proj1 (forallb_forall _ _) shared_ok _ H) as P. cbn [pair_ok] in P.
  apply andb_prop in P as [P P3]. apply andb_prop in P as [P1 P2]. constructor; [exact P1|lia|now apply in_orderb_ok].
Qed.

Lemma same_fieldb_ok n c : same_fieldb n c = true -> same_field n c.
Proof.
  unfold same_fieldb. intros H. apply Bool.orb_prop in H as [H|H].
  - left. now apply String.eqb_eq.
  - right. apply andb_prop in H as [A B]. split; now apply String.eqb_eq.
Qed.

Lemma net_layout_names fs : forall o, map (fun e => fst (fst e)) (net_layout o fs) = map fst fs.
Proof. induction fs as [|[n k] fs IH]; intros o; cbn; [reflexivity|]. now rewrite IH. Qed.
Lemma net_layout_kinds fs : forall o, map (fun e => snd (fst e)) (net_layout o fs) = map snd fs.
Proof. induction fs as [|[n k] fs IH]; intros o; cbn; [reflexivity|]. now rewrite IH. Qed.
Lemma cpp_layout_names fs : forall o, map (fun e => fst (fst e)) (cpp_layout o fs) = map fst fs.
Proof. induction fs as [|[n k] fs IH]; intros o; cbn; [reflexivity|]. now rewrite IH. Qed.

Lemma same_places l : forall c, same_layout l c = true ->
  map (fun e => (net_size (snd (fst e)), snd e)) l = map (fun e => (cpp_size (snd (fst e)), snd e)) c.
Proof.
  induction l as [|[[n k] o] l IH]; intros [|[[n' k'] o'] c] H; try discriminate H; [reflexivity|].
  cbn in H. apply andb_prop in H as [H H4]. apply andb_prop in H as [H H3]. apply andb_prop in H as [H1 H2].
  cbn. rewrite (match_size k k' H2), (IH c H4). replace o' with o by lia. reflexivity.
Qed.

Lemma cpp_fields_ok m ts base l : forall c vs, same_layout l c = true -> Forall2 fits (map (fun e => snd (fst e)) l) vs ->
  struct_holds m ts base (map (fun e => (net_size (snd (fst e)), snd e)) l) vs ->
  exists r, cpp_fields m ts base c = Ok r /\ has_values (map (fun e => fst (fst e)) l) vs r.
Proof.
  induction l as [|[[n k] o] l IH]; intros [|[[n' k'] o'] c] vs H F S; try discriminate H.
  - cbn in F. inv F. exists []. repeat split; constructor.
  - cbn in H. apply andb_prop in H as [H H4]. apply andb_prop in H as [H H3]. apply andb_prop in H as [H1 H2].
    cbn in F, S. inversion F as [|? y ? l' Fy Fl]; subst. inversion S as [|? ? ? ? Sy Sl]; subst. cbn [fst snd] in *. destruct (IH c l' H4 Fl Sl) as (r & E & V1 & V2).
    exists ((n', carried y) :: r). cbn [cpp_fields]. replace o' with o by lia. rewrite (cpp_field_ok m ts (base + o) k k' y) by assumption.
    cbn [bind]. rewrite E. cbn [bind]. repeat split.
    + constructor; [now apply same_fieldb_ok|exact V1].
    + cbn. now rewrite V2.
Qed.

Lemma net_fields_ok m ts base l : forall vs, Forall2 fits (map (fun e => snd (fst e)) l) vs ->
  struct_holds m ts base (map (fun e => (net_size (snd (fst e)), snd e)) l) vs ->
  net_fields m ts base l = Ok (combine (map (fun e => fst (fst e)) l) (map carried vs)).
Proof.
  induction l as [|[[n k] o] l IH]; intros vs F S; cbn in F, S; inv F; [reflexivity|].
  inv S. cbn [fst snd] in *. cbn [net_fields]. rewrite (net_field_ok m ts (base + o) k y) by assumption. cbn [bind].
  rewrite (IH l') by assumption. reflexivity.
Qed.

Lemma fits_room k v : fits k v -> room (net_size k) v.
Proof. intros F. destruct k; destruct v as [x|b|[t|]]; try contradiction F; split; cbn; try lia; exact Logic.I. Qed.

Lemma fits_rooms n vs : Forall2 fits (map snd n) vs -> Forall2 (fun f v => room (fst f) v) (net_places n) vs.
Proof.
  rewrite <- (net_layout_kinds n 0). unfold net_places. generalize (net_layout 0 n) as l. intros l. revert vs.
  induction l as [|[[s k] o] l IH]; intros vs F; cbn in F; inv F; constructor; [now apply fits_room|]. now apply IH.
Qed.

(** ** Both directions *)

Theorem net_to_cpp alloc n c vss base m ts m' ts' : addresses alloc (List.length ts') -> made alloc ts -> In (n, c) shared -> Forall (Forall2 fits (map snd n)) vss ->
  net_array alloc n base vss m ts = (m', ts') ->
  made alloc ts' /\ (forall x, x < base \/ base + Z.of_nat (List.length vss) * net_sizeof n <= x -> m' x = m x) /\
  forall i vs, nth_error vss i = Some vs -> exists r, cpp_element c m' ts' base i = Ok r /\ has_values (map fst n) vs r.
Proof.
  intros AL M S F E. destruct (shared_facts n c S) as [P1 P2 P3]. unfold net_array in E.
  assert (R : Forall (fun vs => Forall2 (fun f v => room (fst f) v) (net_places n) vs) vss).
  { eapply Forall_impl; [|exact F]. intros vs H. now apply fits_rooms. }
  destruct (store_all_ok alloc _ AL _ _ _ _ _ _ _ _ (Nat.le_refl _) M P3 R E) as (M' & X & U & H). repeat split; auto.
  intros i vs N. specialize (H i vs N). unfold cpp_element, cpp_struct. rewrite <- P2. rewrite <- (net_layout_names n 0).
  apply cpp_fields_ok; [exact P1| |exact H]. rewrite net_layout_kinds. rewrite Forall_forall in F. apply F. eapply nth_error_In; eauto.
Qed.

Theorem net_struct_cpp alloc n c vs base m ts m' ts' : addresses alloc (List.length ts') -> made alloc ts -> In (n, c) shared -> Forall2 fits (map snd n) vs ->
  net_struct alloc n base vs m ts = (m', ts') -> exists r, cpp_struct c m' ts' base = Ok r /\ has_values (map fst n) vs r.
Proof.
  intros AL M S F E.
  destruct (net_to_cpp alloc n c [vs] base m ts m' ts' AL M S) as (_ & _ & H).
  - repeat constructor. exact F.
  - unfold net_array. cbn [store_all]. unfold net_struct in E. rewrite E. reflexivity.
  - destruct (H 0%nat vs eq_refl) as (r & R & V). exists r. split; [|exact V]. unfold cpp_element in R.
    replace (base + Z.of_nat 0 * cpp_sizeof c) with base in R by lia. exact R.
Qed.

Theorem cpp_to_net alloc n c vss base m ts m' ts' : addresses alloc (List.length ts') -> made alloc ts -> In (n, c) shared -> Forall (Forall2 fits (map snd n)) vss ->
  cpp_array alloc c base vss m ts = (m', ts') ->
  forall i vs, nth_error vss i = Some vs -> net_element n m' ts' base i = Ok (combine (map fst n) (map carried vs)).
Proof.
  intros AL M S F E. destruct (shared_facts n c S) as [P1 P2 P3]. unfold cpp_array, cpp_places in E.
  rewrite <- (same_places _ _ P1) in E. rewrite <- P2 in E. fold (net_places n) in E.
  assert (R : Forall (fun vs => Forall2 (fun f v => room (fst f) v) (net_places n) vs) vss).
  { eapply Forall_impl; [|exact F]. intros vs H. now apply fits_rooms. }
  destruct (store_all_ok alloc _ AL _ _ _ _ _ _ _ _ (Nat.le_refl _) M P3 R E) as (M' & X & U & H).
  intros i vs N. specialize (H i vs N). unfold net_element. rewrite <- (net_layout_names n 0).
  apply net_fields_ok; [|exact H]. rewrite net_layout_kinds. rewrite Forall_forall in F. apply F. eapply nth_error_In; eauto.
Qed.

(** ** Null texts *)

Theorem null_text alloc n c vs base m ts m' ts' : addresses alloc (List.length ts') -> made alloc ts -> In (n, c) shared ->
  Forall2 (fun k v => fits k v \/ (k = NText /\ v = VText None)) (map snd n) vs -> In (VText None) vs ->
  net_struct alloc n base vs m ts = (m', ts') -> exists w, cpp_struct c m' ts' base = Exc (EUB w).
Proof.
  intros AL M S F I E. destruct (shared_facts n c S) as [P1 P2 P3]. unfold net_struct in E.
  assert (R : Forall2 (fun f v => room (fst f) v) (net_places n) vs).
  { clear -F. rewrite <- (net_layout_kinds n 0) in F. unfold net_places. revert F. generalize (net_layout 0 n) as l. intros l. revert vs.
    induction l as [|[[s k] o] l IH]; intros vs F; cbn in F; inv F; constructor; [|now apply IH].
    destruct H1 as [H1|[-> ->]]; [now apply fits_room|]. split; cbn; lia. }
  destruct (store_fields_ok alloc _ AL base _ _ _ _ _ _ 0 (net_sizeof n) (Nat.le_refl _) M P3 R E) as (M' & X & U & H).
  clear -P1 F I H. unfold cpp_struct. rewrite <- (net_layout_kinds n 0) in F. unfold net_places in H.
  revert P1 F H. generalize (net_layout 0 n) as l. generalize (cpp_layout 0 c) as d. intros d l. revert d vs I.
  induction l as [|[[s k] o] l IH]; intros [|[[s' k'] o'] d] vs I P F H; try discriminate P.
  - cbn in F. inv F. contradiction I.
  - cbn in P. apply andb_prop in P as [P H4]. apply andb_prop in P as [P H3]. apply andb_prop in P as [H1 H2].
    cbn in F, H. inversion F as [|? y ? l' Fy Fl]; subst. inversion H as [|? ? ? ? Sy Sl]; subst. cbn [fst snd] in *. cbn [cpp_fields]. replace o' with o by lia.
    destruct Fy as [H6|[-> ->]].
    + rewrite (cpp_field_ok m' ts' (base + o) k k' y) by assumption. cbn [bind].
      destruct I as [->|I]; [destruct k; contradiction H6|].
      destruct (IH d l' I H4 Fl Sl) as [w W]. rewrite W. now exists w.
    + destruct k'; try discriminate H2. unfold cpp_field. cbn [holds net_size cpp_size] in *.
      rewrite Sy. cbn. now eexists.
Qed.
