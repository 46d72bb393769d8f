(** The machine settings a .NET program hands over. *)
From Verif Require Import Model.Base Model.Wrapper Model.Net Model.Layout.
From Verif Require Import Spec.NetSpec Spec.LayoutSpec.
From Verif Require Import Proofs.Tactics Proofs.NetProofs Proofs.LayoutProofs.
From Coq Require Import Lia.
Local Open Scope string_scope.
Local Open Scope list_scope.
Local Open Scope Z_scope.

Lemma assign_finds {A} k k' (v : A) m : assoc k' (assign k v m) = if String.eqb k' k then Some v else assoc k' m.
Proof.
  induction m as [|[j w] m IH]; cbn.
  - reflexivity.
  - destruct (String.eqb_spec k j) as [->|D]; cbn.
    + destruct (String.eqb_spec k' j); reflexivity.
    + rewrite IH. destruct (String.eqb_spec k' j) as [->|]; [|reflexivity].
      destruct (String.eqb_spec j k); [congruence|reflexivity].
Qed.

(** The map after an array of keys and values has been put into it. *)
Definition put_all {A} (l acc : list (string * A)) : list (string * A) := fold_left (fun m e => assign (upto_zero (fst e)) (snd e) m) l acc.

Lemma put_all_other {A} l : forall (acc : list (string * A)) k, ~ In k (map (fun e => upto_zero (fst e)) l) -> assoc k (put_all l acc) = assoc k acc.
Proof.
  induction l as [|[j v] l IH]; intros acc k N; [reflexivity|]. cbn in N.
  change (put_all ((j, v) :: l) acc) with (put_all l (assign (upto_zero j) v acc)). rewrite IH by tauto. rewrite assign_finds.
  destruct (String.eqb_spec k (upto_zero j)) as [->|]; [tauto|reflexivity].
Qed.

Lemma put_all_finds {A} l : forall (acc : list (string * A)) k, NoDup (map (fun e => upto_zero (fst e)) l) ->
  assoc k (put_all l acc) = match assoc k (map (fun e => (upto_zero (fst e), snd e)) l) with Some v => Some v | None => assoc k acc end.
Proof.
  induction l as [|[j v] l IH]; intros acc k N; [reflexivity|]. cbn [map fst snd] in *. inv N.
  change (put_all ((j, v) :: l) acc) with (put_all l (assign (upto_zero j) v acc)). cbn [assoc]. destruct (String.eqb_spec k (upto_zero j)) as [->|D].
  - rewrite put_all_other by assumption. rewrite assign_finds, String.eqb_refl. reflexivity.
  - rewrite IH by assumption. destruct (assoc k _); [reflexivity|]. rewrite assign_finds. destruct (String.eqb_spec k (upto_zero j)); [congruence|reflexivity].
Qed.

Lemma points_put d : points_of d = Ok (put_all d []).
Proof.
  unfold points_of, put_all. generalize (@nil (string * Z)) as acc. induction d as [|e d IH]; intros acc; [reflexivity|].
  cbn [fold_left bind]. rewrite c_text_terminated. cbn [bind]. apply IH.
Qed.

Theorem points_ok d : NoDup (map (fun e => upto_zero (fst e)) d) ->
  exists r, points_of d = Ok r /\ forall k, assoc k r = assoc k (map (fun e => (upto_zero (fst e), snd e)) d).
Proof.
  intros N. exists (put_all d []). split; [apply points_put|]. intros k. rewrite put_all_finds by exact N. now destruct (assoc k _).
Qed.

(** ** Axes *)

Definition axis_values (e : string * (Z * Z)) : list value := [VText (Some (fst e)); VNum (fst (snd e)); VNum (snd (snd e))].

Lemma axis_element c m ts base i e : In (net_axis, c) shared -> c = cpp_axis ->
  (exists r, cpp_element c m ts base i = Ok r /\ has_values (map fst net_axis) (axis_values e) r) ->
  exists x y z, cpp_element cpp_axis m ts base i = Ok [(x, VText (Some (upto_zero (fst e)))); (y, VNum (fst (snd e))); (z, VNum (snd (snd e)))].
Proof.
  intros _ -> (r & R & _ & V). cbn in V.
  destruct r as [|[x a] [|[y b] [|[z d] [|? ?]]]]; cbn in V; try discriminate V. inv V.
  do 3 eexists. exact R.
Qed.

Lemma cpp_axes_ok m ts base : forall l x acc,
  (forall i e, nth_error l i = Some e -> exists a b c, cpp_element cpp_axis m ts base (x + i) =
     Ok [(a, VText (Some (upto_zero (fst e)))); (b, VNum (fst (snd e))); (c, VNum (snd (snd e)))]) ->
  cpp_axes m ts base (List.length l) x acc = Ok (put_all l acc).
Proof.
  induction l as [|e l IH]; intros x acc H; [reflexivity|]. cbn [List.length cpp_axes].
  destruct (H 0%nat e eq_refl) as (a & b & c & E). rewrite Nat.add_0_r in E. rewrite E. cbn [bind].
  destruct e as [n [lo hi]]. cbn [fst snd].
  change (put_all ((n, (lo, hi)) :: l) acc) with (put_all l (assign (upto_zero n) (lo, hi) acc)).
  apply IH. intros i e' N. destruct (H (S i) e' N) as (a' & b' & c' & E'). exists a', b', c'. replace (S x + i)%nat with (x + S i)%nat by lia. exact E'.
Qed.

Lemma shared_axis : In (net_axis, cpp_axis) shared.
Proof. unfold shared. do 6 right; left; reflexivity. Qed.
Lemma shared_kinematics : In (net_kinematics, cpp_kinematics) shared.
Proof. unfold shared. do 7 right; left; reflexivity. Qed.

Theorem kinematics_ok alloc base axes k axis m ts m' ts' : addresses alloc (List.length ts') -> made alloc ts ->
  Forall2 fits (map snd net_kinematics) k -> Forall (fun e => 0 <= fst (snd e) < 2 ^ 64 /\ 0 <= snd (snd e) < 2 ^ 64) axis ->
  base + 72 <= axes \/ axes + 24 * Z.of_nat (List.length axis) <= base -> NoDup (map (fun e => upto_zero (fst e)) axis) ->
  net_fill_kinematics alloc base axes k axis m ts = (m', ts') ->
  exists r a, cpp_fill_kinematics m' ts' base axes (List.length axis) = Ok (r, a) /\ has_values (map fst net_kinematics) k r /\
    forall x, assoc x a = assoc x (map (fun e => (upto_zero (fst e), snd e)) axis).
Proof.
  intros AL M FK FA D N E. unfold net_fill_kinematics in E.
  destruct (net_struct alloc net_kinematics base k m ts) as [m1 ts1] eqn:E1.
  destruct (shared_facts _ _ shared_kinematics) as [P1 P2 P3].
  destruct (store_fields_ok alloc _ AL base _ _ _ _ _ _ 0 _ (store_all_length _ _ _ _ _ _ _ _ _ E) M P3 (fits_rooms _ _ FK) E1) as (M1 & X1 & U1 & S1).
  assert (F : Forall (Forall2 fits (map snd net_axis)) (map axis_values axis)).
  { apply Forall_map. eapply Forall_impl; [|exact FA]. intros e [A B]. repeat constructor; cbn; lia. }
  change (map (fun e => [VText (Some (fst e)); VNum (fst (snd e)); VNum (snd (snd e))]) axis) with (map axis_values axis) in E.
  destruct (shared_facts _ _ shared_axis) as [Q1 Q2 Q3].
  assert (R : Forall (fun vs => Forall2 (fun f v => room (fst f) v) (net_places net_axis) vs) (map axis_values axis)).
  { eapply Forall_impl; [|exact F]. intros vs H. now apply fits_rooms. }
  destruct (store_all_ok alloc _ AL _ _ _ _ _ _ _ _ (Nat.le_refl _) M1 Q3 R E) as (M2 & X2 & U2 & _). rewrite map_length in U2.
  change (net_sizeof net_axis) with 24 in U2. change (net_sizeof net_kinematics) with 72 in *.
  assert (S2 : struct_holds m' ts' base (net_places net_kinematics) k).
  { apply (struct_agree m1 m' ts1 ts' base _ k 0 72 P3); auto. intros x B. symmetry. apply U2. lia. }
  destruct (cpp_fields_ok m' ts' base _ _ k P1) as (r & RE & RV); [now rewrite net_layout_kinds|exact S2|]. rewrite net_layout_names in RV.
  destruct (net_to_cpp alloc _ _ _ _ _ _ _ _ AL M1 shared_axis F E) as (_ & _ & H).
  exists r, (put_all axis []). unfold cpp_fill_kinematics, cpp_struct. rewrite RE. cbn [bind]. rewrite cpp_axes_ok.
  - cbn [bind]. repeat split; try apply RV. intros x. rewrite put_all_finds by exact N. now destruct (assoc x _).
  - intros i e NE. cbn [Nat.add]. apply (axis_element cpp_axis); [exact shared_axis|reflexivity|]. apply H. rewrite nth_error_map, NE. reflexivity.
Qed.

(** ** The zero point *)

Theorem zero_point_ok alloc base d x y z m ts m' ts' : addresses alloc (List.length ts') -> made alloc ts -> assoc "X" d = Some x -> assoc "Y" d = Some y -> assoc "Z" d = Some z ->
  0 <= x < 2 ^ 64 -> 0 <= y < 2 ^ 64 -> 0 <= z < 2 ^ 64 ->
  exists vs, net_zero_point_of d = Ok vs /\
  (net_struct alloc net_zero_point base vs m ts = (m', ts') -> cpp_struct cpp_zero_point m' ts' base = Ok [("x", VNum x); ("y", VNum y); ("z", VNum z)]).
Proof.
  intros AL M X Y Z BX BY BZ. unfold net_zero_point_of. rewrite X, Y, Z. eexists. split; [reflexivity|]. intros E.
  destruct (net_struct_cpp alloc net_zero_point cpp_zero_point [VNum x; VNum y; VNum z] base m ts m' ts' AL M) with (3 := E) as (r & R & V1 & V2).
  - unfold shared. do 10 right. left. reflexivity.
  - cbn [map snd net_zero_point]. repeat (apply Forall2_cons; [cbn [fits]; assumption|]). apply Forall2_nil.
  - rewrite R. cbn in R. unfold cpp_struct in R. cbn in V1, V2.
    destruct r as [|[a va] [|[b vb] [|[c vc] [|? ?]]]]; cbn in V2; try discriminate V2. inv V2.
    inversion V1 as [|? ? ? ? A V1']; subst. inversion V1' as [|? ? ? ? B V1'']; subst. inversion V1'' as [|? ? ? ? C _]; subst.
    cbn in A, B, C. destruct A as [<-|[A _]]; [|discriminate A]. destruct B as [<-|[B _]]; [|discriminate B]. destruct C as [<-|[C _]]; [|discriminate C]. reflexivity.
Qed.

Theorem zero_point_missing d : assoc "X" d = None \/ assoc "Y" d = None \/ assoc "Z" d = None -> net_zero_point_of d = Exc EOutOfRange.
Proof. unfold net_zero_point_of. intros [H|[H|H]]; rewrite H; destruct (assoc "X" d); try reflexivity; destruct (assoc "Y" d); reflexivity. Qed.

(** ** Enumerations *)

Definition meaning (n c : string) : bool :=
  String.eqb (plain n) (plain c) ||
  existsb (fun e => String.eqb n (fst e) && String.eqb c (snd e))
    [("feed_per_minute", "PerMinute"); ("feed_per_revolution", "PerRevolution"); ("beginning", "G98"); ("point_r", "G99")].

Lemma meaning_ok n c : meaning n c = true -> same_meaning n c.
Proof.
  intros H. apply Bool.orb_prop in H as [H|H].
  - left. now apply String.eqb_eq.
  - right. apply existsb_exists in H as ([a b] & I & E). apply andb_prop in E as [A B]. apply String.eqb_eq in A, B. cbn in *. subst. exact I.
Qed.

Definition enum_ok (p : (string * list (string * Z)) * (string * list (string * Z))) : bool :=
  let '((_, n), (_, c)) := p in
  forallb (fun e => Z.eqb (snd e) (-1) || existsb (fun f => meaning (fst e) (fst f) && Z.eqb (snd e) (snd f)) c) n &&
  forallb (fun f => existsb (fun e => meaning (fst e) (fst f) && Z.eqb (snd e) (snd f)) n) c.

Lemma enums_ok : forallb enum_ok (combine net_enums cpp_enums) = true.
Proof. vm_compute. reflexivity. Qed.

Theorem enum_numbers i n c ns cs : nth_error net_enums i = Some (n, ns) -> nth_error cpp_enums i = Some (c, cs) ->
  (forall x z, In (x, z) ns -> x = "unset" \/ exists y, In (y, z) cs /\ same_meaning x y) /\
  (forall y z, In (y, z) cs -> exists x, In (x, z) ns /\ same_meaning x y).
Proof.
  intros N C.
  assert (I : In ((n, ns), (c, cs)) (combine net_enums cpp_enums)).
  { revert N C. generalize net_enums as l. generalize cpp_enums as k. revert i. induction i as [|i IH]; intros [|b k] [|a l] N C; try discriminate; cbn in N, C.
    - inv N. inv C. left. reflexivity.
    - right. now apply IH. }
  pose proof (proj1 (forallb_forall _ _) enums_ok _ I) as P. cbn [enum_ok] in P. apply andb_prop in P as [P1 P2].
  split.
  - intros x z X. pose proof (proj1 (forallb_forall _ _) P1 _ X) as E. cbn [fst snd] in E. apply Bool.orb_prop in E as [E|E].
    + left. apply Z.eqb_eq in E. subst z. clear - I X. cbn in I.
      repeat (destruct I as [I|I]; [inv I; cbn in X; repeat (destruct X as [X|X]; [inv X; try reflexivity|]); contradiction|]). contradiction.
    + right. apply existsb_exists in E as ([y w] & Y & E). apply andb_prop in E as [E1 E2]. apply Z.eqb_eq in E2. cbn in E2. subst. exists y. split; [exact Y|now apply meaning_ok].
  - intros y z Y. pose proof (proj1 (forallb_forall _ _) P2 _ Y) as E. apply existsb_exists in E as ([x w] & X & E).
    apply andb_prop in E as [E1 E2]. apply Z.eqb_eq in E2. cbn in E2. subst. exists x. split; [exact X|now apply meaning_ok].
Qed.
