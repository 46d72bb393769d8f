(** Doubles that are numbers, and their order. *)
From Verif Require Import Model.Base Model.Double.

Definition num (x : dbl) : Prop := x <> S754_nan.

(** ** Rounding a non-negative mantissa gives a number *)

Lemma shr_1_nonneg mrs : 0 <= shr_m mrs -> 0 <= shr_m (shr_1 mrs).
Proof.
  destruct mrs as [m r s]. cbn [shr_m]. intros H. destruct m as [|p|p]; [cbn; lia| |lia].
  destruct p; cbn; lia.
Qed.

Lemma iter_shr_nonneg p : forall mrs, 0 <= shr_m mrs -> 0 <= shr_m (iter_pos shr_1 p mrs).
Proof.
  induction p as [p IH|p IH|]; intros mrs H; cbn [iter_pos].
  - apply IH, IH, shr_1_nonneg, H.
  - apply IH, IH, H.
  - apply shr_1_nonneg, H.
Qed.

Lemma shr_nonneg mrs e n : 0 <= shr_m mrs -> 0 <= shr_m (fst (shr mrs e n)).
Proof. intros H. destruct n; cbn; try exact H. apply iter_shr_nonneg, H. Qed.

Lemma shr_fexp_nonneg prec emax m e l : 0 <= m -> 0 <= shr_m (fst (shr_fexp prec emax m e l)).
Proof.
  intros H. unfold shr_fexp. apply shr_nonneg. unfold shr_record_of_loc. destruct l as [|[| |]]; exact H.
Qed.

Lemma even_nonneg m l : 0 <= m -> 0 <= round_nearest_even m l.
Proof. intros H. destruct l as [|[| |]]; cbn; try lia. destruct (Z.even m); lia. Qed.

Lemma round_aux_num prec emax s m e l : 0 <= m -> num (binary_round_aux prec emax s m e l).
Proof.
  intros H. unfold binary_round_aux. pose proof (shr_fexp_nonneg prec emax m e l H) as A.
  destruct (shr_fexp prec emax m e l) as [mrs' e']. cbn [fst] in A.
  set (m2 := round_nearest_even (shr_m mrs') (loc_of_shr_record mrs')).
  assert (A2 : 0 <= m2) by (apply even_nonneg, A).
  pose proof (shr_fexp_nonneg prec emax m2 e' loc_Exact A2) as B.
  destruct (shr_fexp prec emax m2 e' loc_Exact) as [mrs'' e'']. cbn [fst] in B.
  destruct (shr_m mrs''); [discriminate| |lia]. destruct (e'' <=? emax - prec); discriminate.
Qed.

Lemma round_num prec emax s m e : num (binary_round prec emax s m e).
Proof.
  unfold binary_round. destruct (shl_align m e _) as [mz ez]. apply round_aux_num. lia.
Qed.

Lemma normalize_num prec emax m e s : num (binary_normalize prec emax m e s).
Proof. unfold binary_normalize. destruct m; [discriminate|apply round_num|apply round_num]. Qed.

Definition fin (x : dbl) : Prop := exists s m e, x = S754_finite s m e \/ x = S754_zero s.

Lemma dadd_num x y : num x -> fin y -> num (dadd x y).
Proof.
  intros X (s & m & e & [-> | ->]); destruct x as [sx|sx| |sx mx ex]; try (exfalso; apply X; reflexivity); cbn; try discriminate.
  - apply normalize_num.
  - destruct (Bool.eqb sx s); discriminate.
Qed.

Lemma core_nonneg m1 e1 m2 e2 : 0 <= m1 -> 0 < m2 -> 0 <= fst (fst (SFdiv_core_binary 53 1024 m1 e1 m2 e2)).
Proof.
  intros H1 H2. unfold SFdiv_core_binary.
  set (e' := Z.min _ _). set (s := e1 - e2 - e').
  set (m' := match s with Z0 => m1 | Zpos _ => Z.shiftl m1 s | Zneg _ => 0 end).
  assert (M : 0 <= m') by (unfold m'; destruct s; try lia; apply Z.shiftl_nonneg; exact H1).
  clearbody m'. pose proof (Z.div_eucl_eq m' m2 ltac:(lia)) as E.
  pose proof (Z.div_pos m' m2 M H2) as Q. unfold Z.div in Q.
  destruct (Z.div_eucl m' m2) as [q r]. cbn. exact Q.
Qed.

Lemma ratio_num s n d : 0 <= n -> 0 < d -> num (d_of_ratio s n d).
Proof.
  intros N D. unfold d_of_ratio. destruct (n =? 0); [discriminate|].
  pose proof (core_nonneg n 0 d 0 N D) as C. destruct (SFdiv_core_binary 53 1024 n 0 d 0) as [[mz ez] lz]. cbn in C.
  apply round_aux_num, C.
Qed.

Lemma ddiv_num x y : fin x -> (exists s m e, y = S754_finite s m e) -> num (ddiv x y).
Proof.
  intros (s & m & e & [-> | ->]) (s2 & m2 & e2 & ->); cbn; [|discriminate].
  pose proof (core_nonneg (Zpos m) e (Zpos m2) e2 ltac:(lia) ltac:(lia)) as C.
  unfold ddiv, SFdiv. destruct (SFdiv_core_binary 53 1024 (Zpos m) e (Zpos m2) e2) as [[mz ez] lz]. cbn in C.
  apply round_aux_num, C.
Qed.

(** ** The order *)

Definition key (x : dbl) : Z * Z * Z :=
  match x with
  | S754_nan => (0, 0, 0)
  | S754_infinity s => if s then (-2, 0, 0) else (2, 0, 0)
  | S754_zero _ => (0, 0, 0)
  | S754_finite s m e => if s then (-1, - e, - Zpos m) else (1, e, Zpos m)
  end.

Definition key_le (a b : Z * Z * Z) : Prop :=
  let '(a1, a2, a3) := a in let '(b1, b2, b3) := b in
  a1 < b1 \/ a1 = b1 /\ (a2 < b2 \/ a2 = b2 /\ a3 <= b3).

Lemma key_total a b : key_le a b \/ key_le b a.
Proof. destruct a as [[a1 a2] a3], b as [[b1 b2] b3]. unfold key_le. lia. Qed.

Lemma key_trans a b c : key_le a b -> key_le b c -> key_le a c.
Proof. destruct a as [[a1 a2] a3], b as [[b1 b2] b3], c as [[c1 c2] c3]. unfold key_le. lia. Qed.

Lemma compare_key x y : num x -> num y ->
  match SFcompare x y with
  | Some Lt => ~ key_le (key y) (key x)
  | Some Eq => key_le (key x) (key y) /\ key_le (key y) (key x)
  | Some Gt => ~ key_le (key x) (key y)
  | None => False
  end.
Proof.
  intros X Y. destruct x as [sx|sx| |sx mx ex], y as [sy|sy| |sy my ey];
    try (exfalso; apply X; reflexivity); try (exfalso; apply Y; reflexivity); cbn [SFcompare key];
    try (destruct sx); try (destruct sy); cbn; try lia.
  - destruct (Z.compare_spec ex ey) as [->|L|L]; [|lia|lia].
    change (Pos.compare_cont Eq mx my) with (Pos.compare mx my). destruct (Pos.compare_spec mx my) as [->|L|L]; cbn; lia.
  - destruct (Z.compare_spec ex ey) as [->|L|L]; [|lia|lia].
    change (Pos.compare_cont Eq mx my) with (Pos.compare mx my). destruct (Pos.compare_spec mx my) as [->|L|L]; cbn; lia.
Qed.

Lemma dleb_key x y : num x -> num y -> (dleb x y = true <-> key_le (key x) (key y)).
Proof.
  intros X Y. pose proof (compare_key x y X Y) as C. unfold dleb, SFleb.
  destruct (SFcompare x y) as [[| |]|]; [tauto| |split; [discriminate|contradiction]|contradiction].
  split; [|reflexivity]. intros _. destruct (key_total (key x) (key y)); [assumption|contradiction].
Qed.

Lemma dltb_false x y : num x -> num y -> dltb x y = false -> dleb y x = true.
Proof.
  intros X Y H. apply (dleb_key y x Y X). pose proof (compare_key x y X Y) as C. unfold dltb, SFltb in H.
  destruct (SFcompare x y) as [[| |]|]; [tauto|discriminate| |contradiction].
  destruct (key_total (key x) (key y)); [contradiction|assumption].
Qed.

Lemma dltb_leb x y : dltb x y = true -> dleb x y = true.
Proof. unfold dltb, dleb, SFltb, SFleb. destruct (SFcompare x y) as [[| |]|]; congruence. Qed.

Lemma dleb_refl x : num x -> dleb x x = true.
Proof. intros X. apply (dleb_key x x X X). destruct (key_total (key x) (key x)); assumption. Qed.

Lemma dleb_trans x y z : num x -> num y -> num z -> dleb x y = true -> dleb y z = true -> dleb x z = true.
Proof. intros X Y Z. rewrite !dleb_key by assumption. apply key_trans. Qed.
