(** The number a unit conversion writes. *)
From Coq Require Import Reals Lra Psatz.
From Flocq Require Import Core BinarySingleNaN.
From Verif Require Import Model.Base Model.Attr Model.Double Model.UnitConv Spec.Text Spec.DoubleSpec Spec.UnitSpec
  Proofs.Tactics Proofs.StringFacts Proofs.TextProofs Proofs.DoubleFacts Proofs.FloatReal Proofs.CalcProofs
  Proofs.UnitProofs.

Open Scope string_scope.
Open Scope Z_scope.

(** ** Reading the number *)

Lemma digit_not_space c : is_digit c = true -> is_space c = false.
Proof. unfold is_digit, is_space. intro H. lia. Qed.

Lemma stod_plain ip fp (dot : bool) :
  all_chars is_digit ip = true -> all_chars is_digit fp = true -> ip ++ fp <> "" ->
  (dot = false -> fp = "") ->
  stod (ip ++ (if dot then String "." fp else "")) =
  (let v := d_of_ratio false (digits_val (ip ++ fp)) (10 ^ Z.of_nat (String.length fp)) in
   match v with
   | S754_infinity _ => Exc EOutOfRange
   | S754_zero _ => if digits_val (ip ++ fp) =? 0 then Ok v else Exc EOutOfRange
   | _ => Ok v
   end).
Proof.
  intros A B N D. unfold stod.
  set (t := if dot then String "." fp else "").
  assert (H1 : span is_space (ip ++ t) = ("", ip ++ t)).
  { destruct ip as [|c ip].
    - cbn [append]. unfold t. destruct dot; [reflexivity|]. cbn in N. now rewrite D in N.
    - cbn [append span]. cbn [all_chars] in A. apply andb_prop in A as [A1 _]. now rewrite digit_not_space. }
  rewrite H1.
  assert (H2 : match ip ++ t with
               | "" => (false, ip ++ t)
               | String c r => if (c =? "-")%char then (true, r) else if (c =? "+")%char then (false, r) else (false, ip ++ t)
               end = (false, ip ++ t)).
  { destruct ip as [|c ip].
    - cbn [append]. unfold t. destruct dot; [reflexivity|]. cbn in N. now rewrite D in N.
    - cbn [append]. cbn [all_chars] in A. apply andb_prop in A as [A1 _].
      destruct (Ascii.eqb_spec c "-") as [->|]; [discriminate|]. destruct (Ascii.eqb_spec c "+") as [->|]; [discriminate|].
      reflexivity. }
  rewrite H2.
  rewrite (span_app is_digit ip t A) by (unfold t; destruct dot; exact I || reflexivity).
  assert (H3 : match t with
               | "" => ("", t)
               | String c r => if (c =? ".")%char then span is_digit r else ("", t)
               end = (fp, "")).
  { unfold t. destruct dot; [|now rewrite D]. rewrite Ascii.eqb_refl.
    rewrite <- (string_app_nil fp) at 1. now apply span_app. }
  rewrite H3.
  destruct (Nat.eqb_spec (String.length ip + String.length fp) 0) as [L|L].
  { exfalso. apply N. destruct ip, fp; try discriminate. reflexivity. }
  reflexivity.
Qed.

(** ** Writing the number *)

Fixpoint rep (c : ascii) (n : nat) : string := match n with O => "" | S n' => String c (rep c n') end.

Lemma rep_snoc c n : rep c n ++ String c "" = String c (rep c n).
Proof. induction n; cbn; congruence. Qed.

Lemma trim_decomp c s : exists n, s = trim_right c s ++ rep c n.
Proof.
  induction s as [|a s [n IH]]; cbn [trim_right]; [now exists O|].
  destruct (trim_right c s) as [|b t].
  - cbn in IH. destruct (Ascii.eqb_spec a c) as [->|N].
    + exists (S n). cbn. now rewrite <- IH.
    + exists n. cbn. now rewrite <- IH.
  - exists n. cbn in *. now rewrite <- IH.
Qed.

Lemma trim_app c a b : trim_right c (a ++ b) =
  match trim_right c b with "" => trim_right c a | t => a ++ t end.
Proof.
  induction a as [|x a IH]; cbn [append trim_right].
  - destruct (trim_right c b); reflexivity.
  - rewrite IH. destruct (trim_right c b); [reflexivity|]. destruct a; reflexivity.
Qed.

Lemma trim_cons c a s x t : trim_right c s = String x t -> trim_right c (String a s) = String a (String x t).
Proof. intro H. cbn [trim_right]. now rewrite H. Qed.

Lemma trim_none c s : all_chars (fun x => negb (Ascii.eqb x c)) s = true -> trim_right c s = s.
Proof.
  induction s as [|a s IH]; cbn [all_chars trim_right]; [reflexivity|]. intro H. apply andb_prop in H as [H1 H2].
  rewrite IH by assumption. destruct s; [|reflexivity]. now destruct (Ascii.eqb a c).
Qed.

Lemma all_chars_impl (p q : ascii -> bool) s : (forall c, p c = true -> q c = true) ->
  all_chars p s = true -> all_chars q s = true.
Proof.
  intro I. induction s as [|c s IH]; cbn; [reflexivity|]. intro H. apply andb_prop in H as [H1 H2].
  now rewrite I, IH.
Qed.

Lemma digit_not_point c : is_digit c = true -> negb (Ascii.eqb c ".") = true.
Proof. intro H. destruct (Ascii.eqb_spec c ".") as [->|]; [discriminate|reflexivity]. Qed.

Lemma digits_no_point s : all_chars is_digit s = true -> trim_right "." s = s.
Proof. intro H. apply trim_none. eapply all_chars_impl; [|exact H]. apply digit_not_point. Qed.

Lemma trim_digits s : all_chars is_digit s = true -> all_chars is_digit (trim_right "0" s) = true.
Proof.
  intro H. destruct (trim_decomp "0" s) as [n E]. rewrite E, all_chars_app in H. now apply andb_prop in H as [H _].
Qed.

Lemma digits_rep n : forall a, digits_acc a (rep "0" n) = a * 10 ^ Z.of_nat n.
Proof.
  induction n as [|n IH]; intro a; cbn [rep digits_acc]; [cbn; lia|].
  rewrite IH. change (digit_val "0") with 0. rewrite Nat2Z.inj_succ, Z.pow_succ_r by lia. ring.
Qed.

Lemma rep_length c n : String.length (rep c n) = n.
Proof. induction n; cbn; congruence. Qed.

(** Trimming the fraction divides its digits by a power of ten. *)
Lemma trim_value ip fr : exists j, 0 <= j /\
  Z.of_nat (String.length fr) = Z.of_nat (String.length (trim_right "0" fr)) + j /\
  digits_val (ip ++ fr) = digits_val (ip ++ trim_right "0" fr) * 10 ^ j.
Proof.
  destruct (trim_decomp "0" fr) as [n E]. exists (Z.of_nat n). split; [lia|].
  pose proof (f_equal String.length E) as L. rewrite string_app_length, rep_length in L. split; [lia|].
  rewrite E at 1. rewrite <- string_app_assoc. unfold digits_val at 1. rewrite digits_acc_app, digits_rep. reflexivity.
Qed.

Lemma split_point_some ip fp : all_chars is_digit ip = true -> split_point (ip ++ "." ++ fp) = Some (ip, fp).
Proof.
  induction ip as [|c ip IH]; intro H; cbn [append split_point]; [reflexivity|].
  cbn [all_chars] in H. apply andb_prop in H as [H1 H2]. apply digit_not_point in H1. apply negb_true_iff in H1.
  rewrite H1. change (String "." fp) with ("." ++ fp). now rewrite IH.
Qed.

Lemma split_point_none ip : all_chars is_digit ip = true -> split_point ip = None.
Proof.
  induction ip as [|c ip IH]; intro H; cbn [split_point]; [reflexivity|].
  cbn [all_chars] in H. apply andb_prop in H as [H1 H2]. apply digit_not_point in H1. apply negb_true_iff in H1.
  now rewrite H1, IH.
Qed.

Lemma zero_pad_rep n : zero_pad n = rep "0" n.
Proof. induction n; cbn; congruence. Qed.

Lemma digits_bound s : all_chars is_digit s = true -> 0 <= digits_val s < 10 ^ Z.of_nat (String.length s).
Proof.
  induction s as [|c s IH]; intro H; [cbn; lia|]. cbn [all_chars] in H. apply andb_prop in H as [H1 H2].
  specialize (IH H2). unfold digits_val in *. cbn [digits_acc String.length]. rewrite digits_acc_pow.
  rewrite Nat2Z.inj_succ, Z.pow_succ_r by lia.
  assert (0 <= digit_val c <= 9) by (unfold is_digit, digit_val in *; lia). nia.
Qed.

Lemma nat_to_string_len n p : 0 <= n < 10 ^ p -> 0 < p -> Z.of_nat (String.length (nat_to_string n)) <= p.
Proof.
  intros H P. destruct (Z.eq_dec n 0) as [->|Nz]; [cbn; lia|].
  destruct (nat_to_string_spec n ltac:(lia)) as (N & A & V & L).
  destruct (Z.le_gt_cases (Z.of_nat (String.length (nat_to_string n))) p) as [|G]; [assumption|exfalso].
  destruct (nat_to_string n) as [|c s] eqn:E; [congruence|].
  specialize (L ltac:(lia) c s eq_refl). cbn [all_chars] in A. apply andb_prop in A as [A1 A2].
  pose proof (digits_bound s A2) as B. unfold digits_val in *. cbn [digits_acc String.length] in *.
  rewrite digits_acc_pow in V.
  assert (0 <= digit_val c <= 9) by (unfold is_digit, digit_val in *; lia).
  assert (10 ^ p <= 10 ^ Z.of_nat (String.length s)) by (apply Z.pow_le_mono_r; lia). nia.
Qed.

Lemma nat_to_string_len_ge n p : 10 ^ (p - 1) <= n -> 0 < p -> p <= Z.of_nat (String.length (nat_to_string n)).
Proof.
  intros H P. assert (0 < n) by (pose proof (Z.pow_pos_nonneg 10 (p - 1)); lia).
  destruct (nat_to_string_spec n ltac:(lia)) as (N & A & V & _).
  pose proof (digits_bound _ A) as B. rewrite V in B.
  destruct (Z.le_gt_cases p (Z.of_nat (String.length (nat_to_string n)))) as [|G]; [assumption|exfalso].
  assert (10 ^ Z.of_nat (String.length (nat_to_string n)) <= 10 ^ (p - 1)) by (apply Z.pow_le_mono_r; lia). lia.
Qed.

Lemma precision_spec e p : allowed_decimals e p -> uc_precision e = p.
Proof.
  intros [P [L U]]. assert (0 < g_dto e) by (pose proof (Z.pow_pos_nonneg 10 (p - 1)); lia).
  unfold uc_precision. destruct (0 <? g_dto e) eqn:T; [|lia]. rewrite z_to_string_nonneg by lia.
  pose proof (nat_to_string_len (g_dto e) p ltac:(lia) P). pose proof (nat_to_string_len_ge (g_dto e) p L P). lia.
Qed.

(** The printed text: integer digits, point, [p] digits. *)
Lemma fixed_parts n p : 0 <= n -> 0 < p -> exists ip fr, fixed_string n p = ip ++ "." ++ fr /\ ip <> "" /\
  all_chars is_digit ip = true /\ all_chars is_digit fr = true /\ Z.of_nat (String.length fr) = p /\
  digits_val (ip ++ fr) = n.
Proof.
  intros Hn Hp. unfold fixed_string. destruct (Z.eqb_spec p 0) as [|_]; [lia|].
  assert (T : 0 < 10 ^ p) by (apply Z.pow_pos_nonneg; lia).
  assert (M : 0 <= n mod 10 ^ p < 10 ^ p) by now apply Z.mod_pos_bound.
  assert (Q : 0 <= n / 10 ^ p) by now apply Z.div_pos.
  destruct (nat_to_string_spec (n / 10 ^ p) Q) as (N1 & A1 & V1 & _).
  destruct (nat_to_string_spec (n mod 10 ^ p) (proj1 M)) as (N2 & A2 & V2 & _).
  pose proof (nat_to_string_len (n mod 10 ^ p) p M Hp) as L.
  set (f := nat_to_string (n mod 10 ^ p)) in *. set (k := (Z.to_nat p - String.length f)%nat).
  exists (nat_to_string (n / 10 ^ p)), (rep "0" k ++ f). rewrite zero_pad_rep.
  split; [reflexivity|]. split; [exact N1|]. split; [exact A1|].
  assert (Ar : all_chars is_digit (rep "0" k) = true) by (clear; induction k; [reflexivity|exact IHk]).
  split; [rewrite all_chars_app, Ar, A2; reflexivity|].
  split; [rewrite string_app_length, rep_length; unfold k; lia|].
  unfold digits_val. rewrite !digits_acc_app. fold (digits_val (nat_to_string (n / 10 ^ p))). rewrite V1, digits_rep, digits_acc_pow.
  fold (digits_val f). rewrite V2, <- Z.mul_assoc, <- Z.pow_add_r by lia.
  replace (Z.of_nat k + Z.of_nat (String.length f)) with p by (unfold k; lia).
  pose proof (Z.div_mod n (10 ^ p)). lia.
Qed.

(** The fields written for the printed text. *)
Lemma written dir e d d' x p N : allowed_decimals e p -> 0 <= N ->
  stod (opt_str (d_value d) ++ opt_chr (d_dot d) ++ opt_str (d_value2 d)) = Ok x ->
  d_to_fixed p (uc_scale dir x) = fixed_string N p ->
  uc_number dir e d = Ok d' ->
  exists n' k', has_number d' n' k' /\ 0 <= k' <= p /\ N = n' * 10 ^ (p - k').
Proof.
  intros P HN S F H. pose proof (precision_spec e p P) as PE. destruct P as [P _].
  unfold uc_number in H. rewrite S in H. cbn [bind] in H. rewrite PE, F in H.
  destruct (fixed_parts N p HN P) as (ip & fr & E & NE & A & B & L & V). rewrite E in H. clear E F S.
  assert (T : trim_right "0" (ip ++ "." ++ fr) = ip ++ "." ++ trim_right "0" fr).
  { rewrite trim_app. cbn [append trim_right]. destruct (trim_right "0" fr); reflexivity. }
  rewrite T in H. destruct (trim_value ip fr) as (j & J & LJ & VJ).
  pose proof (trim_digits fr B) as BT. set (t := trim_right "0" fr) in *.
  assert (Hne : forall u, ip ++ u <> "") by (destruct ip; [congruence|discriminate]).
  destruct t as [|c t].
  - assert (T2 : trim_right "." (ip ++ "." ++ "") = ip).
    { rewrite trim_app. cbn. now apply digits_no_point. }
    rewrite T2, split_point_none in H by assumption. inv H.
    exists (digits_val (ip ++ "")), 0. cbn [String.length] in LJ. split; [|split; [lia|]].
    + unfold has_number. cbn [d_value d_value2 d_dot opt_str]. repeat split; auto.
      rewrite all_chars_app, A. reflexivity.
    + rewrite VJ. do 2 f_equal. lia.
  - assert (T2 : trim_right "." (ip ++ "." ++ String c t) = ip ++ "." ++ String c t).
    { rewrite trim_app. change ("." ++ String c t) with (String "." (String c t)).
      now rewrite (trim_cons "." "." (String c t) c t) by (now apply digits_no_point). }
    rewrite T2, split_point_some in H by assumption. inv H.
    exists (digits_val (ip ++ String c t)), (Z.of_nat (String.length (String c t))). split; [|split; [lia|]].
    + unfold has_number. cbn [d_value d_value2 d_dot opt_str]. repeat split; auto.
      rewrite all_chars_app, A. exact BT.
    + rewrite VJ. do 2 f_equal. lia.
Qed.

(** ** Error analysis *)

Open Scope R_scope.

Definition near (x a u : R) : Prop := Rabs (x - a) <= u * a.

Lemma near_pos x a u : 0 < a -> u < 1 -> near x a u -> 0 < x.
Proof. intros A U H. unfold near in H. apply Rabs_le_inv in H. nra. Qed.

Lemma near_mul x a u y b v : 0 <= a -> 0 <= b -> 0 <= u -> 0 <= v -> near x a u -> near y b v ->
  near (x * y) (a * b) (u + v + u * v).
Proof.
  unfold near. intros A B U V H1 H2.
  replace (x * y - a * b) with ((x - a) * b + a * (y - b) + (x - a) * (y - b)) by ring.
  eapply Rle_trans; [apply Rabs_triang|]. eapply Rle_trans; [apply Rplus_le_compat_r, Rabs_triang|].
  rewrite !Rabs_mult, (Rabs_pos_eq a), (Rabs_pos_eq b) by assumption.
  assert (Rabs (x - a) * Rabs (y - b) <= (u * a) * (v * b)) by (apply Rmult_le_compat; auto using Rabs_pos).
  assert (Rabs (x - a) * b <= u * a * b) by (apply Rmult_le_compat_r; assumption).
  assert (a * Rabs (y - b) <= a * (v * b)) by (apply Rmult_le_compat_l; assumption).
  lra.
Qed.

Lemma near_trans z x a u v : 0 <= a -> 0 <= u -> 0 <= v -> near z x v -> near x a u -> near z a (u + v + u * v).
Proof.
  unfold near. intros A U V H1 H2. replace (z - a) with ((z - x) + (x - a)) by ring.
  eapply Rle_trans; [apply Rabs_triang|].
  assert (x <= a + u * a) by (apply Rabs_le_inv in H2; lra).
  assert (v * x <= v * (a + u * a)) by (apply Rmult_le_compat_l; assumption). lra.
Qed.

Lemma inch_value : inch_mm = S754_finite false 7149464408450662 (-48).
Proof. vm_compute. reflexivity. Qed.

Lemma inch_finite : finite inch_mm.
Proof. rewrite inch_value. reflexivity. Qed.

Lemma inch_fR : fR inch_mm = 7149464408450662 / 281474976710656.
Proof. rewrite inch_value. unfold fR; cbn [SF2R cond_Zopp]. unfold F2R; cbn -[IZR]. unfold Rdiv. reflexivity. Qed.

Definition eps : R := / 2 ^ 53.

Lemma eps_small : 0 < eps < / 1000000000000000.
Proof. unfold eps. lra. Qed.

Lemma scale_inch : near (fR inch_mm) (254 / 10) eps.
Proof. unfold near, eps. rewrite inch_fR. apply Rabs_le. lra. Qed.

Lemma scale_inch_inv : near (/ fR inch_mm) (10 / 254) eps.
Proof. unfold near, eps. rewrite inch_fR. apply Rabs_le. lra. Qed.

(** The result of scaling a positive moderate number. *)
Definition factor (dir : unit_dir) : R := match dir with MetricToImperial => 10 / 254 | ImperialToMetric => 254 / 10 end.

Lemma big_bounds : bpow radix2 (-1022) <= / 10 ^ 303 /\ 10 ^ 303 <= bpow radix2 1023.
Proof.
  assert (P : forall n, 10 ^ n = IZR (10 ^ Z.of_nat n)) by (intro n; now rewrite pow_IZR).
  split.
  - change (-1022)%Z with (- (1022))%Z. rewrite (bpow_opp radix2 1022). apply Rinv_le_contravar; [apply pow_lt; lra|].
    rewrite P. rewrite <- (IZR_Zpower radix2) by lia. apply IZR_le. vm_compute. discriminate.
  - rewrite P. rewrite <- (IZR_Zpower radix2) by lia. apply IZR_le. vm_compute. discriminate.
Qed.

Lemma normal_of r : / 10 ^ 303 <= r <= 10 ^ 303 -> normal r.
Proof.
  intros [L U]. destruct big_bounds as [B1 B2]. assert (0 < / 10 ^ 303) by (apply Rinv_0_lt_compat, pow_lt; lra).
  unfold normal. rewrite Rabs_pos_eq by lra. split; lra.
Qed.

Lemma scaled_error dir x E : / 10 ^ 300 <= E <= 10 ^ 300 -> rounds_to x E ->
  finite x /\ 0 < fR x /\ finite (uc_scale dir x) /\ near (fR (uc_scale dir x)) (E * factor dir) (/ 2 ^ 50).
Proof.
  intros [L U] R.
  assert (P300 : 0 < / 10 ^ 300) by (apply Rinv_0_lt_compat, pow_lt; lra).
  assert (T : 10 ^ 303 = 1000 * 10 ^ 300) by (replace 303%nat with (3 + 300)%nat by reflexivity; rewrite pow_add; lra).
  assert (T' : / 10 ^ 303 = / 1000 * / 10 ^ 300) by (rewrite T, Rinv_mult; reflexivity).
  pose proof eps_small as Es.
  set (lo := / 10 ^ 300) in *. set (hi := 10 ^ 300) in *. clearbody lo hi.
  assert (Norm : forall r, lo / 1000 <= r <= 1000 * hi -> normal r).
  { intros r [A B]. apply normal_of. rewrite T', T. lra. }
  assert (N1 : normal E) by (apply Norm; lra).
  destruct (rounds_normal x E R N1) as [Fx Ex].
  assert (Nx : near (fR x) E eps) by (unfold near, eps; rewrite (Rabs_pos_eq E) in Ex by lra; exact Ex).
  assert (Bx : E * (1 - eps) <= fR x <= E * (1 + eps)) by (unfold near in Nx; apply Rabs_le_inv in Nx; lra).
  assert (Px : 0 < fR x) by nra.
  split; [exact Fx|]. split; [exact Px|].
  pose proof inch_finite as Fi. pose proof inch_fR as Ei.
  assert (Pi : 25 < fR inch_mm < 26) by (rewrite Ei; lra).
  assert (Lx : lo / 2 <= fR x <= 2 * hi) by nra.
  assert (Small : eps + eps + eps * eps + eps + (eps + eps + eps * eps) * eps <= / 2 ^ 50).
  { unfold eps. lra. }
  destruct dir; cbn [uc_scale factor].
  - assert (Rq : rounds_to (ddiv x inch_mm) (fR x / fR inch_mm)) by (apply ddiv_rounds; [exact Fx|exact Fi|lra]).
    assert (Pinv : / 26 < / fR inch_mm < / 25) by (split; apply Rinv_lt_contravar; nra).
    assert (Nq : normal (fR x / fR inch_mm)) by (apply Norm; unfold Rdiv; nra).
    destruct (rounds_normal _ _ Rq Nq) as [Fq Eq]. split; [exact Fq|].
    assert (M : near (fR x / fR inch_mm) (E * (10 / 254)) (eps + eps + eps * eps)).
    { apply near_mul; [lra|lra|lra|lra|exact Nx|exact scale_inch_inv]. }
    assert (Q : near (fR (ddiv x inch_mm)) (fR x / fR inch_mm) eps).
    { unfold near, eps. rewrite (Rabs_pos_eq (fR x / fR inch_mm)) in Eq; [exact Eq|]. unfold Rdiv. nra. }
    assert (H : near (fR (ddiv x inch_mm)) (E * (10 / 254)) (eps + eps + eps * eps + eps + (eps + eps + eps * eps) * eps)).
    { apply (near_trans _ (fR x / fR inch_mm)); [lra|nra|lra|exact Q|exact M]. }
    unfold near in *.
    eapply Rle_trans; [exact H|]. apply Rmult_le_compat_r; [nra|exact Small].
  - assert (Rq : rounds_to (dmul x inch_mm) (fR x * fR inch_mm)) by (apply dmul_rounds; assumption).
    assert (Nq : normal (fR x * fR inch_mm)) by (apply Norm; nra).
    destruct (rounds_normal _ _ Rq Nq) as [Fq Eq]. split; [exact Fq|].
    assert (M : near (fR x * fR inch_mm) (E * (254 / 10)) (eps + eps + eps * eps)).
    { apply near_mul; [lra|lra|lra|lra|exact Nx|exact scale_inch]. }
    assert (Q : near (fR (dmul x inch_mm)) (fR x * fR inch_mm) eps).
    { unfold near, eps. rewrite (Rabs_pos_eq (fR x * fR inch_mm)) in Eq; [exact Eq|]. nra. }
    assert (H : near (fR (dmul x inch_mm)) (E * (254 / 10)) (eps + eps + eps * eps + eps + (eps + eps + eps * eps) * eps)).
    { apply (near_trans _ (fR x * fR inch_mm)); [lra|nra|lra|exact Q|exact M]. }
    unfold near in *.
    eapply Rle_trans; [exact H|]. apply Rmult_le_compat_r; [nra|exact Small].
Qed.

(** ** Printing *)

Lemma round_div_even_near n d : (0 <= n)%Z -> (0 < d)%Z ->
  (0 <= round_div_even n d)%Z /\ (2 * Z.abs (round_div_even n d * d - n) <= d)%Z.
Proof.
  intros Hn Hd. unfold round_div_even. pose proof (Z.div_mod n d ltac:(lia)) as DM.
  pose proof (Z.mod_pos_bound n d Hd) as M. assert (0 <= n / d)%Z by now apply Z.div_pos.
  destruct (Z.compare_spec (2 * (n mod d)) d) as [C|C|C]; [destruct (Z.even (n / d))|..]; split; nia.
Qed.

Lemma scaled_round_near m e p : (0 <= p)%Z ->
  (0 <= scaled_round (Z.pos m) e p)%Z /\
  Rabs (IZR (scaled_round (Z.pos m) e p) - F2R (Float radix2 (Z.pos m) e) * IZR (10 ^ p)) <= / 2.
Proof.
  intro P. unfold scaled_round, F2R; cbn [Fnum Fexp]. destruct (Z.leb_spec 0 e) as [L|L].
  - split; [pose proof (pow2_pos e L); pose proof (Z.pow_pos_nonneg 10 p); nia|].
    rewrite <- (IZR_Zpower radix2) by exact L. rewrite <- !mult_IZR.
    replace (Z.pos m * Zpower radix2 e * 10 ^ p)%Z with (Z.pos m * 2 ^ e * 10 ^ p)%Z by reflexivity.
    rewrite Rminus_diag_eq by reflexivity. rewrite Rabs_R0. lra.
  - assert (D : (0 < 2 ^ (- e))%Z) by (apply Z.pow_pos_nonneg; lia).
    assert (Np : (0 <= Z.pos m * 10 ^ p)%Z) by (pose proof (Z.pow_pos_nonneg 10 p); nia).
    destruct (round_div_even_near (Z.pos m * 10 ^ p) (2 ^ (- e)) Np D) as [H1 H2]. split; [exact H1|].
    set (r := round_div_even _ _) in *.
    replace e with (- - e)%Z by lia. rewrite (bpow_opp radix2 (- e)), <- (IZR_Zpower radix2) by lia.
    change (Zpower radix2 (- e)) with (2 ^ (- e))%Z. replace (- - e)%Z with e by lia.
    set (D2 := (2 ^ (- e))%Z) in *. assert (DR : 0 < IZR D2) by now apply IZR_lt.
    replace (IZR r - IZR (Z.pos m) * / IZR D2 * IZR (10 ^ p)) with ((IZR r * IZR D2 - IZR (Z.pos m) * IZR (10 ^ p)) * / IZR D2) by (field; lra).
    rewrite Rabs_mult, (Rabs_pos_eq (/ IZR D2)) by (apply Rlt_le, Rinv_0_lt_compat, DR).
    rewrite <- !mult_IZR, <- minus_IZR, <- abs_IZR. apply IZR_le in H2. rewrite mult_IZR in H2.
    apply (Rmult_le_reg_r (IZR D2)); [exact DR|]. rewrite Rmult_assoc, Rinv_l by lra. lra.
Qed.

Lemma fixed_positive x p : finite x -> 0 < fR x -> (0 <= p)%Z ->
  exists N, (0 <= N)%Z /\ d_to_fixed p x = fixed_string N p /\ Rabs (IZR N - fR x * IZR (10 ^ p)) <= / 2.
Proof.
  intros F P Hp. destruct x as [s|s| |s m e]; try contradiction; unfold fR in P; cbn [SF2R] in P; [lra|].
  destruct s; [exfalso; apply (Rlt_asym _ _ P); now apply F2R_lt_0|].
  destruct (scaled_round_near m e p Hp) as [H1 H2]. exists (scaled_round (Z.pos m) e p). auto.
Qed.

(** ** The result *)

Lemma moderate_real n k : (0 <= k)%Z -> moderate n k -> n <> 0%Z ->
  (0 < n)%Z /\ / 10 ^ 300 <= IZR n / IZR (10 ^ k) <= 10 ^ 300.
Proof.
  intros K M N. destruct M as [M|[L U]]; [contradiction|].
  assert (T : (0 < 10 ^ k)%Z) by (apply Z.pow_pos_nonneg; lia).
  assert (T3 : (0 < 10 ^ 300)%Z) by (apply Z.pow_pos_nonneg; lia).
  assert (Pn : (0 < n)%Z) by nia. split; [exact Pn|].
  assert (E : 10 ^ 300 = IZR (10 ^ 300)) by (rewrite pow_IZR; reflexivity). rewrite E.
  assert (TR : 0 < IZR (10 ^ k)) by now apply IZR_lt. assert (TR3 : 0 < IZR (10 ^ 300)) by now apply IZR_lt.
  apply IZR_le in L, U. rewrite mult_IZR in L, U. set (A := IZR (10 ^ k)) in *. set (B := IZR (10 ^ 300)) in *.
  clearbody A B. clear E. split.
  - apply (Rmult_le_reg_r (A * B)); [nra|]. replace (/ B * (A * B)) with A by (field; lra).
    replace (IZR n / A * (A * B)) with (IZR n * B) by (field; lra). exact L.
  - apply (Rmult_le_reg_r A); [exact TR|]. replace (IZR n / A * A) with (IZR n) by (field; lra). exact U.
Qed.

Lemma exact_ratio dir n k : (0 <= k)%Z ->
  IZR n / IZR (10 ^ k) * factor dir = IZR (exact_num dir n) / IZR (exact_den dir k) /\ (0 < exact_den dir k)%Z.
Proof.
  intro K. assert (T : (0 < 10 ^ k)%Z) by (apply Z.pow_pos_nonneg; lia).
  assert (TR : 0 < IZR (10 ^ k)) by now apply IZR_lt.
  unfold exact_num, exact_den, factor. split; [|destruct dir; lia].
  destruct dir; rewrite !mult_IZR; field; lra.
Qed.

Lemma rounded_intro num den p n' k' N : (0 < den)%Z -> (0 <= k' <= p)%Z ->
  N = (n' * 10 ^ (p - k'))%Z ->
  Rabs (IZR N / IZR (10 ^ p) - IZR num / IZR den) <= / 2 / IZR (10 ^ p) + / 2 ^ 50 * (IZR num / IZR den) ->
  rounded num den p n' k'.
Proof.
  intros D K E H. unfold rounded.
  assert (Tk : (0 < 10 ^ k')%Z) by (apply Z.pow_pos_nonneg; lia).
  assert (Tp : (0 < 10 ^ p)%Z) by (apply Z.pow_pos_nonneg; lia).
  assert (EN : IZR N / IZR (10 ^ p) = IZR n' / IZR (10 ^ k')).
  { replace p with ((p - k') + k')%Z at 1 by lia. rewrite Z.pow_add_r by lia. rewrite E, !mult_IZR.
    assert (0 < IZR (10 ^ (p - k'))) by (apply IZR_lt, Z.pow_pos_nonneg; lia). assert (0 < IZR (10 ^ k')) by now apply IZR_lt.
    field. lra. }
  rewrite EN in H. clear EN E N.
  apply le_IZR. rewrite plus_IZR, !mult_IZR, abs_IZR, minus_IZR, !mult_IZR.
  replace (IZR (2 ^ 50)) with (2 ^ 50) by (rewrite pow_IZR; reflexivity).
  assert (RD : 0 < IZR den) by now apply IZR_lt. assert (RK : 0 < IZR (10 ^ k')) by now apply IZR_lt.
  assert (RP : 0 < IZR (10 ^ p)) by now apply IZR_lt.
  set (a := IZR n') in *. set (b := IZR den) in *. set (c := IZR num) in *. set (t := IZR (10 ^ k')) in *.
  set (q := IZR (10 ^ p)) in *. clearbody a b c t q. clear D K Tk Tp.
  assert (G : Rabs (a * b - c * t) = Rabs (a / t - c / b) * (t * b)).
  { rewrite <- (Rabs_pos_eq (t * b)) at 1 by nra. rewrite <- Rabs_mult. f_equal. field. lra. }
  rewrite G.
  assert (S : Rabs (a / t - c / b) * (2 * 2 ^ 50 * q * (t * b)) <= (/ 2 / q + / 2 ^ 50 * (c / b)) * (2 * 2 ^ 50 * q * (t * b))).
  { apply Rmult_le_compat_r; [|exact H]. assert (0 < 2 ^ 50) by lra. repeat apply Rmult_le_pos; lra. }
  replace ((/ 2 / q + / 2 ^ 50 * (c / b)) * (2 * 2 ^ 50 * q * (t * b))) with (2 ^ 50 * b * t + 2 * c * q * t) in S.
  - lra.
  - field. lra.
Qed.

Lemma has_number_text d n k : has_number d n k -> exists dot fp,
  opt_str (d_value d) ++ opt_chr (d_dot d) ++ opt_str (d_value2 d)
    = opt_str (d_value d) ++ (if (dot : bool) then String "." fp else "") /\
  all_chars is_digit (opt_str (d_value d)) = true /\ all_chars is_digit fp = true /\
  opt_str (d_value d) ++ fp <> "" /\ (dot = false -> fp = "") /\
  digits_val (opt_str (d_value d) ++ fp) = n /\ Z.of_nat (String.length fp) = k.
Proof.
  intros ((NE & A & V) & B & K & D). rewrite all_chars_app in A. apply andb_prop in A as [A1 A2].
  destruct D as [D|[D1 D2]].
  - exists true, (opt_str (d_value2 d)). rewrite D. repeat split; auto. discriminate.
  - exists false, "". rewrite D1, D2 in *. cbn in *. repeat split; auto.
Qed.

Lemma number_read d n k : has_number d n k -> moderate n k ->
  exists x, stod (opt_str (d_value d) ++ opt_chr (d_dot d) ++ opt_str (d_value2 d)) = Ok x /\
    (0 <= n)%Z /\ (0 <= k)%Z /\
    (n = 0%Z -> x = S754_zero false) /\ (n <> 0%Z -> rounds_to x (IZR n / IZR (10 ^ k))).
Proof.
  intros H M. destruct (has_number_text d n k H) as (dot & fp & T & A & B & NE & D & V & L).
  rewrite T, stod_plain by assumption. rewrite V, L.
  assert (Hn : (0 <= n)%Z). { rewrite <- V. apply digits_bound. now rewrite all_chars_app, A, B. }
  assert (Hk : (0 <= k)%Z) by lia. assert (Tk : (0 < 10 ^ k)%Z) by (apply Z.pow_pos_nonneg; lia).
  cbv zeta. destruct (Z.eq_dec n 0) as [Z0|NZ].
  - subst n. rewrite Z0. cbn [d_of_ratio Z.eqb]. exists (S754_zero false). repeat split; auto; lia.
  - pose proof (ratio_rounds false n (10 ^ k) Hn Tk) as R. rewrite Rmult_1_l in R.
    destruct (moderate_real n k Hk M NZ) as [_ BD].
    destruct (scaled_error MetricToImperial _ _ BD R) as (F & P & _).
    destruct (d_of_ratio false n (10 ^ k)) as [s|s| |s m e] eqn:E; try contradiction.
    + unfold fR in P; cbn in P. lra.
    + exists (S754_finite s m e). repeat split; auto. congruence.
Qed.

Lemma number_rounded dir e d d' n k p : allowed_decimals e p -> has_number d n k -> moderate n k ->
  uc_number dir e d = Ok d' ->
  exists n' k', has_number d' n' k' /\ (0 <= k' <= p)%Z /\ rounded (exact_num dir n) (exact_den dir k) p n' k'.
Proof.
  intros P H M U. destruct (number_read d n k H M) as (x & S & Hn & Hk & Zx & Rx).
  assert (Hp : (0 <= p)%Z) by (destruct P; lia).
  destruct (exact_ratio dir n k Hk) as [Er Hd].
  assert (W : exists N, (0 <= N)%Z /\ d_to_fixed p (uc_scale dir x) = fixed_string N p /\
     Rabs (IZR N / IZR (10 ^ p) - IZR (exact_num dir n) / IZR (exact_den dir k))
       <= / 2 / IZR (10 ^ p) + / 2 ^ 50 * (IZR (exact_num dir n) / IZR (exact_den dir k))).
  { assert (TP : 0 < IZR (10 ^ p)) by (apply IZR_lt, Z.pow_pos_nonneg; lia).
    destruct (Z.eq_dec n 0) as [Z0|NZ].
    - exists 0%Z. split; [lia|]. rewrite (Zx Z0). split; [unfold uc_scale; rewrite inch_value; destruct dir; reflexivity|].
      rewrite <- Er, Z0. unfold Rdiv. rewrite !Rmult_0_l, Rminus_0_r, Rabs_R0, Rmult_0_r, Rplus_0_r.
      apply Rlt_le, Rmult_lt_0_compat; [lra|now apply Rinv_0_lt_compat].
    - destruct (moderate_real n k Hk M NZ) as [Pn BD].
      destruct (scaled_error dir x _ BD (Rx NZ)) as (Fx & Px & Fy & Ny).
      rewrite Er in Ny. set (G := IZR (exact_num dir n) / IZR (exact_den dir k)) in *.
      assert (PG : 0 < G).
      { rewrite <- Er. apply Rmult_lt_0_compat.
        - apply Rdiv_lt_0_compat; [now apply IZR_lt|apply IZR_lt, Z.pow_pos_nonneg; lia].
        - unfold factor. destruct dir; lra. }
      assert (Py : 0 < fR (uc_scale dir x)) by (eapply near_pos; [exact PG| |exact Ny]; lra).
      destruct (fixed_positive _ p Fy Py Hp) as (N & HN & FN & B). exists N. split; [exact HN|]. split; [exact FN|].
      replace (IZR N / IZR (10 ^ p) - G) with ((IZR N - fR (uc_scale dir x) * IZR (10 ^ p)) / IZR (10 ^ p) + (fR (uc_scale dir x) - G)) by (field; lra).
      eapply Rle_trans; [apply Rabs_triang|]. apply Rplus_le_compat; [|exact Ny].
      unfold Rdiv. rewrite Rabs_mult, (Rabs_pos_eq (/ IZR (10 ^ p))) by (apply Rlt_le, Rinv_0_lt_compat, TP).
      apply Rmult_le_compat_r; [apply Rlt_le, Rinv_0_lt_compat, TP|exact B]. }
  destruct W as (N & HN & FN & B).
  destruct (written dir e d d' x p N P HN S FN U) as (n' & k' & HW & K' & EN).
  exists n', k'. split; [exact HW|]. split; [exact K'|]. now apply (rounded_intro _ _ p n' k' N).
Qed.

Lemma number_total dir e d n k : has_number d n k -> moderate n k -> exists d', uc_number dir e d = Ok d'.
Proof.
  intros H M. destruct (number_read d n k H M) as (x & S & _). unfold uc_number. rewrite S. cbn [bind].
  destruct (split_point _) as [[ip fp]|]; eauto.
Qed.

(** ** Blocks *)

Lemma due_rounded dir fg pre d post b' e n k p : Forall readable (pre ++ ADec d :: post)%list ->
  due (produced dir fg) pre d -> unit_convert dir fg (pre ++ ADec d :: post)%list = Ok b' ->
  assoc (d_word d) (produced dir fg) = Some e -> allowed_decimals e p -> has_number d n k -> moderate n k ->
  exists pre' d' post' n' k', b' = (pre' ++ ADec d' :: post')%list /\ List.length pre' = List.length pre /\
    other_number d d' /\ has_number d' n' k' /\ (k' <= p)%Z /\
    rounded (exact_num dir n) (exact_den dir k) p n' k'.
Proof.
  intros R D H A P HN M. destruct (due_converted dir fg pre d post b' R D H) as (e' & pre' & d' & post' & A' & E & L & U).
  rewrite A in A'. injection A' as <-.
  destruct (number_rounded dir e d d' n k p P HN M U) as (n' & k' & HW & K & RR).
  exists pre', d', post', n', k'. split; [exact E|]. split; [exact L|]. split; [eapply uc_number_other; exact U|].
  split; [exact HW|]. split; [lia|exact RR].
Qed.

(** Conversion of readable blocks whose measured words carry moderate numbers succeeds. *)
Definition numeric (g : word_map) (a : attr) : Prop :=
  match a with
  | ADec d => measured g (d_word d) -> ~ bracketed d -> exists n k, has_number d n k /\ moderate n k
  | _ => True
  end.

Lemma convert_from dir g b : forall s, Forall readable b -> Forall (numeric g) b -> exists b', uc_block dir g s b = Ok b'.
Proof.
  induction b as [|a b IH]; intros s R N; cbn [uc_block]; [eauto|]. inv R. inv N.
  assert (S : exists r, uc_step dir g s a = Ok r).
  { destruct a as [d|w v|w c]; cbn [uc_step]; [|eauto..].
    assert (V : exists r, uc_visit dir g s d = Ok r).
    { unfold uc_visit. destruct (uc_ignore s); [eauto|].
      destruct (negb (uc_first s) && String.eqb (d_word d) "/"); [eauto|].
      destruct (dwell_spec d H1) as [[_ E]|[_ E]]; rewrite E; cbn [bind]; [eauto|].
      destruct (is_some (d_macro d) || is_some (d_open d) || is_some (d_close d)) eqn:B; [eauto|].
      destruct (g_code_spec dir d H1) as [[U E2]|[(_ & _ & E2)|(_ & _ & E2)]]; rewrite E2; cbn [bind]; [eauto..|].
      destruct (uc_g68 s && mem_str (d_word d) g68_ignored); [eauto|].
      destruct (conv_entry_spec g (d_word d)) as [(e & C & A & M)|[C _]]; rewrite C; [|eauto].
      destruct (H3 M) as (n & k & HN & MO); [rewrite <- bracketed_test, B; discriminate|].
      destruct (number_total dir e d n k HN MO) as [d' U]. rewrite U. cbn [bind]. eauto. }
    destruct V as [r V]. rewrite V. cbn [bind]. eauto. }
  destruct S as [r S]. rewrite S. cbn [bind]. destruct (IH (fst r) H2 H4) as [b' E]. rewrite E. cbn [bind]. eauto.
Qed.

Lemma convert_total dir fg b : Forall readable b -> Forall (numeric (produced dir fg)) b ->
  exists b', unit_convert dir fg b = Ok b'.
Proof. intros R N. now apply convert_from. Qed.
