(** Proofs about macro assignments and rounding functions. *)
From Verif Require Import Model.Base Model.Attr Model.Double Model.Macro Model.Calc Model.MacroAssign
  Spec.CalcSpec Spec.DoubleSpec Spec.AssignSpec Spec.RoundSpec
  Proofs.Tactics Proofs.StringFacts Proofs.DoubleFacts Proofs.CalcProofs.

Local Open Scope string_scope.
Local Open Scope Z_scope.

Lemma fields_body d : ma_fields d = body d.
Proof.
  unfold ma_fields, body. cbn [String.concat]. cbn [append]. reflexivity.
Qed.

Lemma foldM_app {S A} (f : S -> A -> res S) l1 : forall s l2,
  foldM f s (l1 ++ l2)%list = do s' <- foldM f s l1; foldM f s' l2.
Proof.
  induction l1 as [|a l1 IH]; intros s l2; [reflexivity|]. cbn [app foldM].
  destruct (f s a); [apply IH|reflexivity].
Qed.

Lemma ma_no_hash b : ~ has_word "#" b -> foldM ma_step ma_init b = Ok ma_init.
Proof.
  induction b as [|a b IH]; intro H; [reflexivity|]. cbn [foldM].
  assert (Hb : ~ has_word "#" b).
  { intros (d & I & E). apply H. exists d. split; [now right|exact E]. }
  destruct a as [d|w v|w c]; cbn [ma_step]; try (now apply IH).
  unfold ma_visit. cbn [ma_equal ma_init ma_macro]. destruct (String.eqb_spec (d_word d) "#") as [E|E].
  - exfalso. apply H. exists d. split; [now left|exact E].
  - cbn. now apply IH.
Qed.

Lemma ma_after_equal b : forall n t,
  foldM ma_step (mkMA n true t) b = Ok (mkMA n true (t ++ words_text b)).
Proof.
  induction b as [|a b IH]; intros n t; cbn [foldM words_text].
  - now rewrite string_app_nil.
  - destruct a as [d|w v|w c]; cbn [ma_step]; try (now apply IH).
    unfold ma_visit. cbn [ma_equal ma_macro ma_text]. rewrite IH, fields_body.
    now rewrite !string_app_assoc.
Qed.

Lemma denotes_stoi s n : denotes s n -> n <= int_max -> stoi s = Ok n.
Proof.
  intros (N & D & <-) B.
  destruct s as [|c s]; [tauto|]. pose proof D as D0. cbn in D0. apply andb_prop in D0 as [Dc _].
  assert (V : 0 <= digits_val (String c s)).
  { clear - D. unfold digits_val.
    assert (G : forall x acc, all_chars is_digit x = true -> 0 <= acc -> 0 <= digits_acc acc x).
    { induction x as [|a x IH]; intros acc H A; cbn in *; [lia|]. apply andb_prop in H as [H1 H2].
      apply IH; [exact H2|]. unfold is_digit, digit_val in *. lia. }
    now apply G. }
  unfold stoi. assert (Sp : is_space c = false) by (unfold is_space, is_digit in *; lia).
  cbn [span]. rewrite Sp.
  destruct (Ascii.eqb_spec c "-"); [subst; discriminate|].
  destruct (Ascii.eqb_spec c "+"); [subst; discriminate|].
  pose proof (span_app is_digit (String c s) "" D I) as E. rewrite string_app_nil in E. rewrite E.
  unfold int_min. destruct ((digits_val (String c s) <? -2147483648) || (int_max <? digits_val (String c s))) eqn:F;
    [lia|reflexivity].
Qed.

Lemma digits_val_nonneg s : all_chars is_digit s = true -> 0 <= digits_val s.
Proof.
  unfold digits_val.
  assert (G : forall x acc, all_chars is_digit x = true -> 0 <= acc -> 0 <= digits_acc acc x).
  { induction x as [|a x IH]; intros acc H A; cbn in *; [lia|]. apply andb_prop in H as [H1 H2].
    apply IH; [exact H2|]. unfold is_digit, digit_val in *. lia. }
  intro H. now apply G.
Qed.

Section Assign.
Variable lit : string -> dbl.
Variable libm : string -> dbl -> dbl.

Lemma assigns_state b id t : assigns b id t -> id <= int_max ->
  0 <= id /\ foldM ma_step ma_init b = Ok (mkMA id true t).
Proof.
  intros (pre & h & q & rest & n & -> & Hp & Wh & Vh & Dn & Wq & ->) B.
  assert (P : 0 <= id) by (destruct Dn as (_ & D & <-); now apply digits_val_nonneg).
  split; [exact P|].
  rewrite foldM_app, (ma_no_hash pre Hp). cbn [bind foldM ma_step].
  unfold ma_visit at 1. cbn [ma_equal ma_init]. rewrite Wh. cbn [String.eqb Ascii.eqb Bool.eqb].
  rewrite Vh, (denotes_stoi n id Dn B). cbn [bind].
  unfold ma_visit at 1. cbn [ma_equal ma_macro ma_text ma_init]. rewrite Wq.
  change (String.eqb "=" "#") with false. cbv iota.
  destruct (Z.eqb_spec id (-1)) as [E|E]; [lia|].
  change (String.eqb "=" "=") with true. rewrite ma_after_equal. cbn [append].
  now rewrite fields_body.
Qed.

Lemma to_u32_small n : 0 <= n <= int_max -> to_u32 n = n.
Proof. unfold to_u32, int_max. intro. rewrite Z.mod_small; lia. Qed.

(** A refusal leaves the table alone, whatever the block. *)
Lemma refused_unchanged mv line b mv' m :
  macro_evaluate lit libm mv line b = Ok (mv', Some m) -> mv' = mv.
Proof.
  unfold macro_evaluate. destruct (foldM ma_step ma_init b) as [s|e]; [|discriminate]. cbn [bind].
  destruct (ma_macro s =? -1); [discriminate|]. destruct (ma_text s); [congruence|].
  destruct (value_calculator lit libm mv _) as [[v|r]|e]; cbn [bind]; congruence.
Qed.

Lemma assignment_outcomes mv line b id t : assigns b id t -> id <= int_max ->
  match macro_evaluate lit libm mv line b with
  | Ok (mv', None) =>
      exists e t1 r v, t = t1 ++ r /\ spells libm LExpr e t1 /\ no_operator r /\
        value lit libm mv e = Ok v /\ mv' = mstep mv (MUser id line v)
  | Ok (mv', Some _) => mv' = mv
  | Exc x => exists e t1 r, t = t1 ++ r /\ spells libm LExpr e t1 /\ value lit libm mv e = Exc x
  end.
Proof.
  intros A B. destruct (assigns_state b id t A B) as [P E]. unfold macro_evaluate. rewrite E.
  cbn [bind ma_macro ma_text]. destruct (Z.eqb_spec id (-1)) as [X|_]; [lia|].
  destruct t as [|c t'] eqn:Et; [reflexivity|]. rewrite <- Et. clear A E Et.
  destruct (calculator_outcomes lit libm mv t) as [(e & t1 & r & -> & Sp & N & ->)|[m ->]]; [|reflexivity].
  destruct (value lit libm mv e) as [v|x] eqn:V; cbn [answer_of bind].
  - rewrite to_u32_small by lia. exists e, t1, r, v. auto 10.
  - destruct x; cbn [bind]; try reflexivity; exists e, t1, r; auto.
Qed.

Lemma complete_assignment mv line b id t e : assigns b id t -> id <= int_max -> spells libm LExpr e t ->
  macro_evaluate lit libm mv line b =
  match value lit libm mv e with
  | Ok v => Ok (mstep mv (MUser id line v), None)
  | Exc (EEval m) => Ok (mv, Some m)
  | Exc x => Exc x
  end.
Proof.
  intros A B Sp. destruct (assigns_state b id t A B) as [P E]. unfold macro_evaluate. rewrite E.
  cbn [bind ma_macro ma_text]. destruct (Z.eqb_spec id (-1)) as [X|_]; [lia|].
  destruct t as [|c t'] eqn:Et.
  - exfalso. apply (spells_nonempty lit libm) in Sp. cbn [String.length] in Sp. lia.
  - rewrite (calculator_value lit libm e _ mv Sp).
    destruct (value lit libm mv e) as [v|x]; cbn [answer_of bind].
    + now rewrite to_u32_small by lia.
    + now destruct x.
Qed.

Lemma no_prefix_refused mv line b id t : assigns b id t -> id <= int_max ->
  (forall e t1 r, t = t1 ++ r -> ~ spells libm LExpr e t1) ->
  exists m, macro_evaluate lit libm mv line b = Ok (mv, Some m).
Proof.
  intros A B N. pose proof (assignment_outcomes mv line b id t A B) as O.
  destruct (macro_evaluate lit libm mv line b) as [[mv' [m|]]|x].
  - subst. eauto.
  - destruct O as (e & t1 & r & v & Et & Sp & _). exfalso. exact (N e t1 r Et Sp).
  - destruct O as (e & t1 & r & Et & Sp & _). exfalso. exact (N e t1 r Et Sp).
Qed.

Lemma no_hash_unchanged mv line b : ~ has_word "#" b -> macro_evaluate lit libm mv line b = Ok (mv, None).
Proof. intro H. unfold macro_evaluate. rewrite (ma_no_hash b H). reflexivity. Qed.

Lemma trailing_accepted : exists mv line b id t v,
  assigns b id t /\ id <= int_max /\ (forall e, ~ spells libm LExpr e t) /\
  macro_evaluate lit libm mv line b = Ok (mstep mv (MUser id line v), None) /\
  macro_lookup (mstep mv (MUser id line v)) id line = Some v.
Proof.
  exists [], 1, [ADec (plain "#" "1"); ADec (plain "=" "1"); ADec (plain "X" "5")], 1, "1X5", (lit "1").
  split.
  { exists [], (plain "#" "1"), (plain "=" "1"), [ADec (plain "X" "5")], "1".
    repeat split; try discriminate. intros (d & [] & _). }
  split; [discriminate|]. split; [apply not_spelled with (lit := lit)|].
  - intros o. vm_compute. discriminate.
  - split; reflexivity.
Qed.

Lemma no_equal_accepted : exists mv line b v,
  ~ has_word "=" b /\
  macro_evaluate lit libm mv line b = Ok (mstep mv (MUser 1 line v), None) /\
  macro_lookup mv 1 line = None /\ macro_lookup (mstep mv (MUser 1 line v)) 1 line = Some v.
Proof.
  exists [], 1, [ADec (plain "#" "1"); ADec (plain "X" "5")], (lit "5").
  split; [|split; [reflexivity|split; reflexivity]].
  intros (d & I & E). destruct I as [I|[I|[]]]; injection I as <-; discriminate.
Qed.

(** BCD[BIN[n]] *)
Lemma bcd_bin_expression mv t n : literal t -> is_int (literal_value lit t) n -> 0 <= n < 2 ^ 32 ->
  exists v, value_calculator lit libm mv ("BCD[BIN[" ++ t ++ "]]") = Ok (CValue v) /\ is_int v n.
Proof.
  intros L I R.
  assert (Sp : spells libm LExpr (Fn "BCD" (Fn "BIN" (Lit t))) ("BCD[BIN[" ++ t ++ "]]")).
  { assert (O : opening "[") by now right. assert (C : closing "]") by now right.
    pose proof (sp_term libm _ _ (sp_factor libm _ _ (sp_lit libm "" t eq_refl L))) as S1.
    assert (K1 : In "BIN" (map fst (functions libm))) by (cbn; auto 30).
    assert (K2 : In "BCD" (map fst (functions libm))) by (cbn; auto 30).
    pose proof (sp_term libm _ _ (sp_factor libm _ _
      (sp_fn libm "" "BIN" "" "[" _ _ "" "]" eq_refl K1 eq_refl O S1 eq_refl C))) as S2.
    pose proof (sp_term libm _ _ (sp_factor libm _ _
      (sp_fn libm "" "BCD" "" "[" _ _ "" "]" eq_refl K2 eq_refl O S2 eq_refl C))) as S3.
    cbn [append] in S3. rewrite string_app_assoc in S3. exact S3. }
  rewrite (calculator_value lit libm _ _ mv Sp).
  exists (d_of_Z n). split; [|apply d_of_Z_int; lia].
  change (value lit libm mv (Fn "BCD" (Fn "BIN" (Lit t)))) with
    (do x <- (do n0 <- d_to_u32 (literal_value lit t); Ok (d_of_Z (reread 10 10 16 n0)));
     do n0 <- d_to_u64 x; Ok (d_of_Z (reread 16 16 10 n0 mod 2 ^ 32))).
  destruct (bcd_round_trip n R) as (b & E1 & B & _ & E2).
  rewrite (uint32_to_bcd_reread n R) in E1. assert (E3 : reread 10 10 16 n = b) by congruence.
  rewrite bcd_to_ui32_reread in E2 by lia. assert (E4 : reread 16 16 10 b mod 2 ^ 32 = n) by congruence.
  unfold d_to_u32. rewrite (d_trunc_int _ _ I).
  replace ((0 <=? n) && (n <? 4294967296)) with true by lia. cbn [bind]. rewrite E3.
  unfold d_to_u64. rewrite (d_trunc_int (d_of_Z b) b) by (apply d_of_Z_int; lia).
  replace ((0 <=? b) && (b <? 18446744073709551616)) with true by lia. cbn [bind answer_of].
  now rewrite E4.
Qed.
End Assign.

(** ** Rounding functions *)

Lemma bounded_small m e : bounded 53 1024 m e = true -> Zpos m < 2 ^ 53.
Proof.
  intro B. apply bounded_spec in B. rewrite fe_eq in B. pose proof (log2_bounds m) as L.
  assert (2 ^ Zpos (digits2_pos m) <= 2 ^ 53) by (apply Z.pow_le_mono_r; lia). lia.
Qed.

Lemma finite_int m e (s : bool) : bounded 53 1024 m e = true -> 0 <= e ->
  is_int (S754_finite s m e) ((if s then -1 else 1) * (Zpos m * 2 ^ e)).
Proof.
  intros B E. split; [exact B|]. cbn [sval]. unfold scaled. rewrite Z.pow_add_r by (unfold unit_exp; lia). ring.
Qed.

Lemma signed_int s a : 0 <= a < 2 ^ 53 -> is_int (d_signed_int s a) (if s then - a else a).
Proof.
  intro H. unfold d_signed_int. destruct (Z.eqb_spec a 0) as [->|N].
  - split; [exact I|]. now destruct s.
  - apply d_of_Z_int. destruct s; lia.
Qed.

Lemma scaled_lt a b : a < b -> scaled a < scaled b.
Proof. unfold scaled. pose proof (pow2_pos unit_exp ltac:(unfold unit_exp; lia)). nia. Qed.

Lemma frac_setup m e : bounded 53 1024 m e = true -> e < 0 ->
  exists A P, A = 2 ^ (- e) /\ P = 2 ^ (e + unit_exp) /\ 2 ^ unit_exp = A * P /\ 0 < P /\ 2 <= A /\
    0 < Zpos m < 2 ^ 53.
Proof.
  intros B E. pose proof (bounded_exp m e B). exists (2 ^ (- e)), (2 ^ (e + unit_exp)). unfold unit_exp in *.
  assert (X1 : 2 ^ 1074 = 2 ^ (- e) * 2 ^ (e + 1074)) by (rewrite <- Z.pow_add_r by lia; f_equal; lia).
  assert (X2 : 0 < 2 ^ (e + 1074)) by (apply pow2_pos; lia).
  assert (X3 : 2 <= 2 ^ (- e)).
  { replace (- e) with (1 + (- e - 1)) by lia. rewrite Z.pow_add_r by lia.
    pose proof (pow2_pos (- e - 1)). lia. }
  pose proof (bounded_small m e B). auto 10 with zarith.
Qed.

Lemma floor_spec x : finite x -> exists n, is_int (d_floor x) n /\ rounds_down x n.
Proof.
  destruct x as [s|s| |s m e]; cbn [finite]; try contradiction; intro F.
  - exists 0. split; [split; [exact I|reflexivity]|]. unfold rounds_down. cbn [sval].
    split; [reflexivity|]. change 0 with (scaled 0) at 1. apply scaled_lt. lia.
  - cbn [d_floor]. destruct (Z.leb_spec 0 e) as [E|E].
    + exists ((if s then -1 else 1) * (Zpos m * 2 ^ e)).
      pose proof (finite_int m e s F E) as [F1 V]. split; [split; [exact F1|exact V]|].
      unfold rounds_down. rewrite V. split; [lia|]. apply scaled_lt. lia.
    + destruct (frac_setup m e F E) as (A & P & EA & EP & EU & HP & HA & Hm).
      rewrite <- EA. set (q := Zpos m / A). set (r := Zpos m mod A).
      assert (Q : Zpos m = A * q + r) by (apply Z.div_mod; lia).
      assert (R : 0 <= r < A) by (apply Z.mod_pos_bound; lia).
      assert (Q0 : 0 <= q) by (apply Z.div_pos; lia).
      assert (QM : q + 1 <= 2 ^ 53) by nia.
      set (a := if s && negb (r =? 0) then q + 1 else q).
      assert (Ha : 0 <= a < 2 ^ 53).
      { subst a. destruct s, (Z.eqb_spec r 0); cbn [andb negb]; try lia; nia. }
      exists (if s then - a else a). split; [now apply signed_int|].
      unfold rounds_down, scaled. cbn [sval]. rewrite <- EP, EU, Q. subst a.
      destruct s; cbn [andb].
      * destruct (Z.eqb_spec r 0) as [->|N]; cbn [negb]; nia.
      * nia.
Qed.

Lemma opp_int x n : is_int x n -> is_int (dopp x) (- n).
Proof.
  intros [F V]. destruct (dopp_val x F) as [F2 V2]. split; [exact F2|]. rewrite V2, V. unfold scaled. ring.
Qed.

Lemma ceil_spec x : finite x -> exists n, is_int (d_ceil x) n /\ rounds_up x n.
Proof.
  intro F. destruct (dopp_val x F) as [F2 V2].
  destruct (floor_spec (dopp x) F2) as (n & I1 & D). exists (- n). split; [now apply opp_int|].
  unfold rounds_down, rounds_up, scaled in *. rewrite V2 in D. nia.
Qed.

Lemma round_spec x : finite x -> exists n, is_int (d_round x) n /\ rounds_nearest x n.
Proof.
  destruct x as [s|s| |s m e]; cbn [finite]; try contradiction; intro F.
  - exists 0. split; [split; [exact I|reflexivity]|]. unfold rounds_nearest. cbn [sval].
    assert (0 < scaled 1) by (change 0 with (scaled 0); apply scaled_lt; lia).
    unfold scaled at 1 3. lia.
  - cbn [d_round]. destruct (Z.leb_spec 0 e) as [E|E].
    + exists ((if s then -1 else 1) * (Zpos m * 2 ^ e)).
      pose proof (finite_int m e s F E) as [F1 V]. split; [split; [exact F1|exact V]|].
      assert (0 < scaled 1) by (change 0 with (scaled 0); apply scaled_lt; lia).
      unfold rounds_nearest. rewrite V, Z.sub_diag. cbn [Z.abs]. lia.
    + destruct (frac_setup m e F E) as (A & P & EA & EP & EU & HP & HA & Hm).
      assert (HH : A = 2 * 2 ^ (- e - 1)).
      { rewrite EA, <- Z.pow_succ_r by lia. f_equal. lia. }
      rewrite <- EA. set (H := 2 ^ (- e - 1)) in *.
      set (q := (Zpos m + H) / A). set (r := (Zpos m + H) mod A).
      assert (Q : Zpos m + H = A * q + r) by (apply Z.div_mod; lia).
      assert (R : 0 <= r < A) by (apply Z.mod_pos_bound; lia).
      assert (Q0 : 0 <= q) by (apply Z.div_pos; lia).
      assert (QM : q < 2 ^ 53).
      { apply Z.div_lt_upper_bound; [lia|]. assert (1 <= H) by lia. nia. }
      exists (if s then - q else q). split; [exact (signed_int s q (conj Q0 QM))|].
      unfold rounds_nearest, scaled. cbn [sval]. rewrite <- EP, EU.
      assert (Em : Zpos m = A * q + (r - H)) by lia.
      assert (D : Zpos m * P - q * (A * P) = (r - H) * P) by (rewrite Em; ring).
      assert (D1 : 2 * Z.abs ((r - H) * P) <= A * P).
      { rewrite Z.abs_mul, (Z.abs_eq P) by lia. assert (2 * Z.abs (r - H) <= A) by lia. nia. }
      assert (D2 : 2 * Z.abs ((r - H) * P) = A * P -> Zpos m * P < q * (A * P)).
      { rewrite Z.abs_mul, (Z.abs_eq P) by lia. intro X. rewrite Z.mul_assoc in X. apply Z.mul_reg_r in X; [|lia].
        assert (R0 : r - H = - H) by lia. rewrite R0 in D. assert (1 <= H) by lia. nia. }
      assert (M0 : 0 < Zpos m * P) by nia. assert (M1 : 0 <= q * (A * P)) by (apply Z.mul_nonneg_nonneg; nia).
      destruct s.
      * replace (-1 * (Zpos m * P) - - q * (A * P)) with (- ((r - H) * P)) by (rewrite <- D; ring).
        rewrite Z.abs_opp. split; [lia|]. intro X. specialize (D2 ltac:(lia)). lia.
      * replace (1 * (Zpos m * P) - q * (A * P)) with ((r - H) * P) by (rewrite <- D; ring).
        split; [lia|]. intro X. specialize (D2 ltac:(lia)). lia.
Qed.

Lemma rounding_functions lit libm mv k e t x :
  spells libm LExpr (Fn k e) t -> value lit libm mv e = Ok x -> finite x ->
  (k = "FIX" -> exists v n, value_calculator lit libm mv t = Ok (CValue v) /\ is_int v n /\ rounds_down x n) /\
  (k = "FUP" -> exists v n, value_calculator lit libm mv t = Ok (CValue v) /\ is_int v n /\ rounds_up x n) /\
  (k = "ROUND" -> exists v n, value_calculator lit libm mv t = Ok (CValue v) /\ is_int v n /\ rounds_nearest x n).
Proof.
  intros Sp V F. rewrite (calculator_value lit libm _ _ mv Sp).
  cbn [value]. rewrite V. cbn [bind].
  split; [|split]; intros ->; cbn [assoc functions String.eqb Ascii.eqb Bool.eqb answer_of].
  - destruct (floor_spec x F) as (n & H). eauto.
  - destruct (ceil_spec x F) as (n & H). eauto.
  - destruct (round_spec x F) as (n & H). eauto.
Qed.

Lemma sinh_refused lit libm mv e t x :
  spells libm LExpr (Fn "SINH" e) t -> value lit libm mv e = Ok x ->
  exists m, value_calculator lit libm mv t = Ok (CRefused m).
Proof.
  intros Sp V. rewrite (calculator_value lit libm _ _ mv Sp).
  cbn [value]. rewrite V. cbn [bind]. eexists. reflexivity.
Qed.

Lemma other_functions lit libm mv k e t x :
  In k ["ABS"; "SQRT"; "FIX"; "FUP"; "ROUND"; "SIN"; "COS"; "TAN"; "ASIN"; "ACOS"; "ATAN"; "COSH"; "TANH";
        "EXP"; "LOG"; "LOG10"] ->
  spells libm LExpr (Fn k e) t -> value lit libm mv e = Ok x ->
  exists v, value_calculator lit libm mv t = Ok (CValue v).
Proof.
  intros K Sp V. rewrite (calculator_value lit libm _ _ mv Sp).
  cbn [value]. rewrite V. cbn [bind].
  cbn [In] in K. repeat (destruct K as [<-|K]; [eexists; reflexivity|]). destruct K.
Qed.

Lemma some_function_refused lit libm : exists k, In k (map fst function_names) /\
  forall mv e t x, spells libm LExpr (Fn k e) t -> value lit libm mv e = Ok x ->
  exists m, value_calculator lit libm mv t = Ok (CRefused m).
Proof.
  exists "SINH". split; [cbn; auto 30|]. intros mv e t x. apply sinh_refused.
Qed.
