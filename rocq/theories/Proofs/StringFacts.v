(** Facts about strings, digits and decimal text. *)
From Verif Require Import Model.Base Proofs.Tactics.

Lemma string_app_assoc a b c : ((a ++ b) ++ c = a ++ (b ++ c))%string.
Proof. induction a; cbn; congruence. Qed.

Lemma string_app_nil a : (a ++ "" = a)%string.
Proof. induction a; cbn; congruence. Qed.

Lemma string_app_length a b : String.length (a ++ b) = (String.length a + String.length b)%nat.
Proof. induction a; cbn; congruence. Qed.

Lemma string_app_inj_l a b c : (a ++ b = a ++ c)%string -> b = c.
Proof. induction a; cbn; intro H; [assumption|]. inv H. auto. Qed.

(** Every result of [stoi] is an [int]. *)
Lemma stoi_int s n : stoi s = Ok n -> int_min <= n <= int_max.
Proof.
  unfold stoi. destruct (span is_space s) as [? s1].
  match goal with |- (let '(_, _) := ?X in _) = _ -> _ => destruct X as [neg s2] end.
  destruct (span is_digit s2) as [ds ?]. destruct ds; [discriminate|].
  match goal with |- (if ?X then _ else _) = _ -> _ => destruct X eqn:E end; [discriminate|].
  intro H; inv H. lia.
Qed.

Lemma to_u32_id n : 0 <= n <= int_max -> to_u32 n = n.
Proof. unfold to_u32, int_max. intros. apply Z.mod_small. lia. Qed.

(** ** Digits *)
Ltac Zify.zify_post_hook ::= Z.div_mod_to_equations.

Lemma code_digit_char d : 0 <= d <= 9 -> code (digit_char d) = d + 48.
Proof.
  intro H. unfold code, digit_char. rewrite nat_ascii_embedding; lia.
Qed.

Lemma digit_char_is_digit d : 0 <= d <= 9 -> is_digit (digit_char d) = true.
Proof. intro H. unfold is_digit. rewrite code_digit_char by assumption. lia. Qed.

Lemma digit_char_val d : 0 <= d <= 9 -> digit_val (digit_char d) = d.
Proof. intro H. unfold digit_val. rewrite code_digit_char by assumption. lia. Qed.

Lemma digits_acc_app a s t : digits_acc a (s ++ t) = digits_acc (digits_acc a s) t.
Proof. revert a; induction s; intro; cbn; auto. Qed.

Lemma digits_acc_pow s : forall a,
  digits_acc a s = a * 10 ^ Z.of_nat (String.length s) + digits_acc 0 s.
Proof.
  induction s as [|c s IH]; intro a; [cbn; lia|].
  cbn [digits_acc String.length]. rewrite IH, (IH (0 * 10 + digit_val c)).
  rewrite Nat2Z.inj_succ, Z.pow_succ_r by lia. lia.
Qed.

Lemma all_chars_app p s t : all_chars p (s ++ t) = all_chars p s && all_chars p t.
Proof. induction s; cbn; [reflexivity|]. rewrite IHs. now rewrite andb_assoc. Qed.

Lemma to_digits_spec fuel : forall n acc, 0 <= n -> n < 10 * 2 ^ Z.of_nat fuel ->
  exists s, to_digits fuel n acc = (s ++ acc)%string /\ s <> ""%string /\
            all_chars is_digit s = true /\ digits_val s = n /\
            (0 < n -> forall c s', s = String c s' -> digit_val c <> 0).
Proof.
  induction fuel as [|f IH]; intros n acc Hn Hf; cbn [to_digits].
  - replace (n / 10 =? 0) with true by (cbn in Hf; lia).
    assert (0 <= n <= 9) by (cbn in Hf; lia).
    exists (String (digit_char (n mod 10)) ""). rewrite Z.mod_small by lia.
    repeat split; try discriminate.
    + cbn. now rewrite digit_char_is_digit.
    + cbn. rewrite digit_char_val by lia. lia.
    + intros Hp c s' E. inv E. rewrite digit_char_val; lia.
  - destruct (n / 10 =? 0) eqn:E.
    + assert (0 <= n <= 9) by lia.
      exists (String (digit_char (n mod 10)) ""). rewrite Z.mod_small by lia.
      repeat split; try discriminate.
      * cbn. now rewrite digit_char_is_digit.
      * cbn. rewrite digit_char_val by lia. lia.
      * intros Hp c s' E2. inv E2. rewrite digit_char_val; lia.
    + rewrite Nat2Z.inj_succ, Z.pow_succ_r in Hf by lia.
      destruct (IH (n / 10) (String (digit_char (n mod 10)) acc)) as (s & E2 & N & A & V & L).
      * lia.
      * assert (0 < 2 ^ Z.of_nat f) by (apply Z.pow_pos_nonneg; lia). lia.
      * exists (s ++ String (digit_char (n mod 10)) "")%string. rewrite E2.
        assert (0 <= n mod 10 <= 9) by lia.
        repeat split.
        -- rewrite string_app_assoc. reflexivity.
        -- destruct s; cbn; discriminate.
        -- rewrite all_chars_app, A. cbn. now rewrite digit_char_is_digit.
        -- unfold digits_val in *. rewrite digits_acc_app, V. cbn.
           rewrite digit_char_val by lia. lia.
        -- intros Hp c s' Es. destruct s as [|c0 s0]; [tauto|]. cbn in Es. inv Es.
           eapply L; [lia|reflexivity].
Qed.

Lemma nat_to_string_spec n : 0 <= n ->
  nat_to_string n <> ""%string /\ all_chars is_digit (nat_to_string n) = true /\
  digits_val (nat_to_string n) = n /\
  (0 < n -> forall c s', nat_to_string n = String c s' -> digit_val c <> 0).
Proof.
  intro H. unfold nat_to_string.
  destruct (to_digits_spec (Z.to_nat (Z.log2 n)) n "") as (s & E & N & A & V & L); [assumption| |].
  - destruct (Z.eq_dec n 0) as [->|]; [cbn; lia|].
    pose proof (Z.log2_spec n) as S. pose proof (Z.log2_nonneg n).
    rewrite Z2Nat.id by lia. rewrite Z.pow_succ_r in S by lia. lia.
  - rewrite E, string_app_nil. auto.
Qed.

Lemma z_to_string_nonneg n : 0 <= n -> z_to_string n = nat_to_string n.
Proof. intro H. unfold z_to_string. destruct (n <? 0) eqn:E; [lia|reflexivity]. Qed.
