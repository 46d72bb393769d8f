(** Reading and writing the part of a word behind its address. *)
From Verif Require Import Model.Base Model.Attr Model.Grammar Proofs.Tactics Proofs.TextProofs Proofs.StringFacts Proofs.GrammarLex.

Definition tail_text (d : decimal) : string :=
  opt_chr (d_sign d) ++ opt_str (d_open d) ++ opt_str (d_macro d) ++ opt_str (d_value d) ++ opt_chr (d_dot d)
  ++ opt_str (d_value2 d) ++ opt_str (d_close d).

Definition run_of (p : ascii -> bool) (o : option string) : Prop :=
  match o with Some x => x <> ""%string /\ all_chars p x = true | None => True end.

Definition is_open := Ascii.eqb "[".
Definition is_close := Ascii.eqb "]".

(** The parts are what the rules can read. *)
Definition tail_ok (wo : bool) (d : decimal) : Prop :=
  (match d_sign d with Some c => in_set "-+" c = true | None => True end) /\
  run_of is_open (d_open d) /\ (wo = false -> d_open d = None) /\
  (d_macro d = None \/ d_macro d = Some "#"%string) /\ run_of is_digit (d_value d) /\
  (d_dot d = None \/ d_dot d = Some "."%char) /\ run_of is_digit (d_value2 d) /\
  (d_dot d = None -> d_value2 d = None) /\ run_of is_close (d_close d).

(** The character is not read as one more part of the word, blanks in front of it. *)
Definition may_follow (wo : bool) (d : decimal) (c : ascii) : Prop :=
  d_close d = None -> is_close c = false /\
  (d_value d = None -> d_dot d = None -> is_digit c = false /\ in_set "." c = false /\
   (d_macro d = None -> in_set "#" c = false /\
    (d_open d = None -> (wo = true -> is_open c = false) /\ (d_sign d = None -> in_set "-+" c = false)))).

Definition blank_start (t : string) : Prop := match t with String c _ => is_blank c = true | EmptyString => True end.

Lemma blank_not c : is_blank c = true -> is_digit c = false /\ is_open c = false /\ is_close c = false /\ in_set "." c = false.
Proof.
  intro H. split; [unfold is_blank, is_digit in *; lia|].
  split; [|split]; [| |]; destruct c as [[] [] [] [] [] [] [] []]; try reflexivity; discriminate H.
Qed.

Lemma stage_char cs c R :
  match c with Some x => in_set cs x = true /\ is_blank x = false | None => forall y, hd R = Some y -> in_set cs y = false end ->
  exists R', opt_char cs (skip (opt_chr c ++ R)) = (c, R') /\ skip R' = skip R /\ (R' = R \/ (c = None /\ R' = skip R)).
Proof.
  destruct c as [x|]; cbn [opt_chr append]; intro H.
  - destruct H as [I B]. exists R. rewrite skip_none by exact B. rewrite opt_char_some by exact I. auto.
  - exists (skip R). rewrite opt_char_none; [rewrite skip_skip; auto|]. unfold hd in H. destruct (skip R); auto.
Qed.

Lemma stage_run p v R : run_of p v -> (forall c, p c = true -> is_blank c = false) ->
  match v with Some x => match R with String y _ => p y = false | _ => True end | None => forall y, hd R = Some y -> p y = false end ->
  exists R', opt_run p (skip (opt_str v ++ R)) = (v, R') /\ skip R' = skip R /\ (v <> None -> R' = R) /\ (v = None -> R' = skip R).
Proof.
  destruct v as [x|]; cbn [opt_str append]; intros A B H.
  - exists R. destruct A as [N A]. rewrite skip_none.
    + rewrite opt_run_some by auto. split; [auto|]. split; [auto|]. split; [auto|discriminate].
    + destruct x as [|c x]; [contradiction|]. cbn. cbn in A. apply andb_true_iff in A as [A _]. auto.
  - exists (skip R). rewrite opt_run_none by (unfold hd in H; destruct (skip R); auto).
    split; [auto|]. split; [apply skip_skip|]. split; [congruence|auto].
Qed.

Lemma hd_app a b : (match a with String c _ => is_blank c = false | _ => True end) ->
  hd (a ++ b) = match a with String c _ => Some c | EmptyString => hd b end.
Proof. destruct a as [|c a]; cbn; intro H; [reflexivity|]. unfold hd. rewrite skip_none; auto. Qed.

Lemma is_open_eq c : is_open c = true -> c = "["%char.
Proof. unfold is_open. intro H. apply Ascii.eqb_eq in H. auto. Qed.
Lemma is_close_eq c : is_close c = true -> c = "]"%char.
Proof. unfold is_close. intro H. apply Ascii.eqb_eq in H. auto. Qed.

Lemma digit_nb c : is_digit c = true -> is_blank c = false.
Proof. unfold is_digit, is_blank. lia. Qed.
Lemma open_nb c : is_open c = true -> is_blank c = false.
Proof. unfold is_open. intro H. apply Ascii.eqb_eq in H. now subst. Qed.
Lemma close_nb c : is_close c = true -> is_blank c = false.
Proof. unfold is_close. intro H. apply Ascii.eqb_eq in H. now subst. Qed.
Lemma sign_nb c : in_set "-+" c = true -> is_blank c = false.
Proof. destruct c as [[] [] [] [] [] [] [] []]; cbn; intro; try discriminate; reflexivity. Qed.

Lemma digit_sets c : is_digit c = true -> in_set "-+" c = false /\ is_open c = false /\ in_set "#" c = false /\ is_close c = false /\ in_set "." c = false.
Proof. destruct c as [[] [] [] [] [] [] [] []]; cbn; intro; try discriminate; repeat split; reflexivity. Qed.

(** First character of an optional part followed by something. *)
Lemma hd_run p v R c : run_of p v -> (forall c, p c = true -> is_blank c = false) -> hd (opt_str v ++ R) = Some c ->
  (v <> None /\ p c = true) \/ (v = None /\ hd R = Some c).
Proof.
  destruct v as [x|]; cbn [opt_str append run_of]; intros A B H; [|auto]. destruct A as [N A]. destruct x as [|y x]; [contradiction|].
  cbn in A. apply andb_true_iff in A as [A _]. rewrite hd_app in H by (cbn; auto). inv H. left. split; [discriminate|auto].
Qed.

Lemma hd_chr (v : option ascii) R c : (forall x, v = Some x -> is_blank x = false) -> hd (opt_chr v ++ R) = Some c ->
  (v = Some c) \/ (v = None /\ hd R = Some c).
Proof.
  destruct v as [x|]; cbn [opt_chr append]; intros B H; [|auto]. unfold hd in H. rewrite skip_none in H by (cbn; auto). inv H. auto.
Qed.

Definition with_head (w : string) (asg : option ascii) (d : decimal) : decimal :=
  mkDec w asg (d_sign d) (d_open d) (d_macro d) (d_value d) (d_dot d) (d_value2 d) (d_close d).

(** What the tail of a word looks like after it was written is read back. *)
Lemma number_tail_text wo w asg d rest : tail_ok wo d -> blank_start rest -> (forall c, hd rest = Some c -> may_follow wo d c) ->
  exists rest', number_tail wo w asg (tail_text d ++ rest) = (with_head w asg d, rest') /\ (rest' = rest \/ rest' = skip rest).
Proof.
  intros (Hs & Ho & Hwo & Hm & Hv & Hd & Hv2 & Hdv & Hc) B F. unfold tail_text, with_head. rewrite !string_app_assoc.
  destruct d as [w0 a0 sg op mac v dot v2 cl]. cbn [d_sign d_open d_macro d_value d_dot d_value2 d_close] in *.
  set (T6 := (opt_str cl ++ rest)%string). set (T5 := (opt_str v2 ++ T6)%string). set (T4 := (opt_chr dot ++ T5)%string).
  set (T3 := (opt_str v ++ T4)%string). set (T2 := (opt_str mac ++ T3)%string). set (T1 := (opt_str op ++ T2)%string).
  (* first characters of the remaining texts *)
  assert (F' : forall c, hd rest = Some c -> cl = None -> is_close c = false /\
    (v = None -> dot = None -> is_digit c = false /\ in_set "." c = false /\
      (mac = None -> in_set "#" c = false /\ (op = None -> (wo = true -> is_open c = false) /\ (sg = None -> in_set "-+" c = false))))).
  { intros c H E. specialize (F c H). unfold may_follow in F. cbn in F. exact (F E). }
  assert (H6 : forall c, hd T6 = Some c -> (cl <> None /\ is_close c = true) \/ (cl = None /\ hd rest = Some c)).
  { intros c H. apply (hd_run is_close) in H; auto. exact close_nb. }
  assert (CS : forall c, is_close c = true -> is_digit c = false /\ in_set "." c = false /\ in_set "#" c = false /\ is_open c = false /\ in_set "-+" c = false).
  { intros c H. apply is_close_eq in H. subst c. repeat split; reflexivity. }
  assert (H4 : forall c, hd T4 = Some c -> v = None -> dot = None -> is_digit c = false /\ in_set "." c = false /\
      (mac = None -> in_set "#" c = false /\ (op = None -> (wo = true -> is_open c = false) /\ (sg = None -> in_set "-+" c = false)))).
  { intros c H E1 E2. subst T4 T5. rewrite E2 in H. rewrite (Hdv E2) in H. cbn [opt_chr opt_str append] in H.
    destruct (H6 c H) as [[_ C]|[C R]]; [apply CS in C; tauto|]. apply (F' c R C); auto. }
  assert (H4' : forall c, hd T4 = Some c -> dot <> None -> c = "."%char).
  { intros c H E. subst T4. destruct Hd as [->|Hd]; [congruence|]. rewrite Hd in H. cbv in H. congruence. }
  assert (H3 : forall c, hd T3 = Some c -> (is_digit c = true /\ v <> None) \/ (v = None /\ hd T4 = Some c)).
  { intros c H. apply (hd_run is_digit) in H; [tauto|auto|exact digit_nb]. }
  assert (DOT : in_set "#" "." = false /\ is_open "." = false /\ in_set "-+" "." = false /\ is_digit "." = false) by (repeat split; reflexivity).
  assert (H3' : mac = None -> forall c, hd T3 = Some c -> in_set "#" c = false /\ (op = None -> (wo = true -> is_open c = false) /\ (sg = None -> in_set "-+" c = false))).
  { intros E c H. destruct (H3 c H) as [[D _]|[V D]]; [apply digit_sets in D; tauto|].
    destruct dot as [y|] eqn:Ed; [|apply (H4 c D V eq_refl) ; auto].
    rewrite (H4' c D) by discriminate. tauto. }
  assert (H2 : op = None -> forall c, hd T2 = Some c -> (wo = true -> is_open c = false) /\ (sg = None -> in_set "-+" c = false)).
  { intros E c H. subst T2. destruct Hm as [->|Hm].
    - cbn [opt_str append] in H. apply (H3' eq_refl c H); auto.
    - rewrite Hm in H. cbv in H. inv H. split; intros; reflexivity. }
  assert (H1 : sg = None -> forall c, hd T1 = Some c -> in_set "-+" c = false).
  { intros E c H. apply (hd_run is_open) in H; [|auto|exact open_nb]. destruct H as [[_ O]|[O H]].
    - apply is_open_eq in O. subst c. reflexivity.
    - apply (H2 O c H); auto. }
  unfold number_tail.
  (* sign *)
  destruct (stage_char "-+" sg T1) as (R0 & E0 & S0 & _).
  { destruct sg as [x|]; [split; [exact Hs|now apply sign_nb]|]. apply H1; reflexivity. }
  rewrite E0. clear E0.
  (* opening brackets *)
  assert (E1 : exists R1, (if wo then opt_run (Ascii.eqb "[") (skip R0) else (None, R0)) = (op, R1) /\ skip R1 = skip T2).
  { destruct wo.
    - rewrite S0. subst T1. destruct (stage_run is_open op T2) as (R1 & E & X & _); [auto|exact open_nb| |eauto].
      destruct op as [x|]; [|intros y Y; apply (H2 eq_refl y Y); reflexivity].
      (* the character behind the brackets *)
      assert (N : forall y r, T2 = String y r -> is_open y = false).
      { intros y r Y. subst T2. destruct Hm as [Hm|Hm]; rewrite Hm in Y; cbn in Y; [|inv Y; reflexivity].
        subst T3. destruct v as [vx|]; cbn in Y.
        { destruct Hv as [N A]. destruct vx as [|q vx]; [contradiction|]. cbn in Y. inv Y. cbn in A. apply andb_true_iff in A as [A _]. apply digit_sets in A. tauto. }
        subst T4. destruct Hd as [Hd|Hd]; rewrite Hd in Y; cbn in Y; [|inv Y; reflexivity].
        subst T5. rewrite (Hdv Hd) in Y. cbn in Y. subst T6. destruct cl as [cx|]; cbn in Y.
        { destruct Hc as [N A]. destruct cx as [|q cx]; [contradiction|]. cbn in Y. inv Y. cbn in A. apply andb_true_iff in A as [A _]. apply CS in A. tauto. }
        subst rest. cbn in B. apply blank_not in B. tauto. }
      destruct T2; [exact I|]. eapply N; reflexivity.
    - exists R0. rewrite (Hwo eq_refl). split; [reflexivity|]. rewrite S0. unfold T1. rewrite (Hwo eq_refl). reflexivity. }
  destruct E1 as (R1 & E1 & S1). rewrite E1. clear E1.
  (* macro *)
  rewrite S1. clear S1. assert (E2 : exists R2, opt_char "#" (skip T2) = ((match mac with Some _ => Some "#"%char | None => None end), R2) /\ skip R2 = skip T3).
  { subst T2. destruct Hm as [Hm|Hm]; rewrite Hm.
    - destruct (stage_char "#" None T3) as (R2 & E & X & _); [|eauto]. intros y Y. apply (H3' Hm y Y).
    - exists T3. split; [|reflexivity]. cbn [opt_str append]. rewrite skip_none; reflexivity. }
  destruct E2 as (R2 & E2 & S2). rewrite E2. clear E2. rewrite S2. clear S2.
  (* digits *)
  destruct (stage_run is_digit v T4) as (R3 & E3 & S3 & X3 & Y3); [auto|exact digit_nb| |].
  { destruct v as [x|].
    - subst T4. destruct Hd as [Hd|Hd]; rewrite Hd; cbn; [|reflexivity].
      subst T5. rewrite (Hdv Hd). cbn. subst T6. destruct cl as [cx|]; cbn.
      + destruct Hc as [N A]. destruct cx as [|q cx]; [contradiction|]. cbn in A |- *. apply andb_true_iff in A as [A _]. apply CS in A. tauto.
      + destruct rest; [exact I|]. cbn in B. apply blank_not in B. tauto.
    - intros y Y. destruct dot as [z|] eqn:Ed; [|apply (H4 y Y eq_refl eq_refl)].
      rewrite (H4' y Y) by discriminate. reflexivity. }
  subst T3. rewrite E3. clear E3.
  assert (N6 : match T6 with String y _ => is_digit y = false /\ in_set "." y = false | _ => True end).
  { subst T6. destruct cl as [cx|]; cbn [opt_str append].
    - destruct Hc as [N A]. destruct cx as [|q cx]; [contradiction|]. cbn in A |- *. apply andb_true_iff in A as [A _]. apply CS in A. tauto.
    - destruct rest; [exact I|]. cbn in B. apply blank_not in B. tauto. }
  (* dot and the digits behind it *)
  assert (E4 : exists R4 R5, opt_char "." R3 = (dot, R4) /\ opt_run is_digit R4 = (v2, R5) /\ skip R5 = skip T6).
  { destruct Hd as [Hd|Hd].
    - assert (Q : T4 = T6) by (unfold T4, T5; rewrite (Hdv Hd), Hd; reflexivity).
      assert (R3 = T6 \/ R3 = skip T6).
      { rewrite <- Q. destruct v; [left; apply X3; discriminate|right; now apply Y3]. }
      assert (M : match R3 with String y _ => is_digit y = false /\ in_set "." y = false | _ => True end).
      { destruct v as [vx|] eqn:Ev.
        - rewrite (X3 ltac:(discriminate)), Q. exact N6.
        - rewrite (Y3 eq_refl). pose proof (fun y Y => H4 y Y eq_refl Hd) as K. unfold hd in K. destruct (skip T4); [exact I|].
          specialize (K _ eq_refl). tauto. }
      exists R3, R3. rewrite Hd, (Hdv Hd). split; [apply opt_char_none; destruct R3; tauto|].
      split; [apply opt_run_none; destruct R3; tauto|]. destruct H as [->| ->]; [reflexivity|apply skip_skip].
    - assert (R3 = T4).
      { destruct v; [apply X3; discriminate|]. rewrite (Y3 eq_refl). subst T4. rewrite Hd. cbn. apply skip_none. reflexivity. }
      subst R3. exists T5, T6. rewrite Hd. subst T4. rewrite Hd. cbn [opt_chr append]. split; [reflexivity|]. split; [|reflexivity].
      subst T5. destruct v2 as [x|]; cbn [opt_str append].
      + destruct Hv2 as [N A]. rewrite opt_run_some; auto. destruct T6; tauto.
      + apply opt_run_none. destruct T6; tauto. }
  destruct E4 as (R4 & R5 & E4 & E5 & S5). rewrite E4, E5. clear E4 E5. rewrite S5. subst T6.
  assert (MM : match match mac with Some _ => Some "#"%char | None => None end with Some _ => Some "#"%string | None => None end = mac).
  { destruct Hm as [->| ->]; reflexivity. }
  rewrite MM.
  (* closing brackets *)
  destruct (stage_run is_close cl rest) as (R6 & E6 & _ & X6 & Y6); [auto|exact close_nb| |].
  { destruct cl as [x|].
    - destruct rest; [exact I|]. cbn in B. apply blank_not in B. tauto.
    - intros y Y. apply (F' y Y eq_refl). }
  unfold is_close in E6. rewrite E6. exists R6. split; [reflexivity|]. destruct cl; [left; apply X6; discriminate|right; now apply Y6].
Qed.

Lemma set_blank cs c : in_set cs c = true -> in_set cs " " = false -> in_set cs "009" = false -> is_blank c = false.
Proof.
  intros H A B. unfold is_blank. apply orb_false_iff. split; apply Z.eqb_neq; intro E.
  - assert (c = " "%char); [|congruence]. unfold code in E. rewrite <- (ascii_nat_embedding c). replace (nat_of_ascii c) with 32%nat by lia. reflexivity.
  - assert (c = "009"%char); [|congruence]. unfold code in E. rewrite <- (ascii_nat_embedding c). replace (nat_of_ascii c) with 9%nat by lia. reflexivity.
Qed.

Lemma in_set_1 x c : in_set (String x "") c = true -> c = x.
Proof.
  unfold in_set. cbn. destruct (ascii_dec c x); [auto|discriminate].
Qed.

(** What the number rules read. *)
Lemma number_tail_spec wo w asg r d rest : number_tail wo w asg r = (d, rest) ->
  d_word d = w /\ d_assign d = asg /\ tail_ok wo d /\ (forall c, hd rest = Some c -> may_follow wo d c) /\
  (String.length rest <= String.length r)%nat /\ (tail_text d = "" -> rest = skip r)%string.
Proof.
  unfold number_tail. intro H.
  destruct (opt_char "-+" (skip r)) as [sg R0] eqn:E0.
  destruct (if wo then opt_run (Ascii.eqb "[") (skip R0) else (None, R0)) as [op R1] eqn:E1.
  destruct (opt_char "#" (skip R1)) as [mac R2] eqn:E2.
  destruct (opt_run is_digit (skip R2)) as [v R3] eqn:E3.
  destruct (opt_char "." R3) as [dot R4] eqn:E4.
  destruct (opt_run is_digit R4) as [v2 R5] eqn:E5.
  destruct (opt_run (Ascii.eqb "]") (skip R5)) as [cl R6] eqn:E6. inv H.
  cbn [d_word d_assign]. split; [reflexivity|]. split; [reflexivity|].
  apply opt_char_spec in E0 as (P0 & Q0). apply opt_char_spec in E2 as (P2 & Q2). apply opt_run_spec in E3 as (P3 & Q3 & N3).
  apply opt_char_spec in E4 as (P4 & Q4). apply opt_run_spec in E5 as (P5 & Q5 & N5). apply opt_run_spec in E6 as (P6 & Q6 & N6).
  assert (X1 : run_of is_open op /\ (wo = false -> op = None) /\ (op = None -> wo = true -> forall c, hd R0 = Some c -> is_open c = false) /\
               (wo = true -> skip R0 = opt_str op ++ R1)%string /\ (wo = false -> R1 = R0)).
  { destruct wo.
    - apply opt_run_spec in E1 as (P1 & Q1 & N1). split; [exact Q1|]. split; [discriminate|]. split; [|split; [auto|discriminate]].
      intros -> _ c C. unfold hd in C. rewrite P1 in C. cbn in C. destruct R1; inv C. exact N1.
    - inv E1. split; [exact I|]. split; [auto|]. split; [discriminate|]. split; [discriminate|auto]. }
  destruct X1 as (Q1 & W1 & N1 & P1 & P1').
  assert (V2 : dot = None -> v2 = None).
  { intros ->. destruct v2 as [x|]; [|reflexivity]. exfalso. cbn in P4. subst R4. rewrite P5 in N3. destruct Q5 as [B A]. destruct x as [|y x]; [contradiction|].
    cbn in N3, A. apply andb_true_iff in A as [A _]. congruence. }
  split.
  { unfold tail_ok. cbn. split; [destruct sg; auto|]. split; [exact Q1|]. split; [exact W1|]. split; [destruct mac; auto|].
    split; [exact Q3|]. split; [|split; [exact Q5|split; [exact V2|exact Q6]]].
    destruct dot as [x|]; [right; now rewrite (in_set_1 _ _ Q4)|auto]. }
  assert (L : (String.length rest <= String.length r)%nat).
  { pose proof (skip_length r) as L0. rewrite P0 in L0. rewrite string_app_length in L0.
    assert (L1 : (String.length R1 <= String.length R0)%nat).
    { destruct wo; [|rewrite P1' by auto; lia]. pose proof (skip_length R0) as L. rewrite P1, string_app_length in L by auto. lia. }
    pose proof (skip_length R1) as L2. rewrite P2, string_app_length in L2. pose proof (skip_length R2) as L3. rewrite P3, string_app_length in L3.
    rewrite P4, string_app_length in L3. rewrite P5, string_app_length in L3. pose proof (skip_length R5) as L5. rewrite P6, string_app_length in L5. lia. }
  (* where nothing was read the position only moves over blanks *)
  assert (Z5 : cl = None -> rest = skip R5) by (intros ->; cbn in P6; congruence).
  assert (Z3 : dot = None -> R5 = R3).
  { intro D. rewrite D in *. rewrite (V2 eq_refl) in *. cbn in P4, P5. congruence. }
  assert (Z2 : v = None -> R3 = skip R2) by (intros ->; cbn in P3; congruence).
  assert (Z1 : mac = None -> R2 = skip R1) by (intros ->; cbn in P2; congruence).
  assert (Z0 : op = None -> skip R1 = skip R0).
  { intros ->. destruct wo; [|now rewrite P1']. specialize (P1 eq_refl). cbn in P1. rewrite <- P1. apply skip_skip. }
  assert (Z : sg = None -> skip R0 = skip r).
  { intros ->. cbn in P0. rewrite <- P0. apply skip_skip. }
  split.
  { intros c C. unfold may_follow. cbn. intros Ecl. specialize (Z5 Ecl). split.
    { subst cl. unfold hd in C. destruct (skip_spec rest) as (b & E & A & _). rewrite Z5, skip_skip in C. rewrite P6 in C. cbn in C.
      rewrite <- Z5 in *. destruct rest; inv C. exact N6. }
    intros Ev Ed. specialize (Z3 Ed). specialize (Z2 Ev).
    assert (C3 : exists y, R3 = String c y).
    { unfold hd in C. rewrite Z5, skip_skip, Z3, Z2, skip_skip in C. rewrite Z2. destruct (skip R2); inv C. eauto. }
    destruct C3 as (y & C3). split; [rewrite C3 in N3; exact N3|]. split.
    { subst dot. cbn in P4. subst R4. rewrite C3 in Q4. exact Q4. }
    intro Em. assert (Em' : mac = None) by (destruct mac; [discriminate|reflexivity]). clear Em. specialize (Z1 Em').
    assert (C1 : exists y, skip R1 = String c y).
    { rewrite Z2, Z1, skip_skip in C3. eauto. }
    destruct C1 as (y1 & C1). split.
    { subst mac. cbn in P2. rewrite <- P2, C1 in Q2. exact Q2. }
    intro Eo. specialize (Z0 Eo). split.
    { intro W. apply (N1 Eo W c). unfold hd. now rewrite <- Z0, C1. }
    intro Es. specialize (Z Es). subst sg. cbn in P0. rewrite <- P0, <- Z, <- Z0, C1 in Q0. exact Q0. }
  split; [exact L|].
  unfold tail_text. cbn. intro T.
  assert (AE : forall a b, (a ++ b = "")%string -> a = ""%string /\ b = ""%string) by (intros [|? a] b; cbn; intro H; [auto|discriminate]).
  apply AE in T as [T0 T]. apply AE in T as [T1 T]. apply AE in T as [T2 T]. apply AE in T as [T3 T]. apply AE in T as [T4 T]. apply AE in T as [T5 T6].
  assert (sg = None) by (destruct sg; [discriminate|auto]). assert (op = None) by (destruct op as [x|]; [cbn in T1; subst; cbn in Q1; tauto|auto]).
  assert (mac = None) by (destruct mac; [discriminate|auto]). assert (v = None) by (destruct v as [x|]; [cbn in T3; subst; cbn in Q3; tauto|auto]).
  assert (dot = None) by (destruct dot; [discriminate|auto]). assert (cl = None) by (destruct cl as [x|]; [cbn in T6; subst; cbn in Q6; tauto|auto]).
  rewrite Z5, Z3, Z2, Z1 by auto. rewrite !skip_skip. rewrite Z0, Z by auto. reflexivity.
Qed.
