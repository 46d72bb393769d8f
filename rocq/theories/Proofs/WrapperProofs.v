(** The C interface: contents of the memory handed out, and giving it back. *)
From Verif Require Import Model.Base Model.Attr Model.Double Model.Macro Model.Verifiers Model.Grammar.
From Verif Require Import Model.PathCalc Model.Parser Model.Wrapper.
From Verif Require Import Spec.WrapperSpec Proofs.Tactics Proofs.StringFacts.

Local Open Scope list_scope.

(** ** Memory *)

Lemma release_mid h1 c h2 : release (List.length h1) (h1 ++ Some c :: h2) = Some (c, h1 ++ None :: h2).
Proof.
  induction h1 as [|x h1 IH]; [reflexivity|]. cbn [List.length app release].
  destruct x; rewrite IH; reflexivity.
Qed.

Lemma delete_if_mid n h1 c h2 : n = List.length h1 -> delete_if (PAt n) (h1 ++ Some c :: h2) = Ok (h1 ++ None :: h2).
Proof. intros ->. unfold delete_if, delete. rewrite release_mid. reflexivity. Qed.

Lemma load_mid n h1 c h2 : n = List.length h1 -> load (PAt n) (h1 ++ Some c :: h2) = Ok c.
Proof. intros ->. unfold load. rewrite nth_error_app2 by lia. rewrite Nat.sub_diag. reflexivity. Qed.

Lemma at_mid n h1 c h2 : n = List.length h1 -> at_cell (h1 ++ Some c :: h2) (PAt n) c.
Proof. intros ->. exists (List.length h1). split; [reflexivity|]. rewrite nth_error_app2 by lia. rewrite Nat.sub_diag. reflexivity. Qed.

(** ** Words *)

Definition word_cells (a : attr) : heap :=
  [Some (CChars (terminated (attr_word a))); Some (CChars (terminated (value_text a)))].

Definition words_cells (b : block) : heap := flat_map word_cells b.

Fixpoint word_ptrs (n : nat) (b : block) : list (ptr * ptr) :=
  match b with
  | [] => []
  | _ :: b' => (PAt n, PAt (S n)) :: word_ptrs (S (S n)) b'
  end.

Lemma word_ptrs_length b : forall n, List.length (word_ptrs n b) = List.length b.
Proof. induction b as [|a b IH]; intros n; cbn; [reflexivity|]. now rewrite IH. Qed.

Lemma new_words_eq b : forall h, new_words b h = (word_ptrs (List.length h) b, h ++ words_cells b).
Proof.
  induction b as [|a b IH]; intros h; cbn [new_words].
  - now rewrite app_nil_r.
  - unfold new_word, new. rewrite IH. rewrite !app_length. cbn [List.length word_ptrs words_cells flat_map].
    replace (List.length h + 1 + 1)%nat with (S (S (List.length h))) by lia.
    replace (List.length h + 1)%nat with (S (List.length h)) by lia. rewrite <- !app_assoc. reflexivity.
Qed.

Lemma words_cells_length b : List.length (words_cells b) = (2 * List.length b)%nat.
Proof. induction b as [|a b IH]; cbn; [reflexivity|]. fold (words_cells b). rewrite IH. lia. Qed.

Lemma repeat_snoc2 {A} (x : A) k r : repeat x k ++ x :: r = x :: repeat x k ++ r.
Proof. induction k as [|k IH]; cbn; [reflexivity|]. now rewrite IH. Qed.

Lemma delete_words_eq b : forall h t,
  delete_words (word_ptrs (List.length h) b) (h ++ words_cells b ++ t) = Ok (h ++ repeat None (2 * List.length b) ++ t).
Proof.
  induction b as [|a b IH]; intros h t; [reflexivity|].
  cbn [word_ptrs delete_words words_cells flat_map word_cells app].
  rewrite delete_if_mid by reflexivity. cbn [bind].
  replace (h ++ None :: Some (CChars (terminated (value_text a))) :: flat_map word_cells b ++ t)
    with ((h ++ [None]) ++ Some (CChars (terminated (value_text a))) :: flat_map word_cells b ++ t) by now rewrite <- app_assoc.
  rewrite delete_if_mid by (rewrite app_length; cbn; lia). cbn [bind].
  specialize (IH (h ++ [None; None]) t). rewrite app_length in IH. cbn [List.length] in IH.
  replace (List.length h + 2)%nat with (S (S (List.length h))) in IH by lia.
  unfold words_cells in IH. rewrite <- !app_assoc in IH. rewrite <- !app_assoc. cbn [app] in *. rewrite IH.
  replace (2 * List.length (a :: b))%nat with (S (S (2 * List.length b))) by (cbn; lia). cbn. reflexivity.
Qed.

(** ** Reading *)

Lemma before_terminated s : before_zero (terminated s) (fst (span (fun c => negb (Ascii.eqb c zero)) s)).
Proof.
  unfold terminated. induction s as [|c s IH]; cbn; [constructor|].
  destruct (Ascii.eqb_spec c zero) as [->|N]; cbn; [constructor|].
  destruct (span _ s) as [a b]. cbn in *. constructor; assumption.
Qed.

Lemma span_all p s : all_chars p s = true -> span p s = (s, EmptyString).
Proof. induction s as [|c s IH]; cbn; [reflexivity|]. destruct (p c); [|discriminate]. intros H. now rewrite (IH H). Qed.

Lemma terminated_reads s : zero_free s -> before_zero (terminated s) s.
Proof. intros Z. pose proof (before_terminated s) as B. rewrite (span_all _ _ Z) in B. exact B. Qed.

Lemma concat_empty l : String.concat "" l = fold_right append ""%string l.
Proof.
  induction l as [|x l IH]; [reflexivity|]. cbn. destruct l as [|y l]; [now rewrite string_app_nil|]. cbn in *. rewrite IH. reflexivity.
Qed.

Lemma shown_word a : fst (shown a) = attr_word a.
Proof. destruct a as [d|w v|w c]; [reflexivity| |reflexivity]. unfold shown. destruct w as [|c w]; [reflexivity|]. destruct c as [[] [] [] [] [] [] [] []], w; reflexivity. Qed.

Lemma shown_value a : (exists w, a = AChr w zero) /\ snd (shown a) = ""%string /\ value_text a = String zero "" \/ snd (shown a) = value_text a.
Proof.
  destruct a as [d|w v|w c].
  - right. cbn -[String.concat]. rewrite concat_empty. cbn. now rewrite string_app_nil.
  - right. cbn [value_text]. destruct (String.eqb_spec w "(") as [->|N]; [reflexivity|].
    rewrite string_app_nil. destruct w as [|c w]; [reflexivity|].
    destruct c as [[] [] [] [] [] [] [] []], w; try reflexivity. contradiction.
  - cbn. destruct (Ascii.eqb_spec c zero) as [->|N]; [left; eauto|right; reflexivity].
Qed.

Lemma value_reads a : zero_free (snd (shown a)) -> before_zero (terminated (value_text a)) (snd (shown a)).
Proof.
  intros Z. destruct (shown_value a) as [(_ & E & V)|E].
  - rewrite E, V. constructor.
  - rewrite <- E. now apply terminated_reads.
Qed.

Lemma words_read b : forall h t, Forall word_zero_free b ->
  Forall2 (word_at (h ++ words_cells b ++ t)) (word_ptrs (List.length h) b) (map shown b).
Proof.
  induction b as [|a b IH]; intros h t F; cbn; [constructor|]. inv F. destruct H1 as [Zw Zv]. constructor.
  - split; cbn.
    + exists (terminated (attr_word a)). split; [now apply at_mid|]. rewrite shown_word in *. now apply terminated_reads.
    + exists (terminated (value_text a)). split; [|now apply value_reads].
      change (h ++ Some (CChars (terminated (attr_word a))) :: Some (CChars (terminated (value_text a))) :: flat_map word_cells b ++ t)
        with (h ++ [Some (CChars (terminated (attr_word a)))] ++ Some (CChars (terminated (value_text a))) :: flat_map word_cells b ++ t).
      rewrite app_assoc. apply at_mid. rewrite app_length. cbn. lia.
  - specialize (IH (h ++ word_cells a) t H2). rewrite app_length in IH. cbn [List.length word_cells] in IH.
    replace (List.length h + 2)%nat with (S (S (List.length h))) in IH by lia. rewrite <- app_assoc in IH. exact IH.
Qed.

(** ** Messages *)

Definition message_cells (msg : string) : heap := match msg with EmptyString => [] | _ => [Some (CChars (terminated msg))] end.

Lemma fill_message_eq msg m h :
  fill_message msg m h = (match msg with EmptyString => m | _ => PAt (List.length h) end, h ++ message_cells msg).
Proof. destruct msg; cbn; [now rewrite app_nil_r|reflexivity]. Qed.

(** ** One block *)

Definition block_cells (v : block) : heap :=
  match v with [] => [] | _ => words_cells v ++ [Some (CWords (word_ptrs 0 v))] end.

Lemma fill_parsed_eq msg v o h :
  fill_parsed msg v o h =
  let h1 := match v with
            | [] => h
            | _ => h ++ words_cells v ++ [Some (CWords (word_ptrs (List.length h) v))]
            end in
  (mkOuts (match v with [] => o_value o | _ => PAt (List.length h + 2 * List.length v) end)
          (match v with [] => o_length o | _ => Z.of_nat (List.length v) end)
          (match msg with EmptyString => o_message o | _ => PAt (List.length h1) end), h1 ++ message_cells msg).
Proof.
  unfold fill_parsed. destruct v as [|a v].
  - rewrite fill_message_eq. reflexivity.
  - rewrite new_words_eq. unfold new. rewrite fill_message_eq. cbv zeta. rewrite <- !app_assoc.
    rewrite app_length, words_cells_length. reflexivity.
Qed.

Lemma firstn_all_ok {A} n (l : list A) : n = Z.of_nat (List.length l) -> first_n n l = Ok l.
Proof.
  intros ->. unfold first_n. rewrite Z.leb_refl, Nat2Z.id. now rewrite firstn_all.
Qed.

Lemma dispose_words_eq v h t : v <> [] ->
  dispose_words (PAt (List.length h + 2 * List.length v)) (Z.of_nat (List.length v))
    (h ++ words_cells v ++ Some (CWords (word_ptrs (List.length h) v)) :: t)
  = Ok (h ++ repeat None (S (2 * List.length v)) ++ t).
Proof.
  intros N. unfold dispose_words.
  rewrite (app_assoc h). rewrite load_mid by (rewrite app_length, words_cells_length; lia). cbn [bind as_words].
  rewrite firstn_all_ok by now rewrite word_ptrs_length. cbn [bind].
  rewrite <- app_assoc. rewrite delete_words_eq. cbn [bind].
  rewrite app_assoc. rewrite delete_if_mid by (rewrite app_length, repeat_length; lia).
  rewrite <- app_assoc. rewrite repeat_snoc2. reflexivity.
Qed.

Lemma repeat_app2 {A} (x : A) a b : repeat x a ++ repeat x b = repeat x (a + b).
Proof. now rewrite repeat_app. Qed.

Lemma dispose_message msg m h t : (msg = ""%string -> m = PNull) ->
  dispose_chars (match msg with EmptyString => m | _ => PAt (List.length h) end) (h ++ message_cells msg ++ t)
  = Ok (h ++ repeat None (List.length (message_cells msg)) ++ t).
Proof.
  intros E. destruct msg as [|c msg]; cbn [message_cells app repeat List.length].
  - rewrite (E eq_refl). reflexivity.
  - unfold dispose_chars. now rewrite delete_if_mid.
Qed.

(** Contents of one exported block, and releasing it. *)
Lemma block_exported msg v o h o' h' : fill_parsed msg v o h = (o', h') ->
  extends h h' /\
  (v = [] -> o_value o' = o_value o /\ o_length o' = o_length o) /\
  (v <> [] -> o_length o' = Z.of_nat (List.length v) /\
     exists ws, at_cell h' (o_value o') (CWords ws) /\ List.length ws = List.length v /\
       (Forall word_zero_free v -> Forall2 (word_at h') ws (map shown v))) /\
  (msg = ""%string -> o_message o' = o_message o) /\
  (msg <> ""%string -> zero_free msg -> text_at h' (o_message o') msg).
Proof.
  rewrite fill_parsed_eq. cbv zeta. intros E. injection E as <- <-. cbn [o_value o_length o_message]. split; [|split; [|split; [|split]]].
  - destruct v; [exists (message_cells msg); reflexivity|]. eexists. rewrite <- app_assoc. reflexivity.
  - intros ->. split; reflexivity.
  - intros N. destruct v as [|a v]; [contradiction|]. split; [reflexivity|].
    exists (word_ptrs (List.length h) (a :: v)). split; [|split; [now rewrite word_ptrs_length|]].
    + rewrite <- !app_assoc. rewrite (app_assoc h). apply at_mid. rewrite app_length, words_cells_length. lia.
    + intros F. rewrite <- !app_assoc. now apply words_read.
  - intros ->. reflexivity.
  - intros N Z. destruct msg as [|c msg]; [contradiction|].
    exists (terminated (String c msg)). split; [now apply at_mid|]. now apply terminated_reads.
Qed.

Lemma block_released msg v h o' h' : fill_parsed msg v (mkOuts PNull 0 PNull) h = (o', h') ->
  exists h1 h2, dispose_words (o_value o') (o_length o') h' = Ok h1 /\ dispose_chars (o_message o') h1 = Ok h2 /\ all_released h h2.
Proof.
  rewrite fill_parsed_eq. cbv zeta. intros E. injection E as <- <-. cbn [o_value o_length o_message].
  destruct v as [|a v].
  - exists (h ++ message_cells msg). eexists. split; [reflexivity|].
    pose proof (dispose_message msg PNull h [] (fun _ => eq_refl)) as D. rewrite !app_nil_r in D. rewrite D.
    split; [reflexivity|]. exists (List.length (message_cells msg)). reflexivity.
  - rewrite <- !app_assoc. cbn [app]. change (List.length (a :: v) + (List.length (a :: v) + 0))%nat with (2 * List.length (a :: v))%nat. rewrite dispose_words_eq by discriminate. do 2 eexists. split; [reflexivity|].
    pose proof (dispose_message msg PNull (h ++ repeat None (S (2 * List.length (a :: v)))) [] (fun _ => eq_refl)) as D.
    rewrite !app_nil_r in D. rewrite <- !app_assoc in D.
    match type of D with dispose_chars ?p _ = _ => match goal with |- dispose_chars ?q _ = _ /\ _ => replace q with p end end.
    + rewrite D. split; [reflexivity|]. eexists. rewrite repeat_app2. reflexivity.
    + destruct msg; [reflexivity|]. f_equal. rewrite !app_length, words_cells_length, repeat_length. cbn [List.length]. lia.
Qed.

(** ** Split files *)

Lemma parts_concat {A} (parts : list (list A)) : parts_of (map (fun x => Z.of_nat (List.length x)) parts) (List.concat parts) parts.
Proof. induction parts as [|x parts IH]; cbn; [reflexivity|]. split; [reflexivity|]. eexists. split; [reflexivity|exact IH]. Qed.

Lemma parts_map {A B} (f : A -> B) (parts : list (list A)) : forall (l : list B),
  l = map f (List.concat parts) -> parts_of (map (fun x => Z.of_nat (List.length x)) parts) l (map (map f) parts).
Proof.
  induction parts as [|x parts IH]; intros l ->; cbn; [reflexivity|]. rewrite map_length. split; [reflexivity|].
  rewrite map_app. eexists. split; [reflexivity|]. now apply IH.
Qed.

(** Cutting is a function. *)
Lemma parts_unique {A} ns : forall (l : list A) p q, parts_of ns l p -> parts_of ns l q -> p = q.
Proof.
  induction ns as [|n ns IH]; intros l p q P Q; destruct p as [|x p], q as [|y q]; cbn in P, Q; try contradiction; [reflexivity|].
  destruct P as (L1 & l1 & E1 & P), Q as (L2 & l2 & E2 & Q). subst l.
  assert (x = y /\ l1 = l2) as [-> ->].
  { assert (L : List.length x = List.length y) by lia. clear -E2 L. revert y E2 L.
    induction x as [|a x IH]; intros [|b y] E L; try discriminate; [auto|]. cbn in E. injection E as <- E. cbn in L. injection L as L.
    destruct (IH y E L). subst. auto. }
  f_equal. eapply IH; eassumption.
Qed.

Lemma forall2_length {A B} (R : A -> B -> Prop) l1 l2 : Forall2 R l1 l2 -> List.length l1 = List.length l2.
Proof. induction 1; cbn; congruence. Qed.

(** Cut lists of related elements. *)
Lemma forall2_parts {A B} (R : A -> B -> Prop) : forall (ys : list (list B)) (l : list A),
  Forall2 R l (List.concat ys) ->
  exists xs, parts_of (map (fun x => Z.of_nat (List.length x)) ys) l xs /\ Forall2 (Forall2 R) xs ys.
Proof.
  induction ys as [|y ys IH]; intros l F; cbn in F.
  - inv F. exists []. split; [reflexivity|constructor].
  - apply Forall2_app_inv_r in F. destruct F as (l1 & l2 & F1 & F2 & ->).
    destruct (IH _ F2) as (xs & P & G). exists (l1 :: xs). split; [|now constructor].
    cbn. split; [f_equal; exact (forall2_length _ _ _ F1)|]. eexists. split; [reflexivity|exact P].
Qed.

Definition split_cells (pieces : list (list block)) (n : nat) : heap :=
  words_cells (List.concat (List.concat pieces)) ++
  [Some (CWords (word_ptrs n (List.concat (List.concat pieces)))); Some (CInts (sizes pieces)); Some (CInts (sizes (List.concat pieces)))].

Lemma export_split_eq pieces msg o h :
  export_split pieces msg o h =
  let k := (List.length h + 2 * List.length (List.concat (List.concat pieces)))%nat in
  (mkSO (PAt k) (PAt (k + 2)) (PAt (k + 1)) (Z.of_nat (List.length pieces))
        (match msg with EmptyString => so_message o | _ => PAt (k + 3) end),
   h ++ split_cells pieces (List.length h) ++ message_cells msg).
Proof.
  unfold export_split. rewrite new_words_eq. unfold new. rewrite fill_message_eq. cbv zeta. unfold split_cells.
  rewrite !app_length, words_cells_length. cbn [List.length].
  replace (List.length h + 2 * List.length (List.concat (List.concat pieces)) + 1 + 1 + 1)%nat
    with (List.length h + 2 * List.length (List.concat (List.concat pieces)) + 3)%nat by lia.
  replace (List.length h + 2 * List.length (List.concat (List.concat pieces)) + 1 + 1)%nat
    with (List.length h + 2 * List.length (List.concat (List.concat pieces)) + 2)%nat by lia.
  rewrite <- !app_assoc. cbn [app]. destruct msg; reflexivity.
Qed.

Lemma map_concat_shown (pieces : list (list block)) :
  List.concat (List.concat (map (map (map shown)) pieces)) = map shown (List.concat (List.concat pieces)).
Proof. rewrite !concat_map. reflexivity. Qed.

Lemma sizes_map {A} (l : list (list A)) : sizes l = map Some (map (fun x => Z.of_nat (List.length x)) l).
Proof. unfold sizes. now rewrite map_map. Qed.

Lemma split_exported pieces msg o h o' h' : export_split pieces msg o h = (o', h') ->
  extends h h' /\ so_length o' = Z.of_nat (List.length pieces) /\
  (exists ns ms ws,
     at_cell h' (so_piece_lengths o') (CInts (map Some ns)) /\ at_cell h' (so_block_lengths o') (CInts (map Some ms)) /\
     at_cell h' (so_value o') (CWords ws) /\
     ns = map (fun p => Z.of_nat (List.length p)) pieces /\
     (Forall (Forall (Forall word_zero_free)) pieces ->
      exists blocks nested, parts_of ms ws blocks /\ parts_of ns blocks nested /\
        Forall2 (Forall2 (Forall2 (word_at h'))) nested (map (map (map shown)) pieces))) /\
  (msg = ""%string -> so_message o' = so_message o) /\
  (msg <> ""%string -> zero_free msg -> text_at h' (so_message o') msg).
Proof.
  rewrite export_split_eq. cbv zeta. intros E. injection E as <- <-. cbn [so_length so_piece_lengths so_block_lengths so_value so_message].
  set (b := List.concat (List.concat pieces)). set (k := (List.length h + 2 * List.length b)%nat).
  assert (K : List.length (h ++ words_cells b) = k) by (rewrite app_length, words_cells_length; reflexivity).
  split; [eexists; reflexivity|]. split; [reflexivity|]. split; [|split].
  - exists (map (fun x => Z.of_nat (List.length x)) pieces), (map (fun x => Z.of_nat (List.length x)) (List.concat pieces)), (word_ptrs (List.length h) b).
    unfold split_cells. fold b. rewrite <- !sizes_map. rewrite <- !app_assoc. split; [|split; [|split; [|split]]].
    + rewrite app_assoc. cbn [app].
      change (Some (CWords (word_ptrs (List.length h) b)) :: Some (CInts (sizes pieces)) :: Some (CInts (sizes (List.concat pieces))) :: message_cells msg)
        with ([Some (CWords (word_ptrs (List.length h) b))] ++ Some (CInts (sizes pieces)) :: Some (CInts (sizes (List.concat pieces))) :: message_cells msg).
      rewrite app_assoc. apply at_mid. rewrite app_length, K. reflexivity.
    + rewrite app_assoc. cbn [app].
      change (Some (CWords (word_ptrs (List.length h) b)) :: Some (CInts (sizes pieces)) :: Some (CInts (sizes (List.concat pieces))) :: message_cells msg)
        with ([Some (CWords (word_ptrs (List.length h) b)); Some (CInts (sizes pieces))] ++ Some (CInts (sizes (List.concat pieces))) :: message_cells msg).
      rewrite app_assoc. apply at_mid. rewrite app_length, K. reflexivity.
    + rewrite app_assoc. cbn [app]. apply at_mid. symmetry. exact K.
    + reflexivity.
    + intros F.
      assert (Fb : Forall word_zero_free b).
      { unfold b. clear -F. induction F as [|p ps Hp Hps IH]; cbn; [constructor|]. rewrite concat_app. apply Forall_app. split; [|exact IH].
        clear -Hp. induction Hp as [|x xs Hx Hxs IH]; cbn; [constructor|]. apply Forall_app. now split. }
      set (h' := h ++ _). assert (W : Forall2 (word_at h') (word_ptrs (List.length h) b) (map shown b)) by (apply words_read; exact Fb).
      unfold b in W at 2. rewrite <- map_concat_shown in W.
      destruct (forall2_parts _ _ _ W) as (blocks & P1 & G1).
      destruct (forall2_parts _ _ _ G1) as (nested & P2 & G2).
      exists blocks, nested. split; [|split; [|exact G2]].
      * replace (map (fun x : list attr => Z.of_nat (List.length x)) (List.concat pieces))
          with (map (fun x : list (string * string) => Z.of_nat (List.length x)) (List.concat (map (map (map shown)) pieces))); [exact P1|].
        rewrite <- concat_map, map_map. apply map_ext. intros x. now rewrite map_length.
      * replace (map (fun x : list block => Z.of_nat (List.length x)) pieces)
          with (map (fun x : list (list (string * string)) => Z.of_nat (List.length x)) (map (map (map shown)) pieces)); [exact P2|].
        rewrite map_map. apply map_ext. intros x. now rewrite map_length.
  - intros ->. reflexivity.
  - intros N Z. destruct msg as [|c msg]; [contradiction|]. exists (terminated (String c msg)). split; [|now apply terminated_reads].
    rewrite app_assoc. apply at_mid. rewrite app_length. unfold split_cells. fold b. rewrite app_length, words_cells_length. cbn [List.length]. unfold k. lia.
Qed.

Lemma all_set_some {A} (l : list A) : all_set (map Some l) = Ok l.
Proof. induction l as [|x l IH]; cbn; [reflexivity|]. now rewrite IH. Qed.

Lemma as_ints_all n l : n = Z.of_nat (List.length l) -> as_ints n (CInts (map Some l)) = Ok l.
Proof. intros E. unfold as_ints. rewrite firstn_all_ok by (rewrite map_length; exact E). cbn [bind]. apply all_set_some. Qed.

Lemma sum_sizes {A} (l : list (list A)) : sum (map (fun x => Z.of_nat (List.length x)) l) = Z.of_nat (List.length (List.concat l)).
Proof. induction l as [|x l IH]; cbn -[Z.max Z.of_nat]; [reflexivity|]. fold (sum (map (fun x => Z.of_nat (List.length x)) l)). rewrite IH, app_length. lia. Qed.

Lemma split_released pieces msg h o' h' : export_split pieces msg (mkSO PNull PNull PNull 0 PNull) h = (o', h') ->
  exists h1 h2, dispose_split (so_value o') (so_block_lengths o') (so_piece_lengths o') (so_length o') h' = Ok h1 /\
    dispose_chars (so_message o') h1 = Ok h2 /\ all_released h h2.
Proof.
  rewrite export_split_eq. cbv zeta. intros E. injection E as <- <-. cbn [so_length so_piece_lengths so_block_lengths so_value so_message].
  set (b := List.concat (List.concat pieces)). set (k := (List.length h + 2 * List.length b)%nat).
  assert (K : List.length (h ++ words_cells b) = k) by (rewrite app_length, words_cells_length; reflexivity).
  unfold split_cells. fold b. rewrite !sizes_map.
  set (ns := map (fun x : list block => Z.of_nat (List.length x)) pieces). set (ms := map (fun x : list attr => Z.of_nat (List.length x)) (List.concat pieces)).
  unfold dispose_split.
  assert (S3 : forall (x y z : option cell) g t, g ++ [x; y; z] ++ t = (g ++ [x; y]) ++ z :: t) by (intros; now rewrite <- app_assoc).
  assert (S2 : forall (x y z : option cell) g t, g ++ [x; y; z] ++ t = (g ++ [x]) ++ y :: z :: t) by (intros; now rewrite <- app_assoc).
  rewrite <- !app_assoc. rewrite (app_assoc h).
  rewrite S2. rewrite load_mid by (rewrite app_length, K; cbn; lia). cbn [bind].
  rewrite as_ints_all by (unfold ns; now rewrite map_length). cbn [bind]. rewrite <- S2.
  rewrite S3. rewrite load_mid by (rewrite app_length, K; cbn; lia). cbn [bind].
  rewrite as_ints_all by (unfold ns, ms; rewrite map_length; apply sum_sizes). cbn [bind]. rewrite <- S3. cbn [app].
  rewrite load_mid by (symmetry; exact K). cbn [bind as_words].
  rewrite firstn_all_ok by (unfold ms; rewrite sum_sizes, word_ptrs_length; reflexivity). cbn [bind].
  rewrite <- app_assoc. rewrite delete_words_eq. cbn [bind]. rewrite app_assoc.
  assert (K2 : List.length (h ++ repeat None (2 * List.length b)) = k) by (rewrite app_length, repeat_length; reflexivity).
  rewrite delete_if_mid by (symmetry; exact K2). cbn [bind].
  set (g := h ++ repeat None (2 * List.length b)) in *.
  replace (g ++ None :: Some (CInts (map Some ns)) :: Some (CInts (map Some ms)) :: message_cells msg)
    with ((g ++ [None; Some (CInts (map Some ns))]) ++ Some (CInts (map Some ms)) :: message_cells msg) by now rewrite <- app_assoc.
  rewrite delete_if_mid by (rewrite app_length, K2; cbn; lia). cbn [bind].
  replace ((g ++ [None; Some (CInts (map Some ns))]) ++ None :: message_cells msg)
    with ((g ++ [None]) ++ Some (CInts (map Some ns)) :: None :: message_cells msg) by now rewrite <- !app_assoc.
  rewrite delete_if_mid by (rewrite app_length, K2; cbn; lia).
  do 2 eexists. split; [reflexivity|].
  replace ((g ++ [None]) ++ None :: None :: message_cells msg) with ((h ++ repeat None (2 * List.length b + 3)) ++ message_cells msg).
  2: { unfold g. rewrite <- !app_assoc. cbn [app]. rewrite repeat_app. cbn [repeat]. rewrite <- !app_assoc. reflexivity. }
  pose proof (dispose_message msg PNull (h ++ repeat None (2 * List.length b + 3)) [] (fun _ => eq_refl)) as D.
  rewrite !app_nil_r in D.
  match type of D with dispose_chars ?p _ = _ => match goal with |- dispose_chars ?q _ = _ /\ _ => replace q with p end end.
  - rewrite D. split; [reflexivity|]. eexists. rewrite <- app_assoc, repeat_app2. reflexivity.
  - destruct msg; [reflexivity|]. f_equal. rewrite app_length, repeat_length. unfold k. lia.
Qed.
