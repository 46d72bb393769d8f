(** The .NET side: results and memory. *)
From Verif Require Import Model.Base Model.Attr Model.Double Model.Macro Model.Verifiers Model.Grammar.
From Verif Require Import Model.PathCalc Model.Parser Model.Wrapper Model.Net.
From Verif Require Import Spec.WrapperSpec Spec.NetSpec Spec.VerifierSpec Proofs.Tactics Proofs.StringFacts Proofs.MacroProofs Proofs.WrapperProofs Proofs.WrapperTables.
From Coq Require Import Sorting.Sorted.

Local Open Scope string_scope.
Local Open Scope list_scope.
Local Open Scope Z_scope.

(** ** Texts *)

Lemma c_text_terminated s : c_text (terminated s) = Ok (upto_zero s).
Proof.
  unfold terminated. induction s as [|c s IH]; [reflexivity|]. cbn [append c_text upto_zero]. change (Ascii.eqb c zero) with (Ascii.eqb c "000"%char).
  destruct (Ascii.eqb c "000"); [reflexivity|]. now rewrite IH.
Qed.

Lemma read_text_mid n h s t : n = List.length h -> read_text (PAt n) (h ++ Some (CChars (terminated s)) :: t) = Ok (upto_zero s).
Proof. intros E. unfold read_text. rewrite load_mid by exact E. cbn [bind]. apply c_text_terminated. Qed.

Lemma upto_value a : upto_zero (value_text a) = upto_zero (snd (shown a)).
Proof.
  destruct (shown_value a) as [(c & E & V)|E]; [|now rewrite E]. rewrite E, V. reflexivity.
Qed.

Lemma upto_free s : zero_free s -> upto_zero s = s.
Proof.
  unfold zero_free. induction s as [|c s IH]; [reflexivity|]. cbn [all_chars upto_zero]. change (Ascii.eqb c zero) with (Ascii.eqb c "000"%char).
  destruct (Ascii.eqb c "000"); [discriminate|]. cbn. intros Z. now rewrite IH.
Qed.

Lemma net_message_eq msg h t :
  net_message (match msg with EmptyString => PNull | _ => PAt (List.length h) end) (h ++ message_cells msg ++ t)
  = Ok (upto_zero msg, h ++ repeat None (List.length (message_cells msg)) ++ t).
Proof.
  destruct msg as [|c msg]; [reflexivity|]. unfold net_message. cbn [message_cells app List.length repeat].
  rewrite read_text_mid by reflexivity. cbn [bind]. unfold dispose_chars. rewrite delete_if_mid by reflexivity. reflexivity.
Qed.

(** ** Words *)

Lemma read_all_words b : forall h t,
  read_all read_word (word_ptrs (List.length h) b) (h ++ words_cells b ++ t) = Ok (map seen b).
Proof.
  induction b as [|a b IH]; intros h t; [reflexivity|].
  cbn [word_ptrs read_all words_cells flat_map word_cells app map]. unfold read_word at 1. cbn [fst snd].
  rewrite read_text_mid by reflexivity. cbn [bind].
  replace (h ++ Some (CChars (terminated (attr_word a))) :: Some (CChars (terminated (value_text a))) :: flat_map word_cells b ++ t)
    with ((h ++ [Some (CChars (terminated (attr_word a)))]) ++ Some (CChars (terminated (value_text a))) :: flat_map word_cells b ++ t)
    by now rewrite <- app_assoc.
  rewrite read_text_mid by (rewrite app_length; cbn; lia). cbn [bind].
  specialize (IH (h ++ word_cells a) t). rewrite app_length in IH. cbn [List.length word_cells] in IH.
  replace (List.length h + 2)%nat with (S (S (List.length h))) in IH by lia. rewrite <- app_assoc in IH. cbn [app] in IH.
  rewrite <- app_assoc. cbn [app]. unfold words_cells, word_cells at 1 in IH. cbn [app] in IH. rewrite IH. cbn [bind]. unfold seen. rewrite upto_value.
  replace (fst (shown a)) with (attr_word a); [reflexivity|]. now rewrite shown_word.
Qed.

Lemma read_words_eq b h t n : b <> [] -> n = Z.of_nat (List.length b) ->
  read_words (PAt (List.length h + 2 * List.length b)) n (h ++ words_cells b ++ Some (CWords (word_ptrs (List.length h) b)) :: t)
  = Ok (map seen b).
Proof.
  intros N ->. unfold read_words. rewrite (app_assoc h). rewrite load_mid by (rewrite app_length, words_cells_length; lia).
  cbn [bind as_words]. rewrite firstn_all_ok by now rewrite word_ptrs_length. cbn [bind]. rewrite <- app_assoc. apply read_all_words.
Qed.

Lemma take_words_eq msg v h o h1 : fill_parsed msg v (mkOuts PNull 0 PNull) h = (o, h1) ->
  exists h2, take_words o h1 = Ok (map seen v, upto_zero msg, h2) /\ all_released h h2.
Proof.
  rewrite fill_parsed_eq. cbv zeta. intros E. injection E as <- <-. unfold take_words. cbn [o_value o_length o_message].
  destruct v as [|a v].
  - pose proof (net_message_eq msg h []) as M. rewrite !app_nil_r in M. rewrite M. cbn [bind].
    eexists. split; [reflexivity|]. eexists. reflexivity.
  - set (b := a :: v).
    assert (NB : b <> []) by discriminate.
    set (g := h ++ words_cells b ++ [Some (CWords (word_ptrs (List.length h) b))]).
    pose proof (net_message_eq msg g []) as M. rewrite !app_nil_r in M. rewrite M. cbn [bind].
    replace (Z.of_nat (List.length b) =? 0) with false by (symmetry; apply Z.eqb_neq; unfold b; cbn [List.length]; lia).
    unfold g. rewrite <- !app_assoc. cbn [app].
    change (List.length b + (List.length b + 0))%nat with (2 * List.length b)%nat.
    rewrite read_words_eq by (auto; reflexivity). cbn [bind]. rewrite dispose_words_eq by exact NB. cbn [bind].
    eexists. split; [reflexivity|]. eexists. rewrite repeat_app2. reflexivity.
Qed.

Lemma net_words_eq text junk op p h p' v r m : op p = (p', v, Answer r m) ->
  exists h', net_words text junk op p h = (p', h', Ok (orb r junk, map seen v, upto_zero (text m))) /\ all_released h h'.
Proof.
  intros O. unfold net_words, words_call. rewrite O. destruct (fill_parsed (text m) v (mkOuts PNull 0 PNull) h) as [o h1] eqn:F.
  destruct (take_words_eq _ _ _ _ _ F) as (h2 & T & A). rewrite T. exists h2. split; [reflexivity|exact A].
Qed.

Lemma net_words_throws text junk op p h p' v e : op p = (p', v, Escapes e) -> net_words text junk op p h = (p', h, Exc e).
Proof. intros O. unfold net_words, words_call. now rewrite O. Qed.

Lemma net_parse_eq text junk op p h p' v r m : op p = (p', v, Answer r m) ->
  exists h', net_parse text junk op p h = (p', h', Ok (orb r junk, upto_zero (text m))) /\ all_released h h'.
Proof.
  intros O. unfold net_parse. rewrite O. rewrite fill_message_eq. pose proof (net_message_eq (text m) h []) as M. rewrite !app_nil_r in M.
  rewrite M. eexists. split; [reflexivity|]. eexists. reflexivity.
Qed.

(** ** Split files *)

Lemma first_n_app {A} n (x l : list A) : n = Z.of_nat (List.length x) -> first_n n (x ++ l) = Ok x.
Proof.
  intros ->. unfold first_n. rewrite app_length. replace (_ <=? _) with true by (symmetry; apply Z.leb_le; lia).
  rewrite Nat2Z.id, firstn_app, firstn_all, Nat.sub_diag. cbn. now rewrite app_nil_r.
Qed.

Lemma cut_concat {A} (l : list (list A)) : cut (map (fun x => Z.of_nat (List.length x)) l) (List.concat l) = Ok l.
Proof.
  induction l as [|x l IH]; [reflexivity|]. cbn [map cut List.concat]. rewrite first_n_app by reflexivity. cbn [bind].
  rewrite Nat2Z.id, skipn_app, skipn_all, Nat.sub_diag. cbn [app skipn]. now rewrite IH.
Qed.

Lemma seen_concat (pieces : list (list block)) : map seen (List.concat (List.concat pieces)) = List.concat (List.concat (map (map (map seen)) pieces)).
Proof. rewrite !concat_map. reflexivity. Qed.

Lemma sizes_seen (pieces : list (list block)) :
  map (fun x => Z.of_nat (List.length x)) (List.concat pieces) = map (fun x => Z.of_nat (List.length x)) (List.concat (map (map (map seen)) pieces)).
Proof. rewrite <- concat_map, map_map. apply map_ext. intros x. now rewrite map_length. Qed.

Lemma sizes_seen2 (pieces : list (list block)) :
  map (fun x => Z.of_nat (List.length x)) pieces = map (fun x => Z.of_nat (List.length x)) (map (map (map seen)) pieces).
Proof. rewrite map_map. apply map_ext. intros x. now rewrite map_length. Qed.

Lemma dispose_split_eq (pieces : list (list block)) h t :
  let k := (List.length h + 2 * List.length (List.concat (List.concat pieces)))%nat in
  dispose_split (PAt k) (PAt (k + 2)) (PAt (k + 1)) (Z.of_nat (List.length pieces)) (h ++ split_cells pieces (List.length h) ++ t)
  = Ok (h ++ repeat None (2 * List.length (List.concat (List.concat pieces)) + 3) ++ t).
Proof.
  set (b := List.concat (List.concat pieces)). cbv zeta. set (k := (List.length h + 2 * List.length b)%nat).
  assert (K : List.length (h ++ words_cells b) = k) by (rewrite app_length, words_cells_length; reflexivity).
  unfold split_cells. fold b. rewrite !sizes_map.
  set (ns := map (fun x : list block => Z.of_nat (List.length x)) pieces). set (ms := map (fun x : list attr => Z.of_nat (List.length x)) (List.concat pieces)).
  unfold dispose_split.
  assert (S3 : forall (x y z : option cell) g t, g ++ [x; y; z] ++ t = (g ++ [x; y]) ++ z :: t) by (intros; now rewrite <- app_assoc).
  assert (S2 : forall (x y z : option cell) g t, g ++ [x; y; z] ++ t = (g ++ [x]) ++ y :: z :: t) by (intros; now rewrite <- app_assoc).
  rewrite <- !app_assoc. rewrite (app_assoc h).
  rewrite S2. rewrite load_mid by (rewrite app_length, K; cbn; lia). cbn [bind].
  rewrite as_ints_all by (unfold ns; now rewrite map_length). cbn [bind]. rewrite <- S2.
  rewrite S3. rewrite load_mid by (rewrite app_length, K; cbn; lia). cbn [bind].
  rewrite as_ints_all by (unfold ns, ms; rewrite map_length; apply sum_sizes). cbn [bind]. rewrite <- S3. cbn [app].
  rewrite load_mid by (symmetry; exact K). cbn [bind as_words].
  rewrite firstn_all_ok by (unfold ms; rewrite sum_sizes, word_ptrs_length; reflexivity). cbn [bind].
  rewrite <- app_assoc. rewrite delete_words_eq. cbn [bind]. rewrite app_assoc.
  assert (K2 : List.length (h ++ repeat None (2 * List.length b)) = k) by (rewrite app_length, repeat_length; reflexivity).
  rewrite delete_if_mid by (symmetry; exact K2). cbn [bind].
  set (g := h ++ repeat None (2 * List.length b)) in *.
  replace (g ++ None :: Some (CInts (map Some ns)) :: Some (CInts (map Some ms)) :: t)
    with ((g ++ [None; Some (CInts (map Some ns))]) ++ Some (CInts (map Some ms)) :: t) by now rewrite <- app_assoc.
  rewrite delete_if_mid by (rewrite app_length, K2; cbn; lia). cbn [bind].
  replace ((g ++ [None; Some (CInts (map Some ns))]) ++ None :: t)
    with ((g ++ [None]) ++ Some (CInts (map Some ns)) :: None :: t) by now rewrite <- !app_assoc.
  rewrite delete_if_mid by (rewrite app_length, K2; cbn; lia).
  unfold g. rewrite repeat_app. rewrite <- !app_assoc. reflexivity.
Qed.

Definition leaked : heap := [Some (CWords []); Some (CInts []); Some (CInts [])].

Lemma take_split_eq pieces msg h o h1 : export_split pieces msg (mkSO PNull PNull PNull 0 PNull) h = (o, h1) ->
  exists h2, take_split o h1 = Ok (map (map (map seen)) pieces, upto_zero msg, h2) /\
    (pieces <> [] -> all_released h h2) /\ (pieces = [] -> all_released (h ++ leaked) h2).
Proof.
  rewrite export_split_eq. cbv zeta. intros E. injection E as <- <-. unfold take_split. cbn [so_length so_piece_lengths so_block_lengths so_value so_message].
  set (b := List.concat (List.concat pieces)). set (k := (List.length h + 2 * List.length b)%nat).
  assert (K : List.length (h ++ words_cells b) = k) by (rewrite app_length, words_cells_length; reflexivity).
  assert (SC : forall t, h ++ split_cells pieces (List.length h) ++ t =
     ((h ++ words_cells b) ++ [Some (CWords (word_ptrs (List.length h) b))]) ++ Some (CInts (sizes pieces)) :: Some (CInts (sizes (List.concat pieces))) :: t)
    by (intros; unfold split_cells; fold b; rewrite <- !app_assoc; reflexivity).
  assert (SC2 : forall t, h ++ split_cells pieces (List.length h) ++ t =
     ((h ++ words_cells b) ++ [Some (CWords (word_ptrs (List.length h) b)); Some (CInts (sizes pieces))]) ++ Some (CInts (sizes (List.concat pieces))) :: t)
    by (intros; unfold split_cells; fold b; rewrite <- !app_assoc; reflexivity).
  assert (SC3 : forall t, h ++ split_cells pieces (List.length h) ++ t =
     h ++ words_cells b ++ Some (CWords (word_ptrs (List.length h) b)) :: Some (CInts (sizes pieces)) :: Some (CInts (sizes (List.concat pieces))) :: t)
    by (intros; unfold split_cells; fold b; rewrite <- !app_assoc; reflexivity).
  change (List.length h + (List.length b + (List.length b + 0)))%nat with k.
  assert (L1 : load (PAt (k + 1)) (h ++ split_cells pieces (List.length h) ++ message_cells msg) = Ok (CInts (sizes pieces)))
    by (rewrite SC; apply load_mid; rewrite app_length, K; cbn; lia).
  assert (L2 : load (PAt (k + 2)) (h ++ split_cells pieces (List.length h) ++ message_cells msg) = Ok (CInts (sizes (List.concat pieces))))
    by (rewrite SC2; apply load_mid; rewrite app_length, K; cbn; lia).
  rewrite L1, L2. cbn [bind].
  rewrite sizes_map. rewrite as_ints_all by now rewrite map_length. cbn [bind].
  rewrite sizes_map. rewrite as_ints_all by (rewrite map_length; apply sum_sizes). cbn [bind].
  set (g := h ++ split_cells pieces (List.length h)).
  assert (LG : List.length g = (k + 3)%nat) by (unfold g, split_cells; fold b; rewrite !app_length, words_cells_length; cbn [List.length]; unfold k; lia).
  pose proof (net_message_eq msg g []) as M. rewrite !app_nil_r in M. rewrite LG in M.
  rewrite app_assoc. fold g. rewrite M. cbn [bind].
  assert (C : pieces = [] \/ pieces <> []) by (destruct pieces; [now left|right; discriminate]). destruct C as [EP|NP].
  - unfold g. clear -EP. subst pieces. cbn [List.length Z.of_nat Z.eqb]. eexists. split; [reflexivity|]. split; [contradiction|]. intros _. eexists. reflexivity.
  - replace (Z.of_nat (List.length pieces) =? 0) with false by (symmetry; apply Z.eqb_neq; destruct pieces; [contradiction|cbn [List.length]; lia]).
    unfold g. rewrite <- app_assoc.
    rewrite sum_sizes. fold b.
    assert (RW : read_words (PAt k) (Z.of_nat (List.length b)) (h ++ split_cells pieces (List.length h) ++ repeat None (List.length (message_cells msg))) = Ok (map seen b)).
    { rewrite SC3. unfold read_words. rewrite (app_assoc h). rewrite load_mid by (rewrite app_length, words_cells_length; unfold k; lia).
      cbn [bind as_words]. rewrite firstn_all_ok by now rewrite word_ptrs_length. cbn [bind]. rewrite <- app_assoc. apply read_all_words. }
    rewrite RW. cbn [bind]. unfold b at 1. rewrite seen_concat, sizes_seen, cut_concat. cbn [bind]. rewrite sizes_seen2, cut_concat. cbn [bind].
    pose proof (dispose_split_eq pieces h (repeat None (List.length (message_cells msg)))) as D. cbv zeta in D. fold b in D. fold k in D. rewrite D. cbn [bind].
    eexists. split; [reflexivity|]. split; [|contradiction]. intros _. eexists. rewrite repeat_app2. reflexivity.
Qed.

Lemma net_split_eq text junk op p h p' ps r m : op p = (p', ps, Answer r m) ->
  exists h', net_split text junk op p h = (p', h', Ok (orb r junk, map (map (map seen)) ps, upto_zero (text m))) /\
    (ps <> [] -> all_released h h') /\ (ps = [] -> all_released (h ++ leaked) h').
Proof.
  intros O. unfold net_split, split_call. rewrite O. destruct (export_split ps (text m) (mkSO PNull PNull PNull 0 PNull) h) as [o h1] eqn:F.
  destruct (take_split_eq _ _ _ _ _ F) as (h2 & T & A & B). rewrite T. exists h2. split; [reflexivity|]. split; assumption.
Qed.

(** ** Texts of pieces *)

Lemma read_all_texts pieces : forall h t, Forall (fun p => p <> []) pieces ->
  read_all read_text (text_ptrs (List.length h) pieces) (h ++ text_cells pieces ++ t) = Ok (map (fun p => upto_zero (piece_lines p)) pieces).
Proof.
  induction pieces as [|p ps IH]; intros h t N; [reflexivity|]. inv N. destruct p as [|b p]; [contradiction|].
  cbn [text_ptrs text_cells read_all map app]. rewrite read_text_mid by reflexivity. cbn [bind].
  specialize (IH (h ++ [Some (CChars (terminated (piece_text (b :: p))))]) t H2). rewrite app_length in IH. cbn [List.length] in IH.
  replace (List.length h + 1)%nat with (S (List.length h)) in IH by lia. rewrite <- app_assoc in IH. cbn [app] in IH. rewrite IH. cbn [bind].
  now rewrite piece_text_lines.
Qed.

Lemma read_all_wild l : forall h x, nth_error l x = Some PWild -> exists w, read_all read_text l h = Exc (EUB w).
Proof.
  induction l as [|p l IH]; intros h [|x] E; try discriminate; cbn in E.
  - injection E as ->. cbn. eauto.
  - cbn [read_all]. destruct (read_text p h) as [t|e] eqn:R; cbn [bind].
    + destruct (IH h x E) as [w W]. rewrite W. cbn. eauto.
    + unfold read_text in R. destruct (load p h) as [c|e'] eqn:L; cbn [bind] in R.
      * destruct c; try (injection R as <-; eauto).
        clear L. revert R. revert e. induction s as [|c s IHs]; cbn; intros e R; [injection R as <-; eauto|].
        destruct (Ascii.eqb c zero); [discriminate|]. destruct (c_text s) as [u|e1]; cbn [bind] in R; [discriminate|]. injection R as <-. now apply IHs.
      * injection R as ->. unfold load in L. destruct p; try (injection L as <-; eauto). destruct (nth_error h n) as [[c|]|]; try discriminate; injection L as <-; eauto.
Qed.

Lemma take_texts_eq pieces msg h o h1 : export_texts pieces msg (mkOuts PNull 0 PNull) h = (o, h1) ->
  (Forall (fun p => p <> []) pieces ->
   exists h2, take_texts o h1 = Ok (map (fun p => upto_zero (piece_lines p)) pieces, upto_zero msg, h2) /\ all_released h h2) /\
  (In [] pieces -> exists w, take_texts o h1 = Exc (EUB w)).
Proof.
  rewrite export_texts_eq. cbv zeta. intros E. injection E as <- <-. unfold take_texts. cbn [o_length o_value o_message].
  set (k := (List.length h + List.length (text_cells pieces))%nat). split.
  - intros N.
    match goal with |- context [do files <- ?R; _] => replace R with (@Ok (list string) (map (fun p => upto_zero (piece_lines p)) pieces)) end.
    2: { assert (C : pieces = [] \/ pieces <> []) by (destruct pieces; [now left|right; discriminate]). destruct C as [->|NP]; [reflexivity|].
         replace (Z.of_nat (List.length pieces) =? 0) with false by (symmetry; apply Z.eqb_neq; destruct pieces; [contradiction|cbn [List.length]; lia]).
         rewrite (app_assoc h). rewrite load_mid by (rewrite app_length; reflexivity). cbn [bind as_ptrs].
         rewrite firstn_all_ok by now rewrite text_ptrs_length. cbn [bind]. rewrite <- app_assoc. now rewrite read_all_texts. }
    cbn [bind].
    set (g := h ++ text_cells pieces ++ [Some (CPtrs (text_ptrs (List.length h) pieces))]).
    assert (LG : List.length g = S k) by (unfold g; rewrite !app_length; cbn [List.length]; unfold k; lia).
    pose proof (net_message_eq msg g []) as M. rewrite !app_nil_r in M. rewrite LG in M.
    replace (h ++ text_cells pieces ++ Some (CPtrs (text_ptrs (List.length h) pieces)) :: message_cells msg) with (g ++ message_cells msg)
      by (unfold g; rewrite <- !app_assoc; reflexivity).
    rewrite M. cbn [bind]. unfold g, dispose_texts. rewrite <- !app_assoc. cbn [app]. rewrite (app_assoc h).
    rewrite load_mid by (rewrite app_length; reflexivity). cbn [bind as_ptrs].
    rewrite firstn_all_ok by now rewrite text_ptrs_length. cbn [bind]. rewrite <- app_assoc. rewrite delete_all_texts by exact N. cbn [bind].
    rewrite app_assoc. rewrite delete_if_mid by (rewrite app_length, repeat_length; unfold k; now rewrite text_cells_length). cbn [bind].
    eexists. split; [reflexivity|]. exists (List.length pieces + (1 + List.length (message_cells msg)))%nat. rewrite !repeat_app. rewrite <- !app_assoc. reflexivity.
  - intros I. replace (Z.of_nat (List.length pieces) =? 0) with false.
    2: { symmetry. apply Z.eqb_neq. destruct pieces; [contradiction|]. cbn [List.length]. lia. }
    rewrite (app_assoc h). rewrite load_mid by (rewrite app_length; reflexivity). cbn [bind as_ptrs].
    rewrite firstn_all_ok by now rewrite text_ptrs_length. cbn [bind].
    apply In_nth_error in I. destruct I as [x X].
    match goal with |- context [read_all read_text ?l ?hh] => destruct (read_all_wild l hh x (texts_wild _ _ _ X)) as [w W] end. rewrite W. cbn. eauto.
Qed.

Lemma net_texts_eq text junk op p h p' ps r m : op p = (p', ps, Answer r m) ->
  (Forall (fun c => c <> []) ps ->
   exists h', net_texts text junk op p h = (p', h', Ok (orb r junk, map (fun c => upto_zero (piece_lines c)) ps, upto_zero (text m))) /\ all_released h h') /\
  (In [] ps -> exists h' w, net_texts text junk op p h = (p', h', Exc (EUB w))).
Proof.
  intros O. unfold net_texts, split_texts_call. rewrite O. destruct (export_texts ps (text m) (mkOuts PNull 0 PNull) h) as [o h1] eqn:F.
  destruct (take_texts_eq _ _ _ _ _ F) as [A B]. split.
  - intros N. destruct (A N) as (h2 & T & R). rewrite T. exists h2. split; [reflexivity|exact R].
  - intros I. destruct (B I) as (w & T). rewrite T. eauto.
Qed.

(** ** Path and time *)

Lemma read_all_ranges l : forall h t,
  read_all read_range (range_ptrs (List.length h) l) (h ++ range_cells l ++ t) = Ok (map (fun e => (upto_zero (fst e), snd e)) l).
Proof.
  induction l as [|[w r] l IH]; intros h t; [reflexivity|]. cbn [range_ptrs range_cells map read_all app fst snd]. unfold read_range at 1. cbn [fst snd].
  rewrite read_text_mid by reflexivity. cbn [bind].
  specialize (IH (h ++ [Some (CChars (terminated w))]) t). rewrite app_length in IH. cbn [List.length] in IH.
  replace (List.length h + 1)%nat with (S (List.length h)) in IH by lia. rewrite <- app_assoc in IH. cbn [app] in IH. unfold range_cells in IH. now rewrite IH.
Qed.

Lemma net_path_eq metric c h :
  exists h', net_path metric c h =
    Ok (mkNR (p_total (c_path c)) (p_work (c_path c)) (p_fast (c_path c)) (p_tool_total (c_path c)) (upto_zero (p_tool_id (c_path c))),
        mkNR (t_total (c_time c)) (t_work (c_time c)) (t_fast (c_time c)) (t_tool_total (c_time c)) (upto_zero (t_tool_id (c_time c))),
        map (fun e => (upto_zero (fst e), snd e)) (c_range c), if metric then 0 else 1, h') /\ all_released h h'.
Proof.
  unfold net_path. destruct (get_path_values metric c h) as [o h1] eqn:G. destruct (path_released _ _ _ _ _ G) as (h2 & D & R).
  rewrite get_path_values_eq in G. cbv zeta in G. injection G as EO EH.
  assert (R1 : read_result (po_path o) h1 = Ok (mkNR (p_total (c_path c)) (p_work (c_path c)) (p_fast (c_path c)) (p_tool_total (c_path c)) (upto_zero (p_tool_id (c_path c))))).
  { rewrite <- EO, <- EH. cbn [po_path]. unfold read_result. cbn [app].
    match goal with |- context [load _ (h ++ ?a :: ?b :: ?x)] => replace (load (PAt (S (List.length h))) (h ++ a :: b :: x)) with (load (PAt (S (List.length h))) ((h ++ [a]) ++ b :: x)) by now rewrite <- app_assoc end.
    rewrite load_mid by (rewrite app_length; cbn; lia). cbn [bind]. rewrite read_text_mid by reflexivity. reflexivity. }
  assert (R2 : read_result (po_time o) h1 = Ok (mkNR (t_total (c_time c)) (t_work (c_time c)) (t_fast (c_time c)) (t_tool_total (c_time c)) (upto_zero (t_tool_id (c_time c))))).
  { rewrite <- EO, <- EH. cbn [po_time]. unfold read_result. cbn [app].
    match goal with |- context [load ?q (h ++ ?a :: ?b :: ?x :: ?y :: ?z)] => replace (load q (h ++ a :: b :: x :: y :: z)) with (load q ((h ++ [a; b; x]) ++ y :: z)) by now rewrite <- app_assoc end.
    rewrite load_mid by (rewrite app_length; cbn; lia). cbn [bind].
    match goal with |- context [read_text ?q (h ++ ?a :: ?b :: ?x :: ?z)] => replace (h ++ a :: b :: x :: z) with ((h ++ [a; b]) ++ x :: z) by now rewrite <- app_assoc end.
    rewrite read_text_mid by (rewrite app_length; cbn; lia). reflexivity. }
  rewrite R1, R2. cbn [bind].
  assert (RR : (if po_length o =? 0 then Ok [] else read_ranges (po_ranges o) (po_length o) h1) = Ok (map (fun e => (upto_zero (fst e), snd e)) (c_range c))).
  { rewrite <- EO. cbn [po_length po_ranges]. destruct (c_range c) as [|e0 l0] eqn:ER; [reflexivity|]. rewrite <- ER in *.
    replace (Z.of_nat (List.length (c_range c)) =? 0) with false by (symmetry; apply Z.eqb_neq; rewrite ER; cbn [List.length]; lia).
    unfold read_ranges. rewrite <- EH.
    match goal with |- context [h ++ ?a :: ?b :: ?x :: ?y :: ?z] => replace (h ++ a :: b :: x :: y :: z) with ((h ++ [a; b; x; y]) ++ z) by now rewrite <- app_assoc end.
    rewrite (app_assoc (h ++ _)).
    rewrite load_mid by (rewrite !app_length; unfold range_cells; rewrite map_length; cbn; lia). cbn [bind as_ranges].
    rewrite firstn_all_ok by now rewrite range_ptrs_length. cbn [bind]. rewrite <- (app_assoc (h ++ _)).
    match goal with |- context [range_ptrs ?n _] => match goal with |- context [(?x ++ range_cells _ ++ _)] => replace n with (List.length x) by (rewrite app_length; cbn; lia) end end.
    apply read_all_ranges. }
  rewrite RR. cbn [bind]. rewrite D. cbn [bind]. rewrite <- EO. cbn [po_unit]. exists h2. split; [reflexivity|exact R].
Qed.

(** ** Tables from dictionaries *)

Lemma parts_of_groups (d : list (string * list cgv)) :
  parts_of (map (fun e => Z.of_nat (List.length (snd e))) d) (flat_map snd d) (map snd d).
Proof. induction d as [|[g l] d IH]; cbn; [reflexivity|]. split; [reflexivity|]. eexists. split; [reflexivity|exact IH]. Qed.

Lemma net_groups_ok d : exists m, net_groups d = Ok m /\ groups_ok m /\
  forall c g, in_group m c g <-> exists codes, In (g, codes) d /\ In c codes.
Proof.
  unfold net_groups, net_group_arrays.
  destruct (groups_exact (map fst d) _ _ (map snd d) (parts_of_groups d)) as (m & B & G & I); [now rewrite !map_length|].
  rewrite map_length in B. exists m. split; [exact B|]. split; [exact G|]. intros c g. rewrite I. unfold listed. split.
  - intros (x & p & K & P & C). rewrite nth_error_map in K, P. destruct (nth_error d x) as [[g' l]|] eqn:E; try discriminate. cbn in K, P. inv K. inv P.
    exists p. split; [|exact C]. eapply nth_error_In. exact E.
  - intros (codes & Id & C). apply In_nth_error in Id. destruct Id as [x X]. exists x, codes. rewrite !nth_error_map, X. auto.
Qed.

Lemma net_grammar_ok d : NoDup (map fst d) -> exists wm, net_grammar d = Ok wm /\ NoDup (map fst wm) /\
  forall k v, assoc k wm = Some v <-> In (k, v) d.
Proof.
  intros N. unfold net_grammar. destruct (grammar_map_exact (map fst d) (map snd d)) as (wm & B & D & A); [now rewrite !map_length|].
  rewrite map_length in B. exists wm. split; [exact B|]. split; [exact D|]. intros k v. rewrite A. unfold last_given. split.
  - intros (x & K & V & _). rewrite nth_error_map in K, V. destruct (nth_error d x) as [[k' v']|] eqn:E; try discriminate. cbn in K, V. inv K. inv V.
    eapply nth_error_In. exact E.
  - intros Id. apply In_nth_error in Id. destruct Id as [x X]. exists x. rewrite !nth_error_map, X. split; [reflexivity|]. split; [reflexivity|].
    intros y L K. rewrite NoDup_nth_error in N. assert (Q : y = x); [|lia]. symmetry. apply N.
    + rewrite <- nth_error_Some. rewrite nth_error_map, X. discriminate.
    + rewrite nth_error_map, X. rewrite K. reflexivity.
Qed.
