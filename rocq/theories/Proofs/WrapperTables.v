(** The C interface: texts of split files, macro tables, path results, and the
    tables made from arrays. *)
From Verif Require Import Model.Base Model.Attr Model.Double Model.Macro Model.Verifiers Model.Grammar.
From Verif Require Import Model.PathCalc Model.Parser Model.Wrapper.
From Verif Require Import Spec.WrapperSpec Spec.VerifierSpec Proofs.Tactics Proofs.StringFacts Proofs.MacroProofs Proofs.WrapperProofs.

From Coq Require Import Sorting.Sorted.

Local Open Scope list_scope.

(** ** Texts of pieces *)

Lemma attr_text_shown a : attr_text a = (fst (shown a) ++ snd (shown a))%string.
Proof.
  destruct a as [d|w v|w c].
  - cbn -[String.concat]. rewrite concat_empty. cbn. now rewrite string_app_nil.
  - rewrite shown_word. destruct (shown_value (AStr w v)) as [((x & X) & _)|E]; [discriminate|]. rewrite E. reflexivity.
  - cbn. reflexivity.
Qed.

Lemma block_text_line b : block_text b = line_text b.
Proof. unfold block_text, line_text. f_equal. apply map_ext, attr_text_shown. Qed.

Lemma piece_text_lines p : piece_text p = piece_lines p.
Proof.
  unfold piece_lines. rewrite concat_empty. induction p as [|b p IH]; [reflexivity|]. cbn [piece_text map fold_right].
  rewrite IH, block_text_line. fold crlf. now rewrite string_app_assoc.
Qed.

Lemma piece_text_empty p : piece_text p = ""%string <-> p = [].
Proof.
  split; [|now intros ->]. destruct p as [|b p]; [reflexivity|]. cbn. intros E. destruct (block_text b); discriminate E.
Qed.

Fixpoint text_ptrs (n : nat) (pieces : list (list block)) : list ptr :=
  match pieces with
  | [] => []
  | [] :: ps => PWild :: text_ptrs n ps
  | _ :: ps => PAt n :: text_ptrs (S n) ps
  end.

Fixpoint text_cells (pieces : list (list block)) : heap :=
  match pieces with
  | [] => []
  | [] :: ps => text_cells ps
  | p :: ps => Some (CChars (terminated (piece_text p))) :: text_cells ps
  end.

Lemma new_texts_eq pieces : forall h, new_texts pieces h = (text_ptrs (List.length h) pieces, h ++ text_cells pieces).
Proof.
  induction pieces as [|p ps IH]; intros h; cbn [new_texts]; [now rewrite app_nil_r|].
  rewrite fill_message_eq. rewrite IH. destruct p as [|b p].
  - cbn. now rewrite app_nil_r.
  - destruct (piece_text (b :: p)) as [|c t] eqn:E; [apply piece_text_empty in E; discriminate|].
    cbn [text_ptrs text_cells message_cells]. rewrite E. rewrite app_length. cbn [List.length]. rewrite <- app_assoc.
    replace (List.length h + 1)%nat with (S (List.length h)) by lia. reflexivity.
Qed.

Lemma text_ptrs_length ps : forall n, List.length (text_ptrs n ps) = List.length ps.
Proof. induction ps as [|[|b p] ps IH]; intros n; cbn; [reflexivity| |]; now rewrite IH. Qed.

Lemma export_texts_eq pieces msg o h :
  export_texts pieces msg o h =
  let k := (List.length h + List.length (text_cells pieces))%nat in
  (mkOuts (PAt k) (Z.of_nat (List.length pieces)) (match msg with EmptyString => o_message o | _ => PAt (S k) end),
   h ++ text_cells pieces ++ Some (CPtrs (text_ptrs (List.length h) pieces)) :: message_cells msg).
Proof.
  unfold export_texts. rewrite new_texts_eq. unfold new. rewrite fill_message_eq. cbv zeta.
  rewrite <- !app_assoc. cbn [app]. rewrite !app_length. cbn [List.length].
  replace (List.length h + (List.length (text_cells pieces) + 1))%nat with (S (List.length h + List.length (text_cells pieces))) by lia.
  reflexivity.
Qed.

Lemma zero_free_app a b : zero_free (a ++ b) <-> zero_free a /\ zero_free b.
Proof. unfold zero_free. rewrite all_chars_app, andb_true_iff. tauto. Qed.

Lemma zero_free_concat sep l : zero_free sep -> Forall zero_free l -> zero_free (String.concat sep l).
Proof.
  intros S F. induction F as [|x l Hx Hl IH]; [reflexivity|]. cbn. destruct l as [|y l]; [exact Hx|].
  apply zero_free_app. split; [exact Hx|]. apply zero_free_app. split; [exact S|exact IH].
Qed.

Lemma line_zero_free b : Forall word_zero_free b -> zero_free (line_text b).
Proof.
  intros F. apply zero_free_concat; [reflexivity|]. apply Forall_map. eapply Forall_impl; [|exact F].
  intros a [A B]. apply zero_free_app. now split.
Qed.

Lemma piece_zero_free p : Forall (Forall word_zero_free) p -> zero_free (piece_lines p).
Proof.
  intros F. apply zero_free_concat; [reflexivity|]. apply Forall_map. eapply Forall_impl; [|exact F].
  intros b B. apply zero_free_app. split; [now apply line_zero_free|reflexivity].
Qed.

Lemma texts_read pieces : forall h t, Forall (Forall (Forall word_zero_free)) pieces -> Forall (fun p => p <> []) pieces ->
  Forall2 (text_at (h ++ text_cells pieces ++ t)) (text_ptrs (List.length h) pieces) (map piece_lines pieces).
Proof.
  induction pieces as [|p ps IH]; intros h t F N; [constructor|]. inv F. inv N. destruct p as [|b p]; [contradiction|].
  cbn [text_ptrs text_cells map app]. constructor.
  - exists (terminated (piece_text (b :: p))). split; [now apply at_mid|]. rewrite piece_text_lines. apply terminated_reads. now apply piece_zero_free.
  - specialize (IH (h ++ [Some (CChars (terminated (piece_text (b :: p))))]) t H2 H4). rewrite app_length in IH. cbn [List.length] in IH.
    replace (List.length h + 1)%nat with (S (List.length h)) in IH by lia. rewrite <- app_assoc in IH. exact IH.
Qed.

Lemma texts_wild pieces : forall n x, nth_error pieces x = Some [] -> nth_error (text_ptrs n pieces) x = Some PWild.
Proof.
  induction pieces as [|p ps IH]; intros n [|x] E; try discriminate; cbn in E.
  - injection E as ->. reflexivity.
  - destruct p; cbn; now apply IH.
Qed.

Lemma texts_exported pieces msg o h o' h' : export_texts pieces msg o h = (o', h') ->
  extends h h' /\ o_length o' = Z.of_nat (List.length pieces) /\
  (exists ts, at_cell h' (o_value o') (CPtrs ts) /\ List.length ts = List.length pieces /\
     (forall x, nth_error pieces x = Some [] -> nth_error ts x = Some PWild) /\
     (Forall (Forall (Forall word_zero_free)) pieces -> Forall (fun p => p <> []) pieces ->
      Forall2 (text_at h') ts (map piece_lines pieces))) /\
  (msg = ""%string -> o_message o' = o_message o) /\
  (msg <> ""%string -> zero_free msg -> text_at h' (o_message o') msg).
Proof.
  rewrite export_texts_eq. cbv zeta. intros E. injection E as <- <-. cbn [o_length o_value o_message].
  split; [eexists; reflexivity|]. split; [reflexivity|]. split; [|split].
  - exists (text_ptrs (List.length h) pieces). split; [|split; [apply text_ptrs_length|split]].
    + rewrite app_assoc. apply at_mid. now rewrite app_length.
    + intros x. apply texts_wild.
    + apply texts_read.
  - intros ->. reflexivity.
  - intros N Z. destruct msg as [|c msg]; [contradiction|]. exists (terminated (String c msg)). split; [|now apply terminated_reads].
    rewrite app_assoc.
    change (Some (CPtrs (text_ptrs (List.length h) pieces)) :: message_cells (String c msg))
      with ([Some (CPtrs (text_ptrs (List.length h) pieces))] ++ Some (CChars (terminated (String c msg))) :: []).
    rewrite app_assoc. apply at_mid. rewrite !app_length. cbn. lia.
Qed.

Lemma delete_all_texts pieces : forall h t, Forall (fun p => p <> []) pieces ->
  delete_all (text_ptrs (List.length h) pieces) (h ++ text_cells pieces ++ t) = Ok (h ++ repeat None (List.length pieces) ++ t).
Proof.
  induction pieces as [|p ps IH]; intros h t N; [reflexivity|]. inv N. destruct p as [|b p]; [contradiction|].
  cbn [text_ptrs text_cells delete_all app]. rewrite delete_if_mid by reflexivity. cbn [bind].
  specialize (IH (h ++ [None]) t H2). rewrite app_length in IH. cbn [List.length] in IH.
  replace (List.length h + 1)%nat with (S (List.length h)) in IH by lia. rewrite <- !app_assoc in IH. cbn [app] in IH. rewrite IH.
  reflexivity.
Qed.

Lemma text_cells_length ps : Forall (fun p => p <> []) ps -> List.length (text_cells ps) = List.length ps.
Proof. induction 1 as [|p ps H _ IH]; [reflexivity|]. destruct p; [contradiction|]. cbn. now rewrite IH. Qed.

Lemma delete_all_wild l : forall h x, nth_error l x = Some PWild ->
  (forall y p, (y < x)%nat -> nth_error l y = Some p -> p <> PNull) ->
  exists w, delete_all l h = Exc (EUB w).
Proof.
  induction l as [|p l IH]; intros h [|x] E B; try discriminate; cbn in E.
  - injection E as ->. cbn. eauto.
  - cbn [delete_all]. unfold delete_if, delete. destruct p as [| |n].
    + exfalso. apply (B O PNull); [lia|reflexivity|reflexivity].
    + eexists. reflexivity.
    + destruct (release n h) as [[c h1]|]; cbn [bind snd]; [|eexists; reflexivity].
      apply (IH h1 x E). intros y q L N. apply (B (S y) q); [lia|exact N].
Qed.

Lemma text_ptrs_not_null ps : forall n y p, nth_error (text_ptrs n ps) y = Some p -> p <> PNull.
Proof.
  induction ps as [|[|b q] ps IH]; intros n [|y] p E; try discriminate; cbn in E; try (injection E as <-; discriminate); eapply IH; exact E.
Qed.

Lemma texts_released pieces msg h o' h' : export_texts pieces msg (mkOuts PNull 0 PNull) h = (o', h') ->
  (Forall (fun p => p <> []) pieces ->
   exists h1 h2, dispose_texts (o_value o') (o_length o') h' = Ok h1 /\ dispose_chars (o_message o') h1 = Ok h2 /\ all_released h h2) /\
  (In [] pieces -> exists w, dispose_texts (o_value o') (o_length o') h' = Exc (EUB w)).
Proof.
  rewrite export_texts_eq. cbv zeta. intros E. injection E as <- <-. cbn [o_length o_value o_message].
  unfold dispose_texts. rewrite !(app_assoc h). rewrite load_mid by now rewrite app_length. cbn [bind as_ptrs].
  rewrite firstn_all_ok by now rewrite text_ptrs_length. cbn [bind]. split.
  - intros N. rewrite <- app_assoc. rewrite delete_all_texts by exact N. cbn [bind]. rewrite app_assoc.
    rewrite delete_if_mid by (rewrite app_length, repeat_length, text_cells_length by exact N; reflexivity).
    do 2 eexists. split; [reflexivity|].
    pose proof (dispose_message msg PNull ((h ++ repeat None (List.length pieces)) ++ [None]) [] (fun _ => eq_refl)) as D.
    rewrite !app_nil_r in D. rewrite <- !app_assoc in D. cbn [app] in D. rewrite <- app_assoc.
    match type of D with dispose_chars ?p _ = _ => match goal with |- dispose_chars ?q _ = _ /\ _ => replace q with p end end.
    + rewrite D. split; [reflexivity|]. exists (List.length pieces + (1 + List.length (message_cells msg)))%nat.
      rewrite !repeat_app. reflexivity.
    + destruct msg; [reflexivity|]. f_equal. rewrite !app_length, repeat_length, text_cells_length by exact N. cbn. lia.
  - intros I. apply In_nth_error in I. destruct I as [x X].
    destruct (delete_all_wild (text_ptrs (List.length h) pieces) ((h ++ text_cells pieces) ++ Some (CPtrs (text_ptrs (List.length h) pieces)) :: message_cells msg) x (texts_wild _ _ _ X)) as [w W].
    + intros y p _. apply text_ptrs_not_null.
    + rewrite W. cbn. eauto.
Qed.

(** ** Macro tables *)

Lemma emplace_last (m : macro_map dbl) : forall k v, Forall (fun e => klt (fst e) k) m -> emplace m k v = m ++ [(k, v)].
Proof.
  induction m as [|[k' v'] m IH]; intros k v F; [reflexivity|]. inv F. cbn [emplace].
  cbn in H1. rewrite (proj2 (key_lt_iff _ _) H1). cbn. now rewrite IH.
Qed.

Lemma sorted_fold (l : macro_map dbl) : forall m, sorted dbl (m ++ l) -> fold_left (fun m e => emplace m (fst e) (snd e)) l m = m ++ l.
Proof.
  induction l as [|[k v] l IH]; intros m S; [now rewrite app_nil_r|]. cbn [fold_left fst snd].
  assert (F : Forall (fun e => klt (fst e) k) m).
  { clear IH. induction m as [|[k' v'] m IHm]; [constructor|]. cbn [app] in S. apply sorted_cons in S. destruct S as [S A]. constructor.
    - unfold all_after in A. rewrite Forall_app in A. destruct A as [_ A]. inv A. exact H1.
    - now apply IHm. }
  rewrite emplace_last by exact F. rewrite IH; rewrite <- app_assoc; [reflexivity|exact S].
Qed.

Lemma sorted_filter f (m : macro_map dbl) : sorted dbl m -> sorted dbl (filter f m).
Proof.
  induction m as [|[k v] m IH]; intros S; [exact S|]. apply sorted_cons in S. destruct S as [S A]. cbn.
  destruct (f (k, v)); [|now apply IH]. apply sorted_cons. split; [now apply IH|].
  unfold all_after in *. rewrite Forall_forall in *. intros e I. apply filter_In in I. now apply A.
Qed.

Lemma line_macros_eq mv line : sorted dbl mv -> line_macros mv line = filter (fun e => k_line (fst e) =? line) mv.
Proof. intros S. unfold line_macros. apply (sorted_fold _ []). now apply sorted_filter. Qed.

Lemma to_i32_id n : int_min <= n <= int_max -> to_i32 n = n.
Proof. unfold to_i32, int_min, int_max. intros H. rewrite Z.mod_small by lia. lia. Qed.

Lemma macros_exported mv o h o' h' : get_macro_values mv o h = (o', h') ->
  extends h h' /\ mo_length o' = Z.of_nat (List.length mv) /\
  (mv = [] -> mo_ids o' = mo_ids o /\ mo_lines o' = mo_lines o /\ mo_values o' = mo_values o) /\
  (mv <> [] -> Forall (fun e => k_id (fst e) <= int_max /\ 0 <= k_id (fst e)) mv ->
   ints_at h' (mo_ids o') (map (fun e => k_id (fst e)) mv) /\ ints_at h' (mo_lines o') (map (fun e => k_line (fst e)) mv) /\
   dbls_at h' (mo_values o') (map snd mv)).
Proof.
  destruct mv as [|e mv]; intros E.
  - injection E as <- <-. split; [exists []; now rewrite app_nil_r|]. split; [reflexivity|]. split; [auto|]. intros N; contradiction.
  - unfold get_macro_values, new in E. injection E as <- <-. cbn [mo_ids mo_lines mo_values mo_length].
    rewrite <- !app_assoc. split; [eexists; reflexivity|]. split; [reflexivity|]. split; [discriminate|]. intros _ F.
    assert (I : map (fun e => Some (to_i32 (k_id (fst e)))) (e :: mv) = map Some (map (fun e => k_id (fst e)) (e :: mv))).
    { rewrite map_map. apply map_ext_in. intros x X. rewrite Forall_forall in F. specialize (F x X). rewrite to_i32_id by (unfold int_min in *; lia). reflexivity. }
    split; [|split].
    + exists []. rewrite app_nil_r. rewrite <- I. now apply at_mid.
    + exists []. rewrite app_nil_r. rewrite map_map. cbn [app].
      match goal with |- at_cell (h ++ ?a :: ?b) _ _ => change (h ++ a :: b) with (h ++ [a] ++ b) end. rewrite app_assoc. now apply at_mid.
    + exists []. rewrite app_nil_r. rewrite map_map. cbn [app].
      match goal with |- at_cell (h ++ ?a :: ?b :: ?c) _ _ => change (h ++ a :: b :: c) with (h ++ [a; b] ++ c) end. rewrite app_assoc. apply at_mid. rewrite !app_length. cbn. lia.
Qed.

Lemma macros_released mv h o' h' : get_macro_values mv (mkMO PNull PNull PNull 0) h = (o', h') ->
  exists h1, dispose_macros o' h' = Ok h1 /\ all_released h h1.
Proof.
  destruct mv as [|e mv]; intros E.
  - injection E as <- <-. exists h. split; [reflexivity|]. exists O. now rewrite app_nil_r.
  - unfold get_macro_values, new in E. injection E as <- <-. unfold dispose_macros. cbn [mo_ids mo_lines mo_values].
    rewrite <- !app_assoc. cbn [app]. rewrite delete_if_mid by reflexivity. cbn [bind app].
    match goal with |- context [h ++ None :: ?b :: ?c] => replace (h ++ None :: b :: c) with ((h ++ [None]) ++ b :: c) by now rewrite <- app_assoc end.
    rewrite delete_if_mid by (rewrite !app_length; reflexivity). cbn [bind].
    match goal with |- context [(h ++ [None]) ++ None :: ?b :: ?c] => replace ((h ++ [None]) ++ None :: b :: c) with ((h ++ [None; None]) ++ b :: c) by now rewrite <- !app_assoc end.
    rewrite delete_if_mid by (rewrite !app_length; cbn; lia).
    eexists. split; [reflexivity|]. exists 3%nat. now rewrite <- app_assoc.
Qed.

Lemma padded_length {A} n (l : list A) : (List.length l <= n)%nat -> List.length (padded_to n l) = n.
Proof. intros L. unfold padded_to. rewrite app_length, map_length, repeat_length. lia. Qed.

Lemma line_macros_exported mv line o h o' h' : sorted dbl mv -> get_line_macro_values mv line o h = (o', h') ->
  let here := filter (fun e => k_line (fst e) =? line) mv in
  extends h h' /\ mo_length o' = Z.of_nat (List.length here) /\ mo_lines o' = mo_lines o /\
  (here = [] -> mo_ids o' = mo_ids o /\ mo_values o' = mo_values o) /\
  (here <> [] -> Forall (fun e => k_id (fst e) <= int_max /\ 0 <= k_id (fst e)) mv ->
   ints_at h' (mo_ids o') (map (fun e => k_id (fst e)) here) /\ dbls_at h' (mo_values o') (map snd here)).
Proof.
  intros S E. cbv zeta. unfold get_line_macro_values in E. rewrite line_macros_eq in E by exact S.
  set (here := filter (fun e => k_line (fst e) =? line) mv) in *.
  assert (SUB : incl here mv) by (intros x X; apply filter_In in X; tauto).
  assert (C : mv = [] \/ match mv with [] => False | _ => True end) by (destruct mv; auto). destruct C as [C|C].
  { subst mv. injection E as <- <-. split; [exists []; now rewrite app_nil_r|]. cbn. split; [reflexivity|]. split; [reflexivity|]. split; [auto|]. intros N; contradiction. }
  clearbody here.
  assert (E' : match here with
               | [] => (mkMO (mo_ids o) (mo_lines o) (mo_values o) 0, h)
               | lm => let n := List.length mv in
                       let '(ids, h) := new (CInts (padded_to n (map (fun e => to_i32 (k_id (fst e))) lm))) h in
                       let '(values, h) := new (CDbls (padded_to n (map snd lm))) h in
                       (mkMO ids (mo_lines o) values (Z.of_nat (List.length lm)), h)
               end = (o', h')) by (destruct mv; [contradiction|destruct here; exact E]).
  clear E. rename E' into E.
  destruct here as [|x here'] eqn:HE.
  { injection E as <- <-. split; [exists []; now rewrite app_nil_r|]. cbn. split; [reflexivity|]. split; [reflexivity|]. split; [auto|]. intros N; contradiction. }
  rewrite <- HE in *. assert (NE : here <> []) by (rewrite HE; discriminate). clear HE.
  unfold new in E. injection E as <- <-. cbn [mo_ids mo_lines mo_values mo_length].
  rewrite <- !app_assoc. split; [eexists; reflexivity|]. split; [reflexivity|]. split; [reflexivity|]. split; [contradiction|]. intros _ F.
  assert (I : map (fun e => to_i32 (k_id (fst e))) here = map (fun e => k_id (fst e)) here).
  { apply map_ext_in. intros y Y. rewrite Forall_forall in F. specialize (F y (SUB y Y)). rewrite to_i32_id by (unfold int_min in *; lia). reflexivity. }
  split.
  - exists (repeat None (List.length mv - List.length (map (fun e => to_i32 (k_id (fst e))) here))). unfold padded_to. rewrite I. now apply at_mid.
  - exists (repeat None (List.length mv - List.length (map snd here))). rewrite app_assoc. apply at_mid. rewrite !app_length. reflexivity.
Qed.

Lemma line_macros_released mv line h o' h' : get_line_macro_values mv line (mkMO PNull PNull PNull 0) h = (o', h') ->
  exists h1, dispose_macros o' h' = Ok h1 /\ all_released h h1.
Proof.
  unfold get_line_macro_values. intros E.
  destruct mv as [|e mv]; [injection E as <- <-; exists h; split; [reflexivity|]; exists O; now rewrite app_nil_r|].
  destruct (line_macros (e :: mv) line) as [|x lm]; [injection E as <- <-; exists h; split; [reflexivity|]; exists O; now rewrite app_nil_r|].
  unfold new in E. injection E as <- <-. unfold dispose_macros. cbn [mo_ids mo_lines mo_values].
  rewrite <- !app_assoc. cbn [app]. rewrite (delete_if_mid _ h) by reflexivity. cbn [bind delete_if].
  match goal with |- context [h ++ None :: ?b :: ?c] => replace (h ++ None :: b :: c) with ((h ++ [None]) ++ b :: c) by now rewrite <- app_assoc end.
  match goal with |- context [delete ?p ?x] => change (do r <- delete p x; Ok (snd r)) with (delete_if p x) end.
  rewrite delete_if_mid by (rewrite !app_length; reflexivity).
  eexists. split; [reflexivity|]. exists 2%nat. now rewrite <- app_assoc.
Qed.

(** ** Path results *)

Lemma new_result_eq a b c d t h :
  new_result a b c d t h =
  (PAt (S (List.length h)), h ++ [Some (CChars (terminated t)); Some (CResult a b c d (PAt (List.length h)))]).
Proof.
  unfold new_result, new. rewrite app_length. cbn [List.length]. rewrite <- app_assoc.
  replace (List.length h + 1)%nat with (S (List.length h)) by lia. reflexivity.
Qed.

Fixpoint range_ptrs (n : nat) (l : word_range_map) : list (ptr * (dbl * dbl * dbl)) :=
  match l with [] => [] | e :: l' => (PAt n, snd e) :: range_ptrs (S n) l' end.

Definition range_cells (l : word_range_map) : heap := map (fun e => Some (CChars (terminated (fst e)))) l.

Lemma new_ranges_eq l : forall h, new_ranges l h = (range_ptrs (List.length h) l, h ++ range_cells l).
Proof.
  induction l as [|[w r] l IH]; intros h; cbn [new_ranges]; [now rewrite app_nil_r|]. unfold new. rewrite IH.
  rewrite app_length. cbn [List.length range_ptrs range_cells map fst snd]. rewrite <- app_assoc.
  replace (List.length h + 1)%nat with (S (List.length h)) by lia. reflexivity.
Qed.

Lemma range_ptrs_length l : forall n, List.length (range_ptrs n l) = List.length l.
Proof. induction l as [|e l IH]; intros n; [reflexivity|]. cbn. now rewrite IH. Qed.

Lemma ranges_read l : forall h t, Forall (fun e => zero_free (fst e)) l ->
  Forall2 (fun r e => text_at (h ++ range_cells l ++ t) (fst r) (fst e) /\ snd r = snd e) (range_ptrs (List.length h) l) l.
Proof.
  induction l as [|[w r] l IH]; intros h t F; [constructor|]. inv F. cbn [range_ptrs range_cells map app fst snd]. constructor.
  - cbn. split; [|reflexivity]. exists (terminated w). split; [now apply at_mid|now apply terminated_reads].
  - specialize (IH (h ++ [Some (CChars (terminated w))]) t H2). rewrite app_length in IH. cbn [List.length] in IH.
    replace (List.length h + 1)%nat with (S (List.length h)) in IH by lia. rewrite <- app_assoc in IH. exact IH.
Qed.

Lemma get_path_values_eq metric c h :
  get_path_values metric c h =
  let n := List.length h in
  (mkPO (PAt (S n)) (PAt (3 + n)) (PAt (4 + n + List.length (c_range c))) (Z.of_nat (List.length (c_range c))) (if metric then 0 else 1),
   h ++ [Some (CChars (terminated (p_tool_id (c_path c))));
         Some (CResult (p_total (c_path c)) (p_work (c_path c)) (p_fast (c_path c)) (p_tool_total (c_path c)) (PAt n));
         Some (CChars (terminated (t_tool_id (c_time c))));
         Some (CResult (t_total (c_time c)) (t_work (c_time c)) (t_fast (c_time c)) (t_tool_total (c_time c)) (PAt (2 + n)))]
     ++ range_cells (c_range c) ++ [Some (CRanges (range_ptrs (4 + n) (c_range c)))]).
Proof.
  unfold get_path_values. rewrite new_result_eq. rewrite new_result_eq. rewrite new_ranges_eq. unfold new. cbv zeta.
  rewrite !app_length. cbn [List.length]. rewrite <- !app_assoc. cbn [app].
  replace (List.length h + 2)%nat with (2 + List.length h)%nat by lia.
  replace (2 + List.length h + 2)%nat with (4 + List.length h)%nat by lia.
  unfold range_cells at 1. rewrite map_length. reflexivity.
Qed.

Lemma path_exported metric c h o h' : get_path_values metric c h = (o, h') ->
  zero_free (p_tool_id (c_path c)) -> zero_free (t_tool_id (c_time c)) -> Forall (fun e => zero_free (fst e)) (c_range c) ->
  extends h h' /\
  (exists t, at_cell h' (po_path o) (CResult (p_total (c_path c)) (p_work (c_path c)) (p_fast (c_path c)) (p_tool_total (c_path c)) t) /\
     text_at h' t (p_tool_id (c_path c))) /\
  (exists t, at_cell h' (po_time o) (CResult (t_total (c_time c)) (t_work (c_time c)) (t_fast (c_time c)) (t_tool_total (c_time c)) t) /\
     text_at h' t (t_tool_id (c_time c))) /\
  po_length o = Z.of_nat (List.length (c_range c)) /\
  (exists rs, at_cell h' (po_ranges o) (CRanges rs) /\
     Forall2 (fun r e => text_at h' (fst r) (fst e) /\ snd r = snd e) rs (c_range c)).
Proof.
  rewrite get_path_values_eq. cbv zeta. intros E Z1 Z2 F. injection E as <- <-. cbn [po_path po_time po_ranges po_length].
  split; [eexists; reflexivity|]. split; [|split; [|split; [reflexivity|]]].
  - exists (PAt (List.length h)). split.
    + match goal with |- at_cell (h ++ ?a :: ?b :: ?c1 :: ?d :: ?t) _ _ => change (h ++ a :: b :: c1 :: d :: t) with (h ++ [a] ++ b :: c1 :: d :: t) end.
      rewrite app_assoc. apply at_mid. rewrite app_length. cbn. lia.
    + eexists. split; [|apply terminated_reads; exact Z1]. now apply at_mid.
  - exists (PAt (2 + List.length h)). split.
    + match goal with |- at_cell (h ++ ?a :: ?b :: ?c1 :: ?d :: ?t) _ _ => change (h ++ a :: b :: c1 :: d :: t) with (h ++ [a; b; c1] ++ d :: t) end.
      rewrite app_assoc. apply at_mid. rewrite app_length. cbn. lia.
    + eexists. split; [|apply terminated_reads; exact Z2].
      match goal with |- at_cell (h ++ ?a :: ?b :: ?c1 :: ?d :: ?t) _ _ => change (h ++ a :: b :: c1 :: d :: t) with (h ++ [a; b] ++ c1 :: d :: t) end.
      rewrite app_assoc. apply at_mid. rewrite app_length. cbn. lia.
  - exists (range_ptrs (4 + List.length h) (c_range c)). split.
    + match goal with |- at_cell (h ++ ?a :: ?b :: ?c1 :: ?d :: ?t) _ _ => change (h ++ a :: b :: c1 :: d :: t) with (h ++ [a; b; c1; d] ++ t) end.
      rewrite !app_assoc. apply at_mid. rewrite !app_length. unfold range_cells. rewrite map_length. cbn. lia.
    + match goal with |- context [(h ++ ?a :: ?b :: ?c1 :: ?d :: ?t)] =>
        replace (h ++ a :: b :: c1 :: d :: t) with ((h ++ [a; b; c1; d]) ++ t) by now rewrite <- app_assoc end.
      match goal with |- Forall2 _ (range_ptrs ?n _) _ => match goal with |- context [(?x ++ range_cells _ ++ _)] => replace n with (List.length x) by (rewrite app_length; cbn; lia) end end.
      now apply ranges_read.
Qed.

Lemma delete_ranges l : forall h t,
  delete_all (map fst (range_ptrs (List.length h) l)) (h ++ range_cells l ++ t) = Ok (h ++ repeat None (List.length l) ++ t).
Proof.
  induction l as [|e l IH]; intros h t; [reflexivity|]. cbn [range_ptrs range_cells map delete_all app fst].
  rewrite delete_if_mid by reflexivity. cbn [bind].
  specialize (IH (h ++ [None]) t). rewrite app_length in IH. cbn [List.length] in IH.
  replace (List.length h + 1)%nat with (S (List.length h)) in IH by lia. rewrite <- !app_assoc in IH. cbn [app] in IH.
  unfold range_cells in IH. rewrite IH. reflexivity.
Qed.

Lemma dispose_result_eq h a b c d t r n : n = S (List.length h) ->
  dispose_result (PAt n) (h ++ Some (CChars t) :: Some (CResult a b c d (PAt (List.length h))) :: r) = Ok (h ++ None :: None :: r).
Proof.
  intros ->. unfold dispose_result.
  replace (load (PAt (S (List.length h))) (h ++ Some (CChars t) :: Some (CResult a b c d (PAt (List.length h))) :: r))
    with (load (PAt (S (List.length h))) ((h ++ [Some (CChars t)]) ++ Some (CResult a b c d (PAt (List.length h))) :: r)) by now rewrite <- app_assoc.
  rewrite load_mid by (rewrite app_length; cbn; lia). cbn [bind]. rewrite delete_if_mid by reflexivity. cbn [bind].
  replace (h ++ None :: Some (CResult a b c d (PAt (List.length h))) :: r) with ((h ++ [None]) ++ Some (CResult a b c d (PAt (List.length h))) :: r) by now rewrite <- app_assoc.
  rewrite delete_if_mid by (rewrite app_length; cbn; lia). now rewrite <- app_assoc.
Qed.

Lemma path_released metric c h o h' : get_path_values metric c h = (o, h') ->
  exists h1, dispose_path_values o h' = Ok h1 /\ all_released h h1.
Proof.
  rewrite get_path_values_eq. cbv zeta. intros E. injection E as <- <-. unfold dispose_path_values. cbn [po_path po_time po_ranges po_length].
  cbn [app]. rewrite dispose_result_eq by reflexivity. cbn [bind].
  match goal with |- context [h ++ None :: None :: ?r] => replace (h ++ None :: None :: r) with ((h ++ [None; None]) ++ r) by now rewrite <- app_assoc end.
  replace (S (S (List.length h))) with (List.length (h ++ [@None cell; None])) by (rewrite app_length; cbn; lia).
  rewrite dispose_result_eq by reflexivity. cbn [bind].
  match goal with |- context [(h ++ [None; None]) ++ None :: None :: ?r] => replace ((h ++ [None; None]) ++ None :: None :: r) with ((h ++ [None; None; None; None]) ++ r) by now rewrite <- !app_assoc end.
  rewrite app_assoc. rewrite load_mid by (rewrite !app_length; unfold range_cells; rewrite map_length; cbn; lia). cbn [bind as_ranges].
  rewrite firstn_all_ok by now rewrite range_ptrs_length. cbn [bind]. rewrite <- app_assoc.
  replace (S (S (List.length (h ++ [@None cell; None])))) with (List.length (h ++ [@None cell; None; None; None])) by (rewrite !app_length; cbn; lia).
  rewrite delete_ranges. cbn [bind]. rewrite app_assoc.
  rewrite delete_if_mid by (rewrite !app_length, repeat_length; cbn; lia).
  eexists. split; [reflexivity|]. exists (4 + (List.length (c_range c) + 1))%nat.
  change (repeat (@None cell) (4 + (List.length (c_range c) + 1))) with ([@None cell; None; None; None] ++ repeat None (List.length (c_range c) + 1)).
  rewrite repeat_app. now rewrite <- !app_assoc.
Qed.

(** ** Tables from arrays *)

Lemma assoc_assign {A} k (v : A) k' m : assoc k' (assign k v m) = if String.eqb k k' then Some v else assoc k' m.
Proof.
  induction m as [|[k0 v0] m IH]; cbn [assign assoc].
  - rewrite (String.eqb_sym k' k). destruct (String.eqb k k'); reflexivity.
  - destruct (String.eqb k k0) eqn:E; cbn [assoc].
    + apply String.eqb_eq in E. subst k0. rewrite (String.eqb_sym k' k). destruct (String.eqb k k'); reflexivity.
    + rewrite IH. destruct (String.eqb k' k0) eqn:E2; [|reflexivity]. apply String.eqb_eq in E2. subst k0. now rewrite E.
Qed.

Lemma assign_keys {A} k (v : A) m : NoDup (map fst m) -> NoDup (map fst (assign k v m)) /\ (forall k', In k' (map fst (assign k v m)) <-> k' = k \/ In k' (map fst m)).
Proof.
  induction m as [|[k0 v0] m IH]; cbn [assign map fst]; intros N.
  - split; [constructor; [intros []|constructor]|]. cbn. intros k'. split; [intros [<-|[]]; auto|intros [->|[]]; auto].
  - inv N. destruct (String.eqb_spec k k0) as [<-|NE]; cbn [map fst].
    + split; [now constructor|]. cbn. intros k'. split; [intros [<-|H]; auto|intros [->|[<-|H]]; auto].
    + destruct (IH H2) as [A1 A2]. split; [constructor; [|exact A1]|].
      * rewrite A2. intros [->|I]; [now apply NE|contradiction].
      * cbn. intros k'. rewrite A2. tauto.
Qed.

Lemma build_grammar_ok n : forall keys values x wm, (x + n <= List.length keys)%nat -> (x + n <= List.length values)%nat -> NoDup (map fst wm) ->
  exists wm', build_grammar_from keys values n x wm = Ok wm' /\ NoDup (map fst wm') /\
    forall k v, assoc k wm' = Some v <->
      (exists y, (x <= y < x + n)%nat /\ nth_error keys y = Some k /\ nth_error values y = Some v /\ forall z, (y < z < x + n)%nat -> nth_error keys z <> Some k) \/
      ((forall z, (x <= z < x + n)%nat -> nth_error keys z <> Some k) /\ assoc k wm = Some v).
Proof.
  induction n as [|n IH]; intros keys values x wm L1 L2 N.
  - exists wm. split; [reflexivity|]. split; [exact N|]. intros k v. split.
    + intros H. right. split; [intros z; lia|exact H].
    + intros [(y & Y & _)|[_ H]]; [lia|exact H].
  - cbn [build_grammar_from]. unfold at_.
    destruct (nth_error values x) as [v0|] eqn:Ev; [|apply nth_error_None in Ev; lia]. cbn [bind].
    destruct (nth_error keys x) as [k0|] eqn:Ek; [|apply nth_error_None in Ek; lia]. cbn [bind].
    destruct (IH keys values (S x) (assign k0 v0 wm)) as (wm' & B & D & S'); try lia.
    { now apply assign_keys. }
    exists wm'. split; [exact B|]. split; [exact D|]. intros k v. rewrite S'. rewrite assoc_assign. split.
    + intros [(y & Y & A1 & A2 & A3)|[A1 A2]].
      * left. exists y. split; [lia|]. split; [exact A1|]. split; [exact A2|]. intros z Z. apply A3. lia.
      * destruct (String.eqb_spec k0 k) as [->|NE].
        -- left. exists x. split; [lia|]. split; [exact Ek|]. injection A2 as <-. split; [exact Ev|]. intros z Z. apply A1. lia.
        -- right. split; [|exact A2]. intros z Z. destruct (Nat.eq_dec z x) as [->|NZ]; [rewrite Ek; congruence|]. apply A1. lia.
    + intros [(y & Y & A1 & A2 & A3)|[A1 A2]].
      * destruct (Nat.eq_dec y x) as [->|NY].
        -- right. split; [intros z Z; apply A3; lia|]. rewrite Ek in A1. injection A1 as <-. rewrite Ev in A2. injection A2 as <-. now rewrite String.eqb_refl.
        -- left. exists y. split; [lia|]. split; [exact A1|]. split; [exact A2|]. intros z Z. apply A3. lia.
      * right. split; [intros z Z; apply A1; lia|]. destruct (String.eqb_spec k0 k) as [->|NE]; [exfalso; apply (A1 x); [lia|exact Ek]|exact A2].
Qed.

Lemma grammar_map_exact keys values : List.length keys = List.length values ->
  exists wm, build_grammar_map keys values (Z.of_nat (List.length keys)) = Ok wm /\ NoDup (map fst wm) /\
    forall k v, assoc k wm = Some v <-> last_given keys values k v.
Proof.
  intros L. unfold build_grammar_map. rewrite Nat2Z.id.
  destruct (build_grammar_ok (List.length keys) keys values 0 []) as (wm & B & D & H); try lia; [constructor|].
  exists wm. split; [exact B|]. split; [exact D|]. intros k v. rewrite H. split.
  - intros [(y & Y & A1 & A2 & A3)|[_ A]]; [|discriminate]. exists y. split; [exact A1|]. split; [exact A2|].
    intros z Z. destruct (Nat.lt_ge_cases z (List.length keys)) as [G|G]; [apply A3; lia|]. rewrite (proj2 (nth_error_None keys z) G). discriminate.
  - intros (y & A1 & A2 & A3). left. exists y. assert (y < List.length keys)%nat by (apply nth_error_Some; congruence).
    split; [lia|]. split; [exact A1|]. split; [exact A2|]. intros z Z. apply A3. lia.
Qed.

(** Groups. *)

Lemma set_insert_in g l x : In x (set_insert g l) <-> x = g \/ In x l.
Proof.
  induction l as [|y l IH]; cbn [set_insert]; [cbn; intuition|].
  destruct (String.eqb_spec g y) as [<-|NE]; [cbn; intuition|]. destruct (String.ltb g y); [cbn; intuition|]. cbn. rewrite IH. intuition.
Qed.

Definition slt (a b : string) : Prop := String.ltb a b = true.

Lemma compare_trans_lt a : forall b c, String.compare a b = Lt -> String.compare b c = Lt -> String.compare a c = Lt.
Proof.
  induction a as [|x a IH]; intros [|y b] [|z c]; cbn; try discriminate; try reflexivity.
  unfold Ascii.compare. destruct (N.compare_spec (N_of_ascii x) (N_of_ascii y)) as [E1|E1|E1]; try discriminate.
  - destruct (N.compare_spec (N_of_ascii y) (N_of_ascii z)) as [E2|E2|E2]; try discriminate.
    + rewrite E1, E2, N.compare_refl. apply IH.
    + intros _ _. rewrite E1. now rewrite (proj2 (N.compare_lt_iff _ _) E2).
  - intros _. destruct (N.compare_spec (N_of_ascii y) (N_of_ascii z)) as [E2|E2|E2]; try discriminate.
    + intros _. rewrite <- E2. now rewrite (proj2 (N.compare_lt_iff _ _) E1).
    + intros _. now rewrite (proj2 (N.compare_lt_iff _ _) (N.lt_trans _ _ _ E1 E2)).
Qed.

Lemma slt_trans a b c : slt a b -> slt b c -> slt a c.
Proof.
  unfold slt, String.ltb. destruct (String.compare a b) eqn:A; try discriminate. destruct (String.compare b c) eqn:B; try discriminate.
  now rewrite (compare_trans_lt _ _ _ A B).
Qed.

Lemma slt_neq a b : slt a b -> a <> b.
Proof. intros H ->. unfold slt, String.ltb in H. pose proof (String.compare_antisym b b) as C. destruct (String.compare b b); discriminate. Qed.

Lemma slt_total a b : a <> b -> String.ltb a b = false -> slt b a.
Proof.
  intros N H. unfold slt, String.ltb in *. destruct (String.compare a b) eqn:C; try discriminate.
  - apply String.compare_eq_iff in C. contradiction.
  - rewrite String.compare_antisym, C. reflexivity.
Qed.

Lemma set_insert_sorted g l : StronglySorted slt l -> StronglySorted slt (set_insert g l).
Proof.
  induction l as [|y l IH]; cbn [set_insert]; intros S; [repeat constructor|]. inv S.
  destruct (String.eqb_spec g y) as [<-|NE]; [now constructor|]. destruct (String.ltb g y) eqn:T.
  - constructor; [now constructor|]. constructor; [exact T|]. eapply Forall_impl; [|exact H2]. intros z Z. eapply slt_trans; eassumption.
  - constructor; [now apply IH|]. rewrite Forall_forall in *. intros z Z. apply set_insert_in in Z. destruct Z as [->|Z]; [now apply slt_total|now apply H2].
Qed.

Lemma sorted_set_nodup l : StronglySorted slt l -> NoDup l.
Proof.
  induction 1 as [|y l S IH F]; constructor; [|exact IH]. rewrite Forall_forall in F. intros I. apply F in I. now apply slt_neq in I.
Qed.

Definition groups_sorted (m : code_groups) : Prop := NoDup (map fst m) /\ Forall (fun e => StronglySorted slt (snd e)) m.

Lemma groups_sorted_ok m : groups_sorted m -> groups_ok m.
Proof. intros [A B]. split; [exact A|]. eapply Forall_impl; [|exact B]. intros e. apply sorted_set_nodup. Qed.

Lemma cgv_eqb_iff a b : cgv_eqb a b = true <-> a = b.
Proof.
  destruct a as [a1 a2], b as [b1 b2]. unfold cgv_eqb. cbn. rewrite andb_true_iff, !Z.eqb_eq. split; [intros [-> ->]; reflexivity|intros E; injection E; auto].
Qed.

Lemma add_group_spec c g m : groups_sorted m ->
  groups_sorted (add_group c g m) /\ (forall k, In k (map fst (add_group c g m)) <-> k = c \/ In k (map fst m)) /\
  forall c' g', in_group (add_group c g m) c' g' <-> (c' = c /\ g' = g) \/ in_group m c' g'.
Proof.
  induction m as [|[c0 gs] m IH]; intros [N F]; cbn [add_group].
  - split; [split; [constructor; [intros []|constructor]|constructor; [repeat constructor|constructor]]|]. split; [cbn; intuition|].
    intros c' g'. unfold in_group. split.
    + intros (gs & [E|[]] & I). injection E as <- <-. destruct I as [<-|[]]. auto.
    + intros [[-> ->]|(gs & [] & _)]. exists [g]. split; now left.
  - inv N. inv F. cbn [fst snd] in *. destruct (cgv_eqb c c0) eqn:E.
    + apply cgv_eqb_iff in E. subst c0. split; [|split].
      * split; [now constructor|]. constructor; [now apply set_insert_sorted|assumption].
      * cbn. intuition.
      * intros c' g'. unfold in_group. split.
        -- intros (l & [X|X] & I).
           ++ injection X as <- <-. apply set_insert_in in I. destruct I as [->|I]; [auto|]. right. exists gs. split; [now left|exact I].
           ++ right. exists l. split; [now right|exact I].
        -- intros [[-> ->]|(l & [X|X] & I)].
           ++ exists (set_insert g gs). split; [now left|]. apply set_insert_in. now left.
           ++ injection X as <- <-. exists (set_insert g gs). split; [now left|]. apply set_insert_in. now right.
           ++ exists l. split; [now right|exact I].
    + assert (c <> c0) by (intros ->; rewrite (proj2 (cgv_eqb_iff c0 c0) eq_refl) in E; discriminate).
      destruct (IH (conj H2 H4)) as ([A1 A2] & A3 & A4). split; [|split].
      * split; [cbn [map fst]; constructor; [|exact A1]|constructor; assumption]. rewrite A3. intros [<-|I]; contradiction.
      * cbn. intros k. rewrite A3. tauto.
      * intros c' g'. specialize (A4 c' g'). unfold in_group in *. split.
        -- intros (l & [X|X] & I).
           ++ right. exists l. split; [now left|exact I].
           ++ destruct (proj1 A4 (ex_intro _ l (conj X I))) as [Q|(l' & L & I')]; [now left|]. right. exists l'. split; [now right|exact I'].
        -- intros [Q|(l & [X|X] & I)].
           ++ destruct (proj2 A4 (or_introl Q)) as (l & L & I). exists l. split; [now right|exact I].
           ++ exists l. split; [now left|exact I].
           ++ destruct (proj2 A4 (or_intror (ex_intro _ l (conj X I)))) as (l' & L & I'). exists l'. split; [now right|exact I'].
Qed.

Lemma add_codes_spec p key : forall front back total y m, total = Z.of_nat (List.length front) - Z.of_nat y -> groups_sorted m ->
  exists m', add_codes (front ++ p ++ back) key total (List.length p) y m = Ok m' /\ groups_sorted m' /\
    forall c g, in_group m' c g <-> (g = key /\ In c p) \/ in_group m c g.
Proof.
  induction p as [|c p IH]; intros front back total y m T G.
  - exists m. split; [reflexivity|]. split; [exact G|]. intros c g. cbn. tauto.
  - cbn [add_codes List.length]. destruct (total + Z.of_nat y <? 0) eqn:L; [lia|]. unfold at_.
    replace (Z.to_nat (total + Z.of_nat y)) with (List.length front) by lia.
    rewrite nth_error_app2 by lia. rewrite Nat.sub_diag. cbn [nth_error app bind].
    destruct (add_group_spec c key m G) as (G1 & _ & G3).
    destruct (IH (front ++ [c]) back total (S y) (add_group c key m)) as (m' & B & S' & H); [rewrite app_length; cbn; lia|exact G1|].
    exists m'. rewrite <- !app_assoc in B. split; [exact B|]. split; [exact S'|]. intros c' g'. rewrite H, G3. cbn. intuition; subst; auto.
Qed.

Lemma build_groups_spec parts : forall keys lengths front values kf lf x total m,
  parts_of lengths values parts -> List.length keys = List.length parts ->
  List.length kf = x -> List.length lf = x -> total = Z.of_nat (List.length front) -> groups_sorted m ->
  exists m', build_groups_from (kf ++ keys) (front ++ values) (lf ++ lengths) (List.length parts) x total m = Ok m' /\ groups_sorted m' /\
    forall c g, in_group m' c g <-> listed keys parts c g \/ in_group m c g.
Proof.
  induction parts as [|p parts IH]; intros keys lengths front values kf lf x total m P L K1 K2 T G.
  - exists m. split; [reflexivity|]. split; [exact G|]. intros c g. split; [now right|]. intros [(i & q & _ & E & _)|H]; [destruct i; discriminate|exact H].
  - destruct lengths as [|len lengths]; [destruct P|]. destruct P as (Q & values' & -> & P). destruct keys as [|key keys]; [discriminate|].
    cbn [List.length build_groups_from]. unfold at_. subst x. rewrite nth_error_app2 by lia. rewrite Nat.sub_diag. cbn [nth_error bind].
    rewrite nth_error_app2 by lia. rewrite <- K2, Nat.sub_diag. cbn [nth_error bind]. subst len. rewrite Nat2Z.id.
    destruct (add_codes_spec p key front values' total 0 m) as (m1 & B1 & G1 & H1); [lia|exact G|]. rewrite B1. cbn [bind].
    destruct (IH keys lengths (front ++ p) values' (kf ++ [key]) (lf ++ [Z.of_nat (List.length p)]) (S (List.length lf)) (total + Z.of_nat (List.length p)) m1) as (m' & B & G' & H);
      try assumption; try (rewrite app_length; cbn; lia).
    { cbn in L. lia. }
    exists m'. rewrite <- !app_assoc in B. cbn [app] in B. split; [exact B|]. split; [exact G'|]. intros c g. rewrite H, H1. unfold listed. split.
    + intros [(i & q & A1 & A2 & A3)|[[-> A]|A]]; [| |now right].
      * left. exists (S i), q. auto.
      * left. exists O, p. auto.
    + intros [([|i] & q & A1 & A2 & A3)|A]; [| |now right; right].
      * cbn in A1, A2. injection A1 as <-. injection A2 as <-. right. left. auto.
      * left. exists i, q. auto.
Qed.

Lemma groups_exact keys values lengths parts : parts_of lengths values parts -> List.length keys = List.length parts ->
  exists m, build_groups keys values (Z.of_nat (List.length parts)) lengths = Ok m /\ groups_ok m /\
    forall c g, in_group m c g <-> listed keys parts c g.
Proof.
  intros P L. unfold build_groups. rewrite Nat2Z.id.
  destruct (build_groups_spec parts keys lengths [] values [] [] 0 0 [] P L eq_refl eq_refl eq_refl) as (m & B & G & H); [split; constructor|].
  exists m. split; [exact B|]. split; [now apply groups_sorted_ok|]. intros c g. rewrite H. split; [|now left].
  intros [A|(gs & [] & _)]. exact A.
Qed.

(** Each entry of a line has its own number. *)
Lemma line_ids_once mv line : sorted dbl mv -> NoDup (map (fun e => k_id (fst e)) (filter (fun e => k_line (fst e) =? line) mv)).
Proof.
  intros S. apply (sorted_filter (fun e => k_line (fst e) =? line)) in S. 
  assert (A : Forall (fun e => k_line (fst e) = line) (filter (fun e => k_line (fst e) =? line) mv)).
  { apply Forall_forall. intros e I. apply filter_In in I. lia. }
  induction S as [|e l S IH F]; cbn; [constructor|]. inv A. constructor; [|now apply IH].
  intros I. apply in_map_iff in I. destruct I as (e' & E & I). rewrite Forall_forall in F, H2. specialize (F e' I). specialize (H2 e' I).
  unfold klt in F. lia.
Qed.

(** ** What is read is determined *)

Lemma before_zero_fun s a : before_zero s a -> forall b, before_zero s b -> a = b.
Proof.
  induction 1 as [r|c r s N H IH]; intros b B; inversion B; subst; try reflexivity; try contradiction. f_equal. now apply IH.
Qed.

Lemma at_cell_fun h p a b : at_cell h p a -> at_cell h p b -> a = b.
Proof. intros (n & -> & A) (m & E & B). injection E as <-. congruence. Qed.

Lemma text_at_fun h p a b : text_at h p a -> text_at h p b -> a = b.
Proof.
  intros (x & A & X) (y & B & Y). pose proof (at_cell_fun _ _ _ _ A B) as E. injection E as <-. eapply before_zero_fun; eassumption.
Qed.

Lemma word_at_fun h p a b : word_at h p a -> word_at h p b -> a = b.
Proof. intros [A1 A2] [B1 B2]. destruct a, b. cbn in *. f_equal; eapply text_at_fun; eassumption. Qed.

Lemma forall2_fun {A B} (R : A -> B -> Prop) : (forall x a b, R x a -> R x b -> a = b) -> forall l a b, Forall2 R l a -> Forall2 R l b -> a = b.
Proof.
  intros F l. induction l as [|x l IH]; intros a b A1 B1; inversion A1; inversion B1; subst; [reflexivity|]. f_equal; [eapply F; eassumption|now apply IH].
Qed.

Lemma split_determined h ns ms ws b1 n1 t1 b2 n2 t2 :
  parts_of ms ws b1 -> parts_of ns b1 n1 -> Forall2 (Forall2 (Forall2 (word_at h))) n1 t1 ->
  parts_of ms ws b2 -> parts_of ns b2 n2 -> Forall2 (Forall2 (Forall2 (word_at h))) n2 t2 -> t1 = t2.
Proof.
  intros A1 A2 A3 B1 B2 B3. pose proof (parts_unique _ _ _ _ A1 B1). subst b2. pose proof (parts_unique _ _ _ _ A2 B2). subst n2.
  eapply (forall2_fun (Forall2 (Forall2 (word_at h)))); [|exact A3|exact B3]. intros x a b. apply forall2_fun. intros y c d. apply forall2_fun.
  intros z e f. apply word_at_fun.
Qed.

Lemma line_values (ops : list (mop dbl)) line o h o' h' : get_line_macro_values (mrun ops) line o h = (o', h') ->
  let here := filter (fun e => k_line (fst e) =? line) (mrun ops) in
  extends h h' /\ mo_length o' = Z.of_nat (List.length here) /\ mo_lines o' = mo_lines o /\
  NoDup (map (fun e => k_id (fst e)) here) /\
  (here = [] -> mo_ids o' = mo_ids o /\ mo_values o' = mo_values o) /\
  (here <> [] -> Forall (fun e => k_id (fst e) <= int_max /\ 0 <= k_id (fst e)) (mrun ops) ->
   ints_at h' (mo_ids o') (map (fun e => k_id (fst e)) here) /\ dbls_at h' (mo_values o') (map snd here)).
Proof.
  intros E. pose proof (mrun_sorted dbl ops) as S. pose proof (line_ids_once _ line S) as N.
  apply line_macros_exported in E; [|exact S]. destruct E as (A & B & C & D & F). cbv zeta. auto 8.
Qed.

Lemma large_macro : exists mv h' o', get_macro_values mv (mkMO PNull PNull PNull 0) [] = (o', h') /\
  map (fun e => k_id (fst e)) mv = [2147483648] /\ at_cell h' (mo_ids o') (CInts [Some (-2147483648)]).
Proof.
  exists [(mkKey 2147483648 1, dzero)]. eexists _, _. split; [vm_compute; reflexivity|]. split; [reflexivity|]. eexists. split; reflexivity.
Qed.
