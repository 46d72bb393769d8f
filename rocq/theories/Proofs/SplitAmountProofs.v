(** Splitting by amounts, and drilling cycles: proofs. *)
From Verif Require Import Model.Base Model.Attr Model.Double Model.Splitter Spec.Text Spec.SplitSpec.
From Verif Require Import Proofs.Tactics Proofs.TextProofs Proofs.SplitProofs.

(** ** Amounts *)

Lemma map_push {A B} (f : A -> B) cs x : map (map f) (push_back cs x) = push_back (map (map f) cs) (f x).
Proof. destruct cs as [|c cs]; cbn; auto. now rewrite map_app. Qed.

Lemma amount_cores sd rapid limit rp data : forall cs s acc w ps, cs <> [] ->
  split_amount_acc sd rapid limit rp (pieces_of rp (map (map fst) cs)) s acc data w = Ok ps ->
  exists cs', cores_acc (dec_amount sd rapid limit) cs (s, acc) (combine data w) = Ok cs' /\
    (List.length data <= List.length w)%nat /\ ps = fenced rp (map (map fst) (rev cs')).
Proof.
  induction data as [|x data IH]; intros cs s acc w ps N E; cbn [split_amount_acc combine cores_acc] in *.
  - inv E. exists cs. repeat split; [cbn; lia|]. rewrite pieces_rev, map_rev. reflexivity.
  - destruct (fs_block sd s x) as [s'|] eqn:B; cbn [bind] in E; [|discriminate].
    destruct w as [|m w]; [discriminate|]. cbn [combine cores_acc dec_amount]. rewrite B. cbn [bind].
    assert (N' : map (map fst) cs <> []) by (destruct cs; [contradiction|discriminate]).
    destruct (dltb acc (d_of_Z limit) || one_block_after_start s' || (rapid && negb (fs_active_g s' =? 0))).
    + rewrite push_fenced in E by exact N'. change x with (fst (x, m)) in E. rewrite <- map_push in E.
      apply IH in E as (cs' & C & L & ->); [|apply push_nonempty]. exists cs'. repeat split; auto. cbn. lia.
    + rewrite open_fenced in E by exact N'.
      change ([x] :: map (map fst) cs) with (map (map fst) ([(x, m)] :: cs)) in E.
      apply IH in E as (cs' & C & L & ->); [|discriminate]. exists cs'. repeat split; auto. cbn. lia.
Qed.

Lemma amount_run sd rapid limit rp data w ps : split_amount sd rapid limit rp data w = Ok ps ->
  0 < limit /\ exists cs', cores_acc (dec_amount sd rapid limit) [[]] (fs_init, dzero) (combine data w) = Ok cs' /\
    (List.length data <= List.length w)%nat /\ ps = fenced rp (map (map fst) (rev cs')) /\ partition (combine data w) (rev cs').
Proof.
  unfold split_amount. destruct (limit <=? 0) eqn:S; [discriminate|]. intro E. split; [lia|].
  rewrite (init_pieces rp) in E. change [[]] with (map (map fst) [@nil (block * dbl)]) in E at 1.
  apply amount_cores in E as (cs' & C & L & E); [|discriminate]. exists cs'. split; [auto|]. split; [auto|]. split; [auto|].
  destruct (cores_partition _ _ _ _ _ _ _ (good_init _) C) as [G Cc]. now apply good_partition.
Qed.

Lemma total_snoc l x : total (l ++ [x]) = dadd (total l) x.
Proof. unfold total. now rewrite fold_left_app. Qed.

Lemma amount_snoc p x : amount (p ++ [x]) = dadd (amount p) (snd x).
Proof. unfold amount. rewrite map_app. apply total_snoc. Qed.

Lemma combine_map {A B} (l : list A) : forall w : list B, (List.length l <= List.length w)%nat -> map fst (combine l w) = l.
Proof. induction l as [|a l IH]; intros [|b w] L; cbn in *; auto; try lia. now rewrite IH by lia. Qed.

(** ** Motion codes *)

Lemma fs_dec_motion sd s d s' : readable_dec d -> fs_was_comment s = false -> d_word d <> "/" -> fs_dec sd s d = Ok s' ->
  (forall n, g_code d n -> motion_code n -> fs_active_g s' = n /\ (drill_code n -> fs_drill s' = true)) /\
  ((forall n, g_code d n -> ~ motion_code n) -> fs_active_g s <> 0 -> fs_active_g s <> 1 ->
     fs_active_g s' = fs_active_g s /\ fs_drill s' = fs_drill s).
Proof.
  intros R H N. unfold fs_dec, fs_visit. apply String.eqb_neq in N. rewrite N, H.
  destruct (d_value d) as [v|] eqn:V.
  2:{ intro E; inv E. split; auto. intros n (_ & v & E & _). congruence. }
  destruct (String.eqb (d_word d) "G") eqn:G.
  { apply String.eqb_eq in G. destruct (R v (or_introl G) V) as (n & Dn & B).
    rewrite (stoi_ok _ _ Dn B). cbn [bind].
    assert (U : forall n', g_code d n' -> n' = n).
    { intros n' (_ & v' & V' & D'). rewrite V in V'. inv V'. now rewrite (denotes_fun _ _ _ Dn D'). }
    assert (GN : g_code d n) by (split; eauto).
    destruct ((0 <=? n) && (n <=? 3)) eqn:E1.
    { intro X; inv X. cbn [fs_active_g fs_drill]. split.
      - intros n' Gn _. rewrite (U n' Gn). split; auto. unfold drill_code. cbn [In]. lia.
      - intros NM. exfalso. apply (NM n GN). unfold motion_code. cbn [In]. lia. }
    unfold is_drill_cycle, is_drill_cycle_qparam. cbn [existsb].
    match goal with |- context [if ?c then Ok (mkFS _ _ true _ _) else _] => destruct c eqn:E2 end.
    { intro X; inv X. cbn [fs_active_g fs_drill]. split.
      - intros n' Gn _. rewrite (U n' Gn). split; auto.
      - intros NM. exfalso. apply (NM n GN). unfold motion_code. cbn [In]. lia. }
    match goal with |- context [if ?c then Ok (mkFS _ _ false _ _) else _] => destruct c eqn:E3 end.
    { intro X; inv X. cbn [fs_active_g fs_drill]. split.
      - intros n' Gn _. rewrite (U n' Gn). split; auto. unfold drill_code. cbn [In]. lia.
      - intros NM A0 A1. assert (n <> 80) by (intros ->; apply (NM 80 GN); unfold motion_code; cbn [In]; lia). lia. }
    intro X; inv X. split; auto.
    intros n' Gn M. rewrite (U n' Gn) in M. unfold motion_code in M. cbn [In] in M. lia. }
  assert (NG : forall n, ~ g_code d n).
  { intros n (W & _). rewrite W in G. discriminate. }
  destruct (String.eqb (d_word d) "M").
  { destruct (stoi v); cbn [bind]; bdestr; intros X; inv X; (split; [intros n Gn; exfalso; exact (NG n Gn)|auto]). }
  bdestr; intros X; inv X; (split; [intros n Gn; exfalso; exact (NG n Gn)|auto]).
Qed.

Lemma fold_still sd l : forall s s', Forall readable_dec l -> fs_was_comment s = false -> Forall (fun d => d_word d <> "/") l ->
  (forall d m, In d l -> g_code d m -> ~ motion_code m) -> fs_active_g s <> 0 -> fs_active_g s <> 1 ->
  foldM (fs_dec sd) s l = Ok s' -> fs_active_g s' = fs_active_g s /\ fs_drill s' = fs_drill s.
Proof.
  induction l as [|d l IH]; intros s s' R H W NM A0 A1 E; cbn [foldM] in E; [now inv E|].
  destruct (fs_dec sd s d) as [s1|] eqn:F; [|discriminate]. inv R. inv W.
  pose proof (fs_dec_comment _ _ _ _ H H4 F) as H1.
  apply fs_dec_motion in F as [_ F]; auto. destruct F as [F1 F2]; auto; [intros n; apply NM; now left|].
  assert (NM' : forall d m, In d l -> g_code d m -> ~ motion_code m) by (intros x m I; apply NM; now right).
  apply IH in E as [E1 E2]; auto; try congruence. split; congruence.
Qed.

Lemma foldM_app {A B} (f : A -> B -> res A) l1 l2 : forall s, foldM f s (l1 ++ l2) = (do s1 <- foldM f s l1; foldM f s1 l2).
Proof. induction l1 as [|x l1 IH]; intro s; cbn; auto. destruct (f s x); cbn; auto. Qed.

Lemma fold_comment sd l : forall s s', fs_was_comment s = false -> Forall (fun d => d_word d <> "/") l ->
  foldM (fs_dec sd) s l = Ok s' -> fs_was_comment s' = false.
Proof.
  induction l as [|d l IH]; intros s s' H W E; cbn [foldM] in E; [now inv E|].
  destruct (fs_dec sd s d) as [s1|] eqn:F; [|discriminate]. inv W. eapply IH; [eapply fs_dec_comment|..]; eauto.
Qed.

Lemma fold_last sd l : forall s s' n, Forall readable_dec l -> fs_was_comment s = false -> Forall (fun d => d_word d <> "/") l ->
  last_motion l n -> n <> 0 -> n <> 1 -> foldM (fs_dec sd) s l = Ok s' ->
  fs_active_g s' = n /\ (drill_code n -> fs_drill s' = true).
Proof.
  intros s s' n R H W (l1 & d & l2 & -> & G & M & NM) N0 N1 E.
  apply Forall_app in R as [R1 R2]. inv R2. apply Forall_app in W as [W1 W2]. inv W2.
  rewrite foldM_app in E. destruct (foldM (fs_dec sd) s l1) as [s1|] eqn:E1; cbn [bind] in E; [|discriminate].
  pose proof (fold_comment _ _ _ _ H W1 E1) as C1. cbn [foldM] in E. destruct (fs_dec sd s1 d) as [s2|] eqn:E2; [|discriminate].
  pose proof (fs_dec_comment _ _ _ _ C1 H4 E2) as C2.
  apply fs_dec_motion in E2 as [E2 _]; auto. destruct (E2 n G M) as [A D].
  apply fold_still in E as [A' D']; auto; try congruence. split; [congruence|]. intro Q. rewrite D'. auto.
Qed.

Lemma block_fold sd s b s' : readable_block b -> fs_block sd s b = Ok s' ->
  exists s2, foldM (fs_dec sd) (fs_reset s) (effective b) = Ok s2 /\ fs_active_g s' = fs_active_g s2 /\ fs_drill s' = fs_drill s2 /\
    Forall readable_dec (effective b) /\ Forall (fun d => d_word d <> "/") (effective b).
Proof.
  intros R E. pose proof (fs_block_effective sd s b) as P. rewrite E in P.
  destruct (foldM (fs_dec sd) (fs_reset s) (effective b)) as [s2|] eqn:F; [|contradiction].
  destruct P as (P1 & P2 & _). exists s2. repeat split; auto.
  - now apply readable_effective.
  - apply Forall_forall. intros d I. now apply effective_in in I.
Qed.

Lemma motion_cases l l' n : last_motion (l ++ l') n ->
  last_motion l' n \/ (last_motion l n /\ forall d m, In d l' -> g_code d m -> ~ motion_code m).
Proof.
  intros (l1 & d & l2 & E & G & M & NM).
  assert (K : (exists x, l = l1 ++ d :: x /\ l2 = x ++ l')%list \/ (exists x, l1 = l ++ x /\ l' = x ++ d :: l2)%list).
  { revert l1 E. induction l as [|a l IH]; intros l1 E; cbn in *.
    - right. exists l1. auto.
    - destruct l1 as [|b l1]; cbn in E; inv E.
      + left. exists l. auto.
      + destruct (IH l1 H1) as [(x & -> & ->)|(x & -> & ->)]; [left|right]; exists x; auto. }
  destruct K as [(x & -> & ->)|(x & -> & ->)].
  - assert (X1 : forall d' m, In d' x -> g_code d' m -> ~ motion_code m) by (intros d' m I; apply NM; apply in_app_iff; auto).
    assert (X2 : forall d' m, In d' l' -> g_code d' m -> ~ motion_code m) by (intros d' m I; apply NM; apply in_app_iff; auto).
    right. split; [exists l1, d, x|]; auto.
  - left. exists x, d, l2. auto.
Qed.

Lemma state_drill sd pre : forall s0 s n, Forall readable_block pre -> foldM (fs_block sd) s0 pre = Ok s ->
  last_motion (List.concat (map effective pre)) n -> drill_code n -> fs_drill s = true /\ (fs_active_g s = n \/ fs_active_g s = -1).
Proof.
  induction pre as [|b pre IH] using rev_ind; intros s0 s n R E L D; [destruct L as ([|? ?] & ? & ? & Q & _); discriminate|].
  rewrite map_app, concat_app in L. cbn [map List.concat] in L. rewrite app_nil_r in L.
  rewrite foldM_app in E. destruct (foldM (fs_block sd) s0 pre) as [s1|] eqn:E1; cbn [bind foldM] in E; [|discriminate].
  destruct (fs_block sd s1 b) as [s2|] eqn:B; [|discriminate]. inv E. apply Forall_app in R as [R1 R2]. inv R2.
  destruct (block_fold _ _ _ _ H1 B) as (s3 & F & -> & -> & RD & NS).
  assert (n <> 0 /\ n <> 1) as [N0 N1] by (unfold drill_code in D; cbn [In] in D; lia).
  apply motion_cases in L as [L|[L NM]].
  - eapply fold_last in F as [A Q]; eauto.
  - destruct (IH _ _ _ R1 E1 L D) as [Dr A].
    assert (RA : fs_active_g (fs_reset s1) = -1).
    { cbn. destruct A as [-> | ->]; [|reflexivity]. unfold drill_code in D. cbn [In] in D. destruct (3 <? n) eqn:Q; auto. lia. }
    apply fold_still in F as [F1 F2]; auto; try (rewrite RA; discriminate). rewrite F1, F2. split; auto.
Qed.

Lemma cycle_stays sd s0 pre s1 b s' : Forall readable_block pre -> readable_block b ->
  foldM (fs_block sd) s0 pre = Ok s1 -> fs_block sd s1 b = Ok s' -> cycle_goes_on pre b -> one_block_after_start s' = true.
Proof.
  intros R Rb E B C. destruct (block_fold _ _ _ _ Rb B) as (s3 & F & A & Dr & RD & NS). unfold one_block_after_start. rewrite A, Dr.
  destruct C as [(n & L & D & NM)|L].
  - destruct (state_drill _ _ _ _ _ R E L D) as [D1 A1].
    assert (RA : fs_active_g (fs_reset s1) = -1).
    { cbn. destruct A1 as [-> | ->]; [|reflexivity]. unfold drill_code in D. cbn [In] in D. destruct (3 <? n) eqn:Q; auto. lia. }
    apply fold_still in F as [F1 F2]; auto; try (rewrite RA; discriminate). rewrite F1, F2, RA. cbn. now rewrite D1.
  - eapply fold_last in F as [-> _]; eauto; try discriminate. now rewrite orb_true_r.
Qed.

(** The other direction. *)
Definition no_motion (l : list decimal) : Prop := forall d m, In d l -> g_code d m -> ~ motion_code m.

Lemma last_motion_snoc l d n : last_motion l n -> (forall m, g_code d m -> ~ motion_code m) -> last_motion (l ++ [d]) n.
Proof.
  intros (l1 & x & l2 & -> & G & M & NM) H. exists l1, x, (l2 ++ [d])%list. rewrite <- app_assoc.
  split; [reflexivity|]. split; [exact G|]. split; [exact M|]. intros d' m I. apply in_app_iff in I as [I|[<-|[]]]; eauto.
Qed.

Lemma last_motion_new l d n : g_code d n -> motion_code n -> last_motion (l ++ [d]) n.
Proof. intros G M. exists l, d, []. split; [|split; [|split]]; auto; intros d' m []. Qed.

(** [l]: everything so far; [b]: what has been seen of the block. *)
Definition cinv (l b : list decimal) (s : fs_state) : Prop :=
  (fs_drill s = true -> ~ (0 <= fs_active_g s <= 3) -> exists n, drill_code n /\ last_motion l n) /\
  (fs_active_g s = -1 -> no_motion b) /\ (fs_active_g s = 80 -> last_motion b 80).

Lemma cinv_other l b s s' d : (forall n, g_code d n -> ~ motion_code n) -> fs_active_g s' = fs_active_g s -> fs_drill s' = fs_drill s ->
  cinv l b s -> cinv (l ++ [d]) (b ++ [d]) s'.
Proof.
  intros H A D (C1 & C2 & C3). unfold cinv. rewrite A, D. split; [|split].
  - intros X Y. destruct (C1 X Y) as (n & N1 & N2). exists n. split; auto. now apply last_motion_snoc.
  - intros X d' m I. apply in_app_iff in I as [I|[<-|[]]]; [now apply C2|auto].
  - intro X. apply last_motion_snoc; auto.
Qed.

Lemma fs_dec_cinv sd l b s d s' : readable_dec d -> fs_was_comment s = false -> d_word d <> "/" -> fs_dec sd s d = Ok s' ->
  cinv l b s -> cinv (l ++ [d]) (b ++ [d]) s'.
Proof.
  intros R H N. unfold fs_dec, fs_visit. apply String.eqb_neq in N. rewrite N, H.
  destruct (d_value d) as [v|] eqn:V.
  2:{ intro E; inv E. apply cinv_other; auto. intros n (_ & v & E & _). congruence. }
  destruct (String.eqb (d_word d) "G") eqn:G.
  { apply String.eqb_eq in G. destruct (R v (or_introl G) V) as (n & Dn & B).
    rewrite (stoi_ok _ _ Dn B). cbn [bind].
    assert (U : forall n', g_code d n' -> n' = n).
    { intros n' (_ & v' & V' & D'). rewrite V in V'. inv V'. now rewrite (denotes_fun _ _ _ Dn D'). }
    assert (GN : g_code d n) by (split; eauto). pose proof (denotes_nonneg _ _ Dn) as Nn.
    destruct ((0 <=? n) && (n <=? 3)) eqn:E1.
    { intro X; inv X. intros _. split; [|split]; cbn [fs_active_g fs_drill]; lia. }
    unfold is_drill_cycle, is_drill_cycle_qparam. cbn [existsb].
    match goal with |- context [if ?c then Ok (mkFS _ _ true _ _) else _] => destruct c eqn:E2 end.
    { intro X; inv X. intros _. split; [|split]; cbn [fs_active_g fs_drill]; try lia.
      - intros _ _. exists n. split; [unfold drill_code; cbn [In]; lia|]. apply last_motion_new; auto. unfold motion_code. cbn [In]. lia.  }
    match goal with |- context [if ?c then Ok (mkFS _ _ false _ _) else _] => destruct c eqn:E3 end.
    { intro X; inv X. intros _. split; [|split]; cbn [fs_active_g fs_drill]; try lia; try discriminate.
      intros ->. apply last_motion_new; auto. unfold motion_code. cbn [In]. lia. }
    intro X; inv X. apply cinv_other; auto. intros n' Gn M. rewrite (U n' Gn) in M. unfold motion_code in M. cbn [In] in M. lia. }
  assert (NG : forall n, g_code d n -> ~ motion_code n).
  { intros n (W & _). rewrite W in G. discriminate. }
  destruct (String.eqb (d_word d) "M").
  { destruct (stoi v); cbn [bind]; bdestr; intros X; inv X; apply cinv_other; auto. }
  bdestr; intros X; inv X; apply cinv_other; auto.
Qed.

Lemma fold_cinv sd l' : forall l b s s', Forall readable_dec l' -> fs_was_comment s = false -> Forall (fun d => d_word d <> "/") l' ->
  foldM (fs_dec sd) s l' = Ok s' -> cinv l b s -> cinv (l ++ l') (b ++ l') s'.
Proof.
  induction l' as [|d l' IH]; intros l b s s' R H W E C; cbn [foldM] in E.
  - inv E. now rewrite !app_nil_r.
  - destruct (fs_dec sd s d) as [s1|] eqn:F; [|discriminate]. inv R. inv W.
    pose proof (fs_dec_comment _ _ _ _ H H4 F) as H1.
    replace (l ++ d :: l')%list with ((l ++ [d]) ++ l')%list by now rewrite <- app_assoc.
    replace (b ++ d :: l')%list with ((b ++ [d]) ++ l')%list by now rewrite <- app_assoc.
    apply (IH _ _ s1 s'); try assumption. exact (fs_dec_cinv _ _ _ _ _ _ H2 H H4 F C).
Qed.

Lemma block_cinv sd l b0 s b s' : readable_block b -> fs_block sd s b = Ok s' -> cinv l b0 s ->
  cinv (l ++ effective b) (effective b) s'.
Proof.
  intros R B (C1 & _). destruct (block_fold _ _ _ _ R B) as (s3 & F & A & Dr & RD & NS).
  apply fold_cinv with (l := l) (b := []) in F; auto.
  - unfold cinv. rewrite A, Dr. exact F.
  - split; [|split]; cbn [fs_reset fs_active_g fs_drill].
    + intros X Y. apply C1; auto. destruct (3 <? fs_active_g s) eqn:Q; lia.
    + intros _ d m [].
    + destruct (3 <? fs_active_g s) eqn:Q; lia.
Qed.

Lemma state_cinv sd pre : forall l b0 s s', Forall readable_block pre -> foldM (fs_block sd) s pre = Ok s' -> cinv l b0 s ->
  exists b1, cinv (l ++ List.concat (map effective pre)) b1 s'.
Proof.
  induction pre as [|b pre IH]; intros l b0 s s' R E C; cbn [foldM map List.concat] in *.
  - inv E. rewrite app_nil_r. eauto.
  - destruct (fs_block sd s b) as [s1|] eqn:B; [|discriminate]. inv R. rewrite app_assoc. eapply IH; eauto. eapply block_cinv; eauto.
Qed.

Lemma stays_cycle sd pre s1 b s' : Forall readable_block pre -> readable_block b ->
  foldM (fs_block sd) fs_init pre = Ok s1 -> fs_block sd s1 b = Ok s' -> one_block_after_start s' = true -> cycle_goes_on pre b.
Proof.
  intros R Rb E B O. destruct (state_cinv _ _ [] [] _ _ R E) as [b1 C].
  { split; [|split]; try discriminate. intros _ d m []. }
  destruct (block_cinv _ _ _ _ _ _ Rb B C) as (C1 & C2 & C3). unfold one_block_after_start in O.
  apply orb_prop in O as [O|O]; [|right; apply C3; lia].
  apply andb_prop in O as [O1 O2]. apply Z.eqb_eq in O1. destruct C1 as (n & N1 & N2); auto; [lia|].
  left. exists n. specialize (C2 O1). cbn [app] in N2. apply motion_cases in N2 as [(l1 & d & l2 & Q & G & M & _)|[L _]].
  - exfalso. apply (C2 d n); auto. rewrite Q. apply in_app_iff. right. now left.
  - repeat split; auto.
Qed.

(** Rapid traverse. *)
Lemma rapid_dec sd s d s' : sd_rapid_traverse_cancel_cycle sd = false -> readable_dec d -> fs_was_comment s = false -> d_word d <> "/" ->
  fs_dec sd s d = Ok s' -> fs_active_g s = 0 -> no_motion [d] -> fs_active_g s' = 0.
Proof.
  intros RC R H N. unfold fs_dec, fs_visit. apply String.eqb_neq in N. rewrite N, H, RC.
  destruct (d_value d) as [v|] eqn:V; [|intro E; inv E; auto].
  destruct (String.eqb (d_word d) "G") eqn:G.
  { apply String.eqb_eq in G. destruct (R v (or_introl G) V) as (n & Dn & B). rewrite (stoi_ok _ _ Dn B). cbn [bind].
    assert (GN : g_code d n) by (split; eauto).
    intros E A NM. specialize (NM d n (or_introl eq_refl) GN). unfold motion_code in NM. cbn [In] in NM.
    rewrite A in E. cbn [Z.eqb andb orb] in E. unfold is_drill_cycle, is_drill_cycle_qparam in E. cbn [existsb] in E.
    destruct ((0 <=? n) && (n <=? 3)) eqn:E1; [exfalso; lia|].
    match type of E with context [if ?c then Ok (mkFS _ _ true _ _) else _] => destruct c eqn:E2 end; [exfalso; lia|].
    match type of E with context [if ?c then Ok (mkFS _ _ false _ _) else _] => destruct c eqn:E3 end; [exfalso; lia|].
    now inv E. }
  destruct (String.eqb (d_word d) "M").
  { destruct (stoi v); cbn [bind]; bdestr; intros X; inv X; auto. }
  bdestr; intros X; inv X; auto.
Qed.

Lemma rapid_fold sd l : sd_rapid_traverse_cancel_cycle sd = false -> forall s s', Forall readable_dec l -> fs_was_comment s = false ->
  Forall (fun d => d_word d <> "/") l -> foldM (fs_dec sd) s l = Ok s' -> fs_active_g s = 0 -> no_motion l -> fs_active_g s' = 0.
Proof.
  intro RC. induction l as [|d l IH]; intros s s' R H W E A NM; cbn [foldM] in E; [now inv E|].
  destruct (fs_dec sd s d) as [s1|] eqn:F; [|discriminate]. inv R. inv W.
  pose proof (fs_dec_comment _ _ _ _ H H4 F) as H1.
  assert (N1 : no_motion [d]) by (intros x m [<-|[]]; apply NM; now left).
  assert (N2 : no_motion l) by (intros x m I; apply NM; now right).
  apply IH in E; auto. exact (rapid_dec _ _ _ _ RC H2 H H4 F A N1).
Qed.

Lemma rapid_last sd l s s' : sd_rapid_traverse_cancel_cycle sd = false -> Forall readable_dec l -> fs_was_comment s = false ->
  Forall (fun d => d_word d <> "/") l -> last_motion l 0 -> foldM (fs_dec sd) s l = Ok s' -> fs_active_g s' = 0.
Proof.
  intros RC R H W (l1 & d & l2 & -> & G & M & NM) E.
  apply Forall_app in R as [R1 R2]. inv R2. apply Forall_app in W as [W1 W2]. inv W2.
  rewrite foldM_app in E. destruct (foldM (fs_dec sd) s l1) as [s1|] eqn:E1; cbn [bind] in E; [|discriminate].
  pose proof (fold_comment _ _ _ _ H W1 E1) as C1. cbn [foldM] in E. destruct (fs_dec sd s1 d) as [s2|] eqn:E2; [|discriminate].
  pose proof (fs_dec_comment _ _ _ _ C1 H4 E2) as C2.
  apply fs_dec_motion in E2 as [E2 _]; auto. destruct (E2 0 G M) as [A _]. eapply rapid_fold; eauto.
Qed.

Lemma in_rapid_last p : in_rapid p -> last_motion (List.concat (map effective p)) 0.
Proof. intros (l1 & d & l2 & E & G & NM). exists l1, d, l2. split; [|split; [|split]]; auto; now left. Qed.

Lemma state_in_rapid sd pre : sd_rapid_traverse_cancel_cycle sd = false -> forall s0 s, Forall readable_block pre ->
  foldM (fs_block sd) s0 pre = Ok s -> in_rapid pre -> fs_active_g s = 0.
Proof.
  intro RC. induction pre as [|b pre IH] using rev_ind; intros s0 s R E L; [destruct L as ([|? ?] & ? & ? & Q & _); discriminate|].
  apply in_rapid_last in L. rewrite map_app, concat_app in L. cbn [map List.concat] in L. rewrite app_nil_r in L.
  rewrite foldM_app in E. destruct (foldM (fs_block sd) s0 pre) as [s1|] eqn:E1; cbn [bind foldM] in E; [|discriminate].
  destruct (fs_block sd s1 b) as [s2|] eqn:B; [|discriminate]. inv E. apply Forall_app in R as [R1 R2]. inv R2.
  destruct (block_fold _ _ _ _ H1 B) as (s3 & F & -> & _ & RD & NS).
  apply motion_cases in L as [L|[(l1 & d & l2 & L & G & _ & NM') NM]].
  - eapply rapid_last in F; eauto.
  - assert (A0 : fs_active_g s1 = 0) by (apply (IH s0 s1); auto; exists l1, d, l2; auto).
    refine (rapid_fold _ _ RC _ _ RD _ NS F _ NM); [reflexivity|]. cbn [fs_reset fs_active_g]. now rewrite A0.
Qed.

Lemma rapid_state sd pre s : Forall readable_block pre -> foldM (fs_block sd) fs_init pre = Ok s -> fs_active_g s = 0 -> in_rapid pre.
Proof.
  assert (K : forall pre l s s1, Forall readable_block pre -> (fs_active_g s = 0 -> in_rapid_l l) ->
     foldM (fs_block sd) s pre = Ok s1 -> fs_active_g s1 = 0 -> in_rapid_l (l ++ List.concat (map effective pre))).
  { clear. induction pre as [|x pre IH]; intros l s s1 R A E; cbn [foldM map List.concat] in *.
    - inv E. now rewrite app_nil_r.
    - destruct (fs_block sd s x) as [s'|] eqn:B; [|discriminate]. inv R. rewrite app_assoc. eapply IH; [assumption| |exact E]. eapply block_rapid; eauto. }
  intros R E. apply (K pre [] fs_init s R); [cbn; discriminate|exact E].
Qed.

(** ** Cuts *)
Section Cuts.
Context {A S : Type} (dec : S -> A -> res (bool * S)) (ok : A -> Prop).
Variable I : list A -> list A -> S -> Prop.
Variables P Q : list A -> list A -> A -> Prop.
Hypothesis push : forall pre cur s x s', ok x -> I pre cur s -> dec s x = Ok (false, s') -> I pre (cur ++ [x]) s' /\ Q pre cur x.
Hypothesis open : forall pre cur s x s', ok x -> I pre cur s -> dec s x = Ok (true, s') -> I (pre ++ cur) [x] s' /\ P pre cur x.

(** Newest first. *)
Definition all_cuts (cs : list (list A)) : Prop :=
  (forall l2 part x r l1, cs = (l2 ++ (x :: r) :: part :: l1)%list -> P (List.concat (rev l1)) part x) /\
  (forall l2 part x r l1, cs = (l2 ++ (part ++ x :: r) :: l1)%list -> part <> [] -> Q (List.concat (rev l1)) part x).

Lemma cuts_acc data : forall c rest s cs', Forall ok data -> I (List.concat (rev rest)) c s -> all_cuts (c :: rest) ->
  (rest = [] \/ c <> []) -> cores_acc dec (c :: rest) s data = Ok cs' -> all_cuts cs'.
Proof using push open.
  induction data as [|x data IH]; intros c rest s cs' OK Iv [AP AQ] NE E; cbn [cores_acc] in E; [inv E; split; auto|].
  inv OK. destruct (dec s x) as [[[|] s']|] eqn:D; [| |discriminate].
  - destruct (open _ _ _ _ _ H1 Iv D) as [Iv' Px]. apply IH in E; auto.
    + cbn [rev]. rewrite concat_snoc; auto.
    + split.
      * intros [|y l2] part z r l1 Q0; cbn in Q0; inv Q0; [exact Px|]. eapply AP; eauto.
      * intros [|y l2] part z r l1 Q0 N; cbn in Q0; inv Q0; [|eapply AQ; eauto].
        destruct part as [|p part]; [contradiction|]. destruct part; discriminate.
    + right. discriminate.
  - destruct (push _ _ _ _ _ H1 Iv D) as [Iv' Qx]. cbn [push_back] in E. apply IH in E; auto.
    + split.
      * intros [|y l2] part z r l1 Q0; cbn in Q0.
        -- inv Q0. destruct NE as [NE|NE]; [discriminate|]. destruct c as [|c0 c]; [contradiction|].
           cbn in H0. inv H0. apply (AP [] part z c l1). reflexivity.
        -- inv Q0. apply (AP (c :: l2) part z r l1). reflexivity.
      * intros [|y l2] part z r l1 Q0 N; cbn in Q0; inv Q0; [|apply (AQ (c :: l2) part z r l1); auto].
        destruct r as [|z' r].
        -- apply app_inj_tail in H0 as [-> ->]. exact Qx.
        -- destruct (exists_last (l := z' :: r)) as (r' & t & Er); [discriminate|]. rewrite Er in H0.
           rewrite app_comm_cons, app_assoc in H0. apply app_inj_tail in H0 as [-> _].
           apply (AQ [] part z r' l1); auto.
    + right. destruct c; discriminate.
Qed.

Lemma cuts_run data s cs' : Forall ok data -> I [] [] s -> cores_acc dec [[]] s data = Ok cs' ->
  (forall ps1 part x r ps2, rev cs' = (ps1 ++ part :: (x :: r) :: ps2)%list -> P (List.concat ps1) part x) /\
  (forall ps1 part x r ps2, rev cs' = (ps1 ++ (part ++ x :: r) :: ps2)%list -> part <> [] -> Q (List.concat ps1) part x).
Proof using push open.
  intros OK Iv E. apply cuts_acc in E as [AP AQ]; auto.
  - split.
    + intros ps1 part x r ps2 R. rewrite <- (rev_involutive ps1). apply (AP (rev ps2) part x r (rev ps1)).
      rewrite <- (rev_involutive cs'), R, rev_app_distr. cbn. now rewrite <- !app_assoc.
    + intros ps1 part x r ps2 R. rewrite <- (rev_involutive ps1). apply (AQ (rev ps2) part x r (rev ps1)).
      rewrite <- (rev_involutive cs'), R, rev_app_distr. cbn. now rewrite <- !app_assoc.
  - split.
    + intros [|y [|? ?]] part x r l1 Q0; discriminate.
    + intros [|y [|? ?]] [|p part] x r l1 Q0; try discriminate; contradiction.
Qed.
End Cuts.

Definition rapid_known (sd : split_defaults) (rapid : bool) : Prop := rapid = true -> sd_rapid_traverse_cancel_cycle sd = false.

Lemma fold_snoc sd l x s s' : foldM (fs_block sd) fs_init l = Ok s -> fs_block sd s x = Ok s' -> foldM (fs_block sd) fs_init (l ++ [x]) = Ok s'.
Proof. intros E B. rewrite foldM_app, E. cbn [bind foldM]. rewrite B. reflexivity. Qed.

Lemma may_cases sd rapid pre x s s' : Forall readable_block pre -> readable_block x -> foldM (fs_block sd) fs_init pre = Ok s -> fs_block sd s x = Ok s' ->
  (one_block_after_start s' || (rapid && negb (fs_active_g s' =? 0)) = false ->
     ~ cycle_goes_on pre x /\ (rapid = true -> in_rapid (pre ++ [x]))) /\
  (rapid_known sd rapid -> one_block_after_start s' || (rapid && negb (fs_active_g s' =? 0)) = true ->
     ~ (~ cycle_goes_on pre x /\ (rapid = true -> in_rapid (pre ++ [x])))).
Proof.
  intros R Rx E B. pose proof (fold_snoc _ _ _ _ _ E B) as E'.
  assert (R' : Forall readable_block (pre ++ [x])) by (apply Forall_app; auto). split.
  - intro O. apply orb_false_iff in O as [O1 O2]. split.
    + intro C. rewrite (cycle_stays _ _ _ _ _ _ R Rx E B C) in O1. discriminate.
    + intros ->. apply (rapid_state _ _ _ R' E'). cbn [andb] in O2. lia.
  - intros K O [C1 C2]. apply orb_prop in O as [O|O]; [apply C1; eapply stays_cycle; eauto|].
    apply andb_prop in O as [-> O]. rewrite (state_in_rapid _ _ (K eq_refl) _ _ R' E' (C2 eq_refl)) in O. discriminate.
Qed.

Lemma blocks_cuts sd rapid step rp data ps : Forall readable_block data -> split_blocks sd rapid step rp data = Ok ps ->
  exists parts, partition data parts /\ ps = fenced rp parts /\ cuts_only (enough_blocks step rapid) parts /\
    (rapid_known sd rapid -> cuts_all (enough_blocks step rapid) parts).
Proof.
  intro R. unfold split_blocks. destruct (step <=? 0) eqn:S; [discriminate|].
  rewrite (init_pieces rp), split_blocks_cores by discriminate.
  destruct (cores_acc _ [[]] _ data) as [cs'|e] eqn:C; cbn [res_map]; intro E; inv E.
  destruct (cores_partition _ _ _ _ _ _ _ (good_init _) C) as [G Cc].
  exists (rev cs'). split; [now apply good_partition|]. split; [reflexivity|].
  apply cuts_run with (ok := readable_block)
    (I := fun pre cur st => Forall readable_block (pre ++ cur) /\ foldM (fs_block sd) fs_init (pre ++ cur) = Ok (fst st) /\ snd st = Z.of_nat (List.length cur))
    (P := enough_blocks step rapid) (Q := fun pre cur x => rapid_known sd rapid -> ~ enough_blocks step rapid pre cur x) in C; auto.
  - destruct C as [C1 C2]. split; [exact C1|]. intros K ps1 part x r ps2 E N. eapply C2; eauto.
  - intros pre cur [s cnt] x s' Rx (Rp & F & L) D. cbn [dec_blocks fst snd] in *.
    destruct (fs_block sd s x) as [s1|] eqn:B; cbn [bind] in D; [|discriminate].
    destruct (may_cases sd rapid _ _ _ _ Rp Rx F B) as [_ M].
    rewrite <- orb_assoc in D. destruct ((cnt <? step) || _) eqn:O; inv D. cbn [fst snd]. split; [split; [|split]|].
    + rewrite app_assoc. apply Forall_app. auto.
    + rewrite app_assoc. eapply fold_snoc; eauto.
    + rewrite app_length. cbn. lia.
    + intros K (L1 & C1 & C2). rewrite app_assoc in C2. apply orb_prop in O as [O|O]; [lia|]. exact (M K O (conj C1 C2)).
  - intros pre cur [s cnt] x s' Rx (Rp & F & L) D. cbn [dec_blocks fst snd] in *.
    destruct (fs_block sd s x) as [s1|] eqn:B; cbn [bind] in D; [|discriminate].
    destruct (may_cases sd rapid _ _ _ _ Rp Rx F B) as [M _].
    rewrite <- orb_assoc in D. destruct ((cnt <? step) || _) eqn:O; inv D. cbn [fst snd]. split; [split; [|split]|].
    + apply Forall_app. auto.
    + eapply fold_snoc; eauto.
    + reflexivity.
    + apply orb_false_iff in O as [O1 O2]. destruct (M O2) as [C1 C2]. split; [lia|]. split; [exact C1|]. now rewrite app_assoc.
  - cbn. auto.
Qed.

Lemma amount_cuts sd rapid limit rp data w ps : Forall readable_block data -> split_amount sd rapid limit rp data w = Ok ps ->
  exists parts, partition (combine data w) parts /\ (List.length data <= List.length w)%nat /\ ps = fenced rp (map (map fst) parts) /\
    cuts_only (enough_amount limit rapid) parts /\
    (rapid_known sd rapid -> cuts_all (enough_amount limit rapid) parts).
Proof.
  intros R E. apply amount_run in E as (_ & cs' & C & L & -> & P). exists (rev cs'). split; auto. split; auto. split; auto.
  apply cuts_run with (ok := fun x => readable_block (fst x))
    (I := fun pre cur st => Forall readable_block (map fst (pre ++ cur)) /\ foldM (fs_block sd) fs_init (map fst (pre ++ cur)) = Ok (fst st) /\ snd st = amount cur)
    (P := enough_amount limit rapid) (Q := fun pre cur x => rapid_known sd rapid -> ~ enough_amount limit rapid pre cur x) in C; auto.
  - destruct C as [C1 C2]. split; [exact C1|]. intros K ps1 part x r ps2 E N. eapply C2; eauto.
  - intros pre cur [s acc] [x m] s' Rx (Rp & F & A) D. cbn [dec_amount fst snd] in *.
    destruct (fs_block sd s x) as [s1|] eqn:B; cbn [bind] in D; [|discriminate].
    destruct (may_cases sd rapid _ _ _ _ Rp Rx F B) as [_ M].
    rewrite <- orb_assoc in D. destruct (dltb acc _ || _) eqn:O; inv D. cbn [fst snd]. split; [split; [|split]|].
    + rewrite app_assoc, map_app. apply Forall_app. split; [auto|]. repeat constructor. exact Rx.
    + rewrite app_assoc, map_app. eapply fold_snoc; eauto.
    + now rewrite amount_snoc.
    + intros K (L1 & C1 & C2). rewrite app_assoc, map_app in C2. apply orb_prop in O as [O|O]; [congruence|]. exact (M K O (conj C1 C2)).
  - intros pre cur [s acc] [x m] s' Rx (Rp & F & A) D. cbn [dec_amount fst snd] in *.
    destruct (fs_block sd s x) as [s1|] eqn:B; cbn [bind] in D; [|discriminate].
    destruct (may_cases sd rapid _ _ _ _ Rp Rx F B) as [M _].
    rewrite <- orb_assoc in D. destruct (dltb acc _ || _) eqn:O; inv D. cbn [fst snd]. split; [split; [|split]|].
    + rewrite map_app. apply Forall_app. split; [auto|]. repeat constructor. exact Rx.
    + rewrite map_app. eapply fold_snoc; eauto.
    + reflexivity.
    + apply orb_false_iff in O as [O1 O2]. destruct (M O2) as [C1 C2]. split; [exact O1|]. split; [exact C1|]. now rewrite app_assoc, map_app.
  - clear -R. revert w. induction R; intros [|m w]; cbn; auto.
  - cbn. auto.
Qed.
