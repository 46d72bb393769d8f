From Verif Require Import Model.Base Model.Attr Model.Double Model.Splitter.
From Verif Require Import Spec.SplitSpec Proofs.Tactics Proofs.TextProofs.

(** ** Fencing *)

Lemma fence_rest_snoc {A} (r : A) cs c : fence_rest r (cs ++ [c])%list =
  (map (fun x => r :: x ++ [r]) cs ++ [r :: c])%list.
Proof.
  induction cs as [|a cs IH]; [reflexivity|]. cbn [app map].
  rewrite <- IH. destruct cs; reflexivity.
Qed.

Lemma fenced_one {A} (rp : option A) c : fenced rp [c] = [c].
Proof. destruct rp; reflexivity. Qed.

Lemma fenced_snoc {A} (r : A) c cs x : fenced (Some r) (c :: cs ++ [x])%list =
  ((c ++ [r]) :: map (fun x => r :: x ++ [r]) cs ++ [r :: x])%list.
Proof.
  rewrite <- fence_rest_snoc. unfold fenced. destruct cs; reflexivity.
Qed.

Lemma rev_cases {A} (cs : list A) : cs <> [] -> exists c l, rev cs = (c :: l).
Proof.
  intro H. destruct (rev cs) as [|c l] eqn:E; [|eauto].
  apply (f_equal (@rev A)) in E. rewrite rev_involutive in E. contradiction.
Qed.

(** Explicit form of the newest-first pieces for given cores. *)
Definition pieces_of {A} (rp : option A) (cs : list (list A)) : list (list A) := rev (fenced rp (rev cs)).

Lemma push_fenced {A} (rp : option A) cs x : cs <> [] ->
  push_back (pieces_of rp cs) x = pieces_of rp (push_back cs x).
Proof.
  intro N. unfold pieces_of. destruct cs as [|c cs]; [contradiction|]. cbn [push_back rev].
  destruct rp as [r|].
  2:{ cbn [fenced]. rewrite !rev_app_distr. reflexivity. }
  destruct (rev cs) as [|c0 l]; cbn [app].
  - reflexivity.
  - rewrite !fenced_snoc. rewrite !app_comm_cons, !rev_app_distr. reflexivity.
Qed.

Lemma open_fenced {A} (rp : option A) cs x : cs <> [] ->
  open_piece rp (pieces_of rp cs) x = pieces_of rp ([x] :: cs).
Proof.
  intro N. unfold pieces_of. destruct rp as [r|].
  2:{ cbn [open_piece fenced rev]. now rewrite rev_app_distr. }
  destruct cs as [|c cs]; [contradiction|]. cbn [rev].
  destruct (rev cs) as [|c0 l]; cbn [app].
  - reflexivity.
  - rewrite fenced_snoc. change (c0 :: (l ++ [c]) ++ [[x]])%list with (c0 :: (l ++ [c]) ++ [[x]])%list.
    rewrite fenced_snoc. rewrite map_app. cbn [map].
    rewrite !app_comm_cons, !rev_app_distr. cbn [rev app open_piece push_back].
    reflexivity.
Qed.

Lemma pieces_rev {A} (rp : option A) cs : rev (pieces_of rp cs) = fenced rp (rev cs).
Proof. apply rev_involutive. Qed.

Lemma push_nonempty {A} (cs : list (list A)) x : push_back cs x <> [].
Proof. destruct cs; discriminate. Qed.

Lemma fenced_none {A} (cs : list (list A)) : fenced None cs = cs.
Proof. reflexivity. Qed.

Lemma pieces_none {A} (cs : list (list A)) : pieces_of None cs = cs.
Proof. unfold pieces_of. cbn. apply rev_involutive. Qed.

Lemma app_inj_length {A} (a b c d : list A) : List.length a = List.length c ->
  (a ++ b = c ++ d)%list -> a = c /\ b = d.
Proof.
  revert c. induction a as [|x a IH]; intros [|y c] L E; cbn in *; try discriminate; [auto|].
  injection E as -> E'. injection L as L'. destruct (IH c L' E') as [-> ->]. auto.
Qed.

(** ** A common form of all split modes *)

Section Generic.
Variables (S A : Type) (dec : S -> A -> res (bool * S)).

(** Cores, newest first; the flag says whether the element opens a part. *)
Fixpoint cores_acc (cs : list (list A)) (s : S) (data : list A) : res (list (list A)) :=
  match data with
  | [] => Ok cs
  | x :: data' =>
      match dec s x with
      | Exc e => Exc e
      | Ok (true, s') => cores_acc ([x] :: cs) s' data'
      | Ok (false, s') => cores_acc (push_back cs x) s' data'
      end
  end.

Lemma concat_snoc {B} (l : list (list B)) x : List.concat (l ++ [x]) = (List.concat l ++ x)%list.
Proof. rewrite concat_app. cbn. now rewrite app_nil_r. Qed.

Lemma concat_push (cs : list (list A)) x : List.concat (rev (push_back cs x)) = (List.concat (rev cs) ++ [x])%list.
Proof.
  destruct cs as [|c cs]; cbn [push_back rev]; [reflexivity|].
  rewrite !concat_snoc. now rewrite app_assoc.
Qed.

(** Only the oldest core may be empty. *)
Definition good (cs : list (list A)) : Prop :=
  cs <> [] /\ forall l c0, cs = (l ++ [c0])%list -> Forall (fun c => c <> []) l.

Lemma good_push cs x : good cs -> good (push_back cs x).
Proof.
  intros [N G]. destruct cs as [|c cs]; [contradiction|]. cbn [push_back]. split; [discriminate|].
  intros l c0 E. destruct l as [|a l]; [constructor|]. inv E.
  specialize (G (c :: l) c0 eq_refl). inv G. constructor; [destruct c; discriminate|assumption].
Qed.

Lemma good_open cs x : good cs -> good ([x] :: cs).
Proof.
  intros [N G]. split; [discriminate|]. intros l c0 E.
  destruct l as [|a l]; [constructor|]. inv E. constructor; [discriminate|]. exact (G l c0 eq_refl).
Qed.

Lemma good_partition cs data : good cs -> List.concat (rev cs) = data -> partition data (rev cs).
Proof.
  intros [N G] E. split; [exact E|]. split.
  - intro H. apply N. rewrite <- (rev_involutive cs), H. reflexivity.
  - destruct (rev_cases cs N) as (c & l & Er). rewrite Er. cbn [tl].
    assert (Ec : cs = (rev l ++ [c])%list).
    { rewrite <- (rev_involutive cs), Er. reflexivity. }
    apply G in Ec. apply Forall_rev in Ec. now rewrite rev_involutive in Ec.
Qed.

Lemma cores_partition data : forall cs s cs', good cs -> cores_acc cs s data = Ok cs' ->
  good cs' /\ List.concat (rev cs') = (List.concat (rev cs) ++ data)%list.
Proof.
  induction data as [|x data IH]; intros cs s cs' G E; cbn [cores_acc] in E.
  - inv E. split; [exact G|]. now rewrite app_nil_r.
  - destruct (dec s x) as [[[|] s']|e]; [| |discriminate].
    + apply IH in E as [G' E']; [|now apply good_open]. split; [exact G'|].
      rewrite E'. cbn [rev]. rewrite concat_snoc, <- app_assoc. reflexivity.
    + apply IH in E as [G' E']; [|now apply good_push]. split; [exact G'|].
      rewrite E', concat_push, <- app_assoc. reflexivity.
Qed.

(** State after a prefix. *)
Fixpoint state_after (s : S) (pre : list A) : res S :=
  match pre with
  | [] => Ok s
  | x :: pre' => match dec s x with Ok (_, s') => state_after s' pre' | Exc e => Exc e end
  end.

(** How boundaries evolve: extending the last part or opening a new part keeps
    the existing boundaries. *)
Definition boundary (cores : list (list A)) (n : nat) : Prop :=
  exists cs1 c cs2, cores = (cs1 ++ c :: cs2)%list /\ cs1 <> [] /\ c <> [] /\ List.length (List.concat cs1) = n.

Lemma boundary_starts cores pre x post : List.concat cores = (pre ++ x :: post)%list ->
  (boundary cores (List.length pre) <-> starts_part cores pre x post).
Proof.
  intro E. split.
  - intros (cs1 & c & cs2 & -> & N & Nc & L). rewrite concat_app in E. cbn [List.concat] in E.
    assert (Ep : List.concat cs1 = pre /\ (c ++ List.concat cs2)%list = x :: post).
    { apply app_inj_length; [exact L|exact E]. }
    destruct Ep as [E1 E2]. destruct c as [|y c]; [contradiction|]. cbn in E2. inv E2.
    exists cs1, c, cs2. auto.
  - intros (cs1 & c & cs2 & -> & N & E1 & E2). exists cs1, (x :: c), cs2.
    split; [reflexivity|]. split; [exact N|]. split; [discriminate|]. now rewrite E1.
Qed.

(** Positions where parts start, read from the newest-first list. *)
Fixpoint bpos (cs : list (list A)) : list nat :=
  match cs with
  | [] => []
  | c :: rest => match rest with [] => [] | _ => List.length (List.concat (rev rest)) :: bpos rest end
  end.

Lemma bpos_push cs x : bpos (push_back cs x) = bpos cs.
Proof. destruct cs as [|c [|d cs]]; reflexivity. Qed.

Lemma bpos_open cs x : cs <> [] ->
  bpos ([x] :: cs) = List.length (List.concat (rev cs)) :: bpos cs.
Proof. destruct cs; [contradiction|reflexivity]. Qed.

Lemma bpos_boundary cs n : good cs -> (In n (bpos cs) <-> boundary (rev cs) n).
Proof.
  induction cs as [|c cs IH]; intros [N G]; [contradiction|].
  destruct cs as [|d cs].
  - cbn. split; [contradiction|]. intros (cs1 & x & cs2 & E & N1 & _).
    destruct cs1 as [|a [|]]; [contradiction|discriminate|discriminate].
  - set (cs0 := d :: cs) in *.
    assert (G0 : good cs0).
    { split; [discriminate|]. intros l c0 E. specialize (G (c :: l) c0). rewrite E in G.
      specialize (G eq_refl). now inv G. }
    assert (Nc : c <> []).
    { destruct (exists_last (l := cs0)) as (l & c0 & E); [discriminate|].
      specialize (G (c :: l) c0). rewrite E in G. specialize (G eq_refl). now inv G. }
    change (bpos (c :: cs0)) with (List.length (List.concat (rev cs0)) :: bpos cs0).
    cbn [In]. rewrite (IH G0). cbn [rev]. split.
    + intros [E|(cs1 & x & cs2 & E & H)].
      * exists (rev cs0), c, []. split; [reflexivity|]. split; [|auto].
        intro Hr. apply (f_equal (@List.length _)) in Hr. rewrite rev_length in Hr. discriminate.
      * exists cs1, x, (cs2 ++ [c])%list. split; [|exact H]. rewrite E, <- app_assoc. reflexivity.
    + intros (cs1 & x & cs2 & E & N1 & Nx & L).
      destruct cs2 as [|z cs2].
      * apply app_inj_tail in E as [E1 _]. left. now rewrite E1.
      * right. destruct (exists_last (l := z :: cs2)) as (l & y & Ez); [discriminate|]. rewrite Ez in E.
        rewrite app_comm_cons, app_assoc in E. apply app_inj_tail in E as [E1 _].
        exists cs1, x, l. auto.
Qed.

Lemma cores_bpos data : forall cs s cs', cs <> [] -> cores_acc cs s data = Ok cs' ->
  forall n, In n (bpos cs') <->
    In n (bpos cs) \/ exists pre x post s1 s2, data = (pre ++ x :: post)%list /\
      n = (List.length (List.concat (rev cs)) + List.length pre)%nat /\
      state_after s pre = Ok s1 /\ dec s1 x = Ok (true, s2).
Proof.
  induction data as [|x data IH]; intros cs s cs' N E n; cbn [cores_acc] in E.
  - inv E. split; [auto|]. intros [H|(pre & x & post & s1 & s2 & H & _)]; [exact H|].
    destruct pre; discriminate.
  - destruct (dec s x) as [[[|] s']|e] eqn:D; [| |discriminate].
    + assert (N' : [x] :: cs <> []) by discriminate. rewrite (IH _ _ _ N' E n). rewrite bpos_open by exact N. cbn [In]. split.
      * intros [[H|H]|(pre & y & post & s1 & s2 & -> & -> & H1 & H2)].
        -- right. exists [], x, data, s, s'. repeat split; [cbn; lia|exact D].
        -- auto.
        -- right. exists (x :: pre), y, post, s1, s2. split; [reflexivity|]. split.
           ++ cbn [rev]. rewrite concat_snoc, app_length. cbn. lia.
           ++ cbn [state_after]. now rewrite D.
      * intros [H|(pre & y & post & s1 & s2 & E' & -> & H1 & H2)]; [auto|].
        destruct pre as [|z pre]; cbn in E'; inv E'.
        -- left. left. cbn. lia.
        -- right. exists pre, y, post, s1, s2. split; [reflexivity|]. split.
           ++ cbn [rev]. rewrite concat_snoc, app_length. cbn. lia.
           ++ cbn [state_after] in H1. now rewrite D in H1.
    + rewrite (IH _ _ _ (push_nonempty cs x) E n). rewrite bpos_push. split.
      * intros [H|(pre & y & post & s1 & s2 & -> & -> & H1 & H2)]; [auto|].
        right. exists (x :: pre), y, post, s1, s2. split; [reflexivity|]. split.
        -- rewrite concat_push, app_length. cbn. lia.
        -- cbn [state_after]. now rewrite D.
      * intros [H|(pre & y & post & s1 & s2 & E' & -> & H1 & H2)]; [auto|].
        right. destruct pre as [|z pre]; cbn in E'; inv E'.
        -- exfalso. cbn in H1. inv H1. congruence.
        -- exists pre, y, post, s1, s2. split; [reflexivity|]. split.
           ++ rewrite concat_push, app_length. cbn. lia.
           ++ cbn [state_after] in H1. now rewrite D in H1.
Qed.

Lemma good_init : good [[]].
Proof.
  split; [discriminate|]. intros l c0 E. destruct l as [|a [|]]; [constructor|discriminate|discriminate].
Qed.

Lemma cores_cut s data cs' : cores_acc [[]] s data = Ok cs' ->
  forall pre x post, data = (pre ++ x :: post)%list ->
  (starts_part (rev cs') pre x post <->
   exists s1 s2, state_after s pre = Ok s1 /\ dec s1 x = Ok (true, s2)).
Proof.
  intros E pre x post ->.
  destruct (cores_partition _ _ _ _ good_init E) as [G C]. cbn in C.
  rewrite <- (boundary_starts _ _ _ _ C), <- (bpos_boundary cs' _ G).
  rewrite (cores_bpos _ [[]] s cs' ltac:(discriminate) E). cbn [bpos In rev app List.concat List.length Nat.add].
  split.
  - intros [[]|(pre' & x' & post' & s1 & s2 & E' & L & H1 & H2)].
    apply app_inj_length in E' as [-> E']; [|cbn in L; exact L]. inv E'. eauto.
  - intros (s1 & s2 & H1 & H2). right. exists pre, x, post, s1, s2. auto.
Qed.
End Generic.
Arguments cores_acc {S A}.
Arguments state_after {S A}.

(** ** The modes *)

Definition dec_text (text : string) (_ : unit) (x : string) : res (bool * unit) := Ok (contains text x, tt).

Lemma split_text_cores text rp data : forall cs, cs <> [] ->
  exists cs', cores_acc (dec_text text) cs tt data = Ok cs' /\
  split_text_acc text rp (pieces_of rp cs) data = fenced rp (rev cs').
Proof.
  induction data as [|x data IH]; intros cs N; cbn [split_text_acc cores_acc].
  - exists cs. split; [reflexivity|apply pieces_rev].
  - unfold dec_text at 1. destruct (contains text x).
    + rewrite open_fenced by exact N. apply IH. discriminate.
    + rewrite push_fenced by exact N. apply IH. apply push_nonempty.
Qed.

(** Lift a decision with an error. *)
Definition dec_blocks sd rapid step (st : fs_state * Z) (x : block) : res (bool * (fs_state * Z)) :=
  let '(s, cnt) := st in
  do s' <- fs_block sd s x;
  if (cnt <? step) || one_block_after_start s' || (rapid && negb (fs_active_g s' =? 0))
  then Ok (false, (s', cnt + 1)) else Ok (true, (s', 1)).

Definition dec_tool sd (s : fs_state) (x : block) : res (bool * fs_state) :=
  do s' <- fs_block sd s x; Ok (fs_tool_change s' && (1 <? fs_tool_cnt s'), s').

Definition dec_amount sd rapid limit (st : fs_state * dbl) (x : block * dbl) : res (bool * (fs_state * dbl)) :=
  let '(s, acc) := st in let '(b, m) := x in
  do s' <- fs_block sd s b;
  if dltb acc (d_of_Z limit) || one_block_after_start s' || (rapid && negb (fs_active_g s' =? 0))
  then Ok (false, (s', dadd acc m)) else Ok (true, (s', dadd dzero m)).

Definition res_map {A B} (f : A -> B) (r : res A) : res B :=
  match r with Ok a => Ok (f a) | Exc e => Exc e end.

Lemma split_blocks_cores sd rapid step rp data : forall cs s cnt, cs <> [] ->
  split_blocks_acc sd rapid step rp (pieces_of rp cs) s cnt data
  = res_map (fun cs' => fenced rp (rev cs')) (cores_acc (dec_blocks sd rapid step) cs (s, cnt) data).
Proof.
  induction data as [|x data IH]; intros cs s cnt N; cbn [split_blocks_acc cores_acc].
  - cbn. f_equal. apply pieces_rev.
  - cbn [dec_blocks]. destruct (fs_block sd s x) as [s'|e]; cbn [bind]; [|reflexivity].
    destruct ((cnt <? step) || one_block_after_start s' || (rapid && negb (fs_active_g s' =? 0))).
    + rewrite push_fenced by exact N. apply IH. apply push_nonempty.
    + rewrite open_fenced by exact N. apply IH. discriminate.
Qed.

Lemma split_tool_cores sd rp data : forall cs s, cs <> [] ->
  split_tool_acc sd rp (pieces_of rp cs) s data
  = res_map (fun cs' => fenced rp (rev cs')) (cores_acc (dec_tool sd) cs s data).
Proof.
  induction data as [|x data IH]; intros cs s N; cbn [split_tool_acc cores_acc].
  - cbn. f_equal. apply pieces_rev.
  - unfold dec_tool at 1. destruct (fs_block sd s x) as [s'|e]; cbn [bind]; [|reflexivity].
    destruct (fs_tool_change s' && (1 <? fs_tool_cnt s')); cbn [negb].
    + rewrite open_fenced by exact N. apply IH. discriminate.
    + rewrite push_fenced by exact N. apply IH. apply push_nonempty.
Qed.

(** For the amounts, a run over blocks alone. *)
Lemma split_amount_ok sd rapid limit rp data : forall cs s acc w ps, good _ cs ->
  split_amount_acc sd rapid limit rp (pieces_of rp cs) s acc data w = Ok ps ->
  exists cs', good _ cs' /\ List.concat (rev cs') = (List.concat (rev cs) ++ data)%list /\ ps = fenced rp (rev cs').
Proof.
  induction data as [|x data IH]; intros cs s acc w ps G E; cbn [split_amount_acc] in E.
  - inv E. exists cs. rewrite app_nil_r. split; [exact G|]. split; [reflexivity|apply pieces_rev].
  - destruct (fs_block sd s x) as [s'|e]; cbn [bind] in E; [|discriminate].
    destruct w as [|m w]; [discriminate|].
    destruct (dltb acc (d_of_Z limit) || one_block_after_start s' || (rapid && negb (fs_active_g s' =? 0))).
    + rewrite push_fenced in E by apply G. apply IH in E as (cs' & G' & C & ->); [|now apply good_push].
      exists cs'. split; [exact G'|]. split; [|reflexivity]. rewrite C, concat_push, <- app_assoc. reflexivity.
    + rewrite open_fenced in E by apply G. apply IH in E as (cs' & G' & C & ->); [|now apply good_open].
      exists cs'. split; [exact G'|]. split; [|reflexivity].
      rewrite C. cbn [rev]. rewrite concat_snoc, <- app_assoc. reflexivity.
Qed.

(** ** C16 *)

Lemma text_splits text rp data : splits rp data (split_text text rp data).
Proof.
  destruct (split_text_cores text rp data [[]]) as (cs' & C & E); [discriminate|].
  destruct (cores_partition _ _ _ _ _ _ _ (good_init _) C) as [G Cc].
  exists (rev cs'). split; [now apply good_partition|]. unfold split_text.
  rewrite <- E. f_equal. unfold pieces_of. cbn. now destruct rp.
Qed.

Lemma init_pieces {A} (rp : option A) : [[]] = pieces_of rp [[]].
Proof. unfold pieces_of. cbn. now destruct rp. Qed.

Lemma blocks_splits sd rapid step rp data ps :
  split_blocks sd rapid step rp data = Ok ps -> splits rp data ps.
Proof.
  unfold split_blocks. destruct (step <=? 0); [discriminate|].
  rewrite (init_pieces rp), split_blocks_cores by discriminate.
  destruct (cores_acc _ [[]] _ data) as [cs'|e] eqn:C; cbn [res_map]; intro E; inv E.
  destruct (cores_partition _ _ _ _ _ _ _ (good_init _) C) as [G Cc].
  exists (rev cs'). split; [now apply good_partition|reflexivity].
Qed.

Lemma tool_splits sd rp data ps : split_tool sd rp data = Ok ps -> splits rp data ps.
Proof.
  unfold split_tool. rewrite (init_pieces rp), split_tool_cores by discriminate.
  destruct (cores_acc _ [[]] _ data) as [cs'|e] eqn:C; cbn [res_map]; intro E; inv E.
  destruct (cores_partition _ _ _ _ _ _ _ (good_init _) C) as [G Cc].
  exists (rev cs'). split; [now apply good_partition|reflexivity].
Qed.

Lemma amount_splits sd rapid limit rp data w ps :
  split_amount sd rapid limit rp data w = Ok ps -> splits rp data ps.
Proof.
  unfold split_amount. destruct (limit <=? 0); [discriminate|].
  rewrite (init_pieces rp). intro E. apply split_amount_ok in E as (cs' & G & C & ->); [|apply good_init].
  exists (rev cs'). split; [now apply good_partition|reflexivity].
Qed.

(** The cut positions do not depend on the retraction plane. *)
Lemma text_fenced text rp data : split_text text rp data = fenced rp (split_text text None data).
Proof.
  unfold split_text.
  destruct (split_text_cores text rp data [[]]) as (cs' & C & E); [discriminate|].
  destruct (split_text_cores text None data [[]]) as (cs2 & C2 & E2); [discriminate|].
  rewrite <- (init_pieces rp) in E. rewrite <- (init_pieces None) in E2. rewrite E, E2. cbn [fenced].
  congruence.
Qed.

Lemma blocks_fenced sd rapid step rp data :
  split_blocks sd rapid step rp data = res_map (fenced rp) (split_blocks sd rapid step None data).
Proof.
  unfold split_blocks. destruct (step <=? 0); [reflexivity|].
  assert (H : forall q, split_blocks_acc sd rapid step q [[]] fs_init 0 data = res_map (fun cs' => fenced q (rev cs'))
    (cores_acc (dec_blocks sd rapid step) [[]] (fs_init, 0) data)).
  { intro q. rewrite <- split_blocks_cores by discriminate. f_equal. apply init_pieces. }
  rewrite !H.
  destruct (cores_acc (dec_blocks sd rapid step) [[]] (fs_init, 0) data); reflexivity.
Qed.

Lemma tool_fenced sd rp data :
  split_tool sd rp data = res_map (fenced rp) (split_tool sd None data).
Proof.
  unfold split_tool.
  assert (H : forall q, split_tool_acc sd q [[]] fs_init data = res_map (fun cs' => fenced q (rev cs'))
    (cores_acc (dec_tool sd) [[]] fs_init data)).
  { intro q. rewrite <- split_tool_cores by discriminate. f_equal. apply init_pieces. }
  rewrite !H.
  destruct (cores_acc (dec_tool sd) [[]] fs_init data); reflexivity.
Qed.

Lemma amount_fenced_acc sd rapid limit rp data : forall cs s acc w, cs <> [] ->
  split_amount_acc sd rapid limit rp (pieces_of rp cs) s acc data w
  = res_map (fenced rp) (split_amount_acc sd rapid limit None (pieces_of None cs) s acc data w).
Proof.
  induction data as [|x data IH]; intros cs s acc w N; cbn [split_amount_acc].
  - cbn [res_map]. now rewrite !pieces_rev.
  - destruct (fs_block sd s x) as [s'|e]; cbn [bind]; [|reflexivity].
    destruct w as [|m w]; [reflexivity|].
    destruct (dltb acc (d_of_Z limit) || one_block_after_start s' || (rapid && negb (fs_active_g s' =? 0))).
    + rewrite !push_fenced by exact N. apply IH. apply push_nonempty.
    + rewrite !open_fenced by exact N. apply IH. discriminate.
Qed.

Lemma amount_fenced sd rapid limit rp data w :
  split_amount sd rapid limit rp data w = res_map (fenced rp) (split_amount sd rapid limit None data w).
Proof.
  unfold split_amount. destruct (limit <=? 0); [reflexivity|].
  pose proof (amount_fenced_acc sd rapid limit rp data [[]] fs_init dzero w) as H.
  rewrite <- !init_pieces in H. apply H. discriminate.
Qed.

(** ** The visitor *)

Definition fs_dec (sd : split_defaults) (s : fs_state) (d : decimal) : res fs_state := fs_visit sd s (ADec d).

Definition same_but_comment (s1 s2 : fs_state) : Prop :=
  fs_active_g s1 = fs_active_g s2 /\ fs_drill s1 = fs_drill s2 /\
  fs_tool_change s1 = fs_tool_change s2 /\ fs_tool_cnt s1 = fs_tool_cnt s2.

Lemma commented sd b : forall s, fs_was_comment s = true -> foldM (fs_visit sd) s b = Ok s.
Proof.
  induction b as [|a b IH]; intros s H; cbn [foldM]; [reflexivity|].
  destruct a as [d| |]; cbn [fs_visit]; try apply IH, H.
  destruct (String.eqb (d_word d) "/").
  - replace (mkFS _ _ _ _ _) with s by (destruct s; cbn in *; now rewrite H). apply IH, H.
  - rewrite H. apply IH, H.
Qed.

Lemma fs_dec_comment sd s d s' : fs_was_comment s = false -> d_word d <> "/" ->
  fs_dec sd s d = Ok s' -> fs_was_comment s' = false.
Proof.
  intros H N. unfold fs_dec, fs_visit. apply String.eqb_neq in N. rewrite N, H.
  destruct (d_value d); [|now intro E; inv E].
  destruct (String.eqb (d_word d) "G").
  { destruct (stoi s0); cbn [bind]; [|discriminate]. bdestr; intro X; inv X; auto. }
  destruct (String.eqb (d_word d) "M").
  { destruct (stoi s0); cbn [bind]; bdestr; intro X; inv X; auto. }
  bdestr; intro X; inv X; auto.
Qed.

Lemma fs_effective sd b : forall s, fs_was_comment s = false ->
  match foldM (fs_visit sd) s b, foldM (fs_dec sd) s (effective b) with
  | Ok s1, Ok s2 => same_but_comment s1 s2
  | Exc e1, Exc e2 => e1 = e2
  | _, _ => False
  end.
Proof.
  induction b as [|a b IH]; intros s H; cbn [foldM effective]; [repeat split|].
  destruct a as [d| |]; try (cbn [fs_visit]; apply IH, H).
  destruct (String.eqb (d_word d) "/") eqn:W.
  - cbn [fs_visit foldM]. rewrite W, commented by reflexivity. repeat split.
  - cbn [foldM]. change (fs_dec sd s d) with (fs_visit sd s (ADec d)).
    destruct (fs_visit sd s (ADec d)) as [s'|e] eqn:E; [|reflexivity].
    apply IH. eapply fs_dec_comment; [exact H| |exact E]. now apply String.eqb_neq.
Qed.

Lemma fs_block_effective sd s b :
  match fs_block sd s b, foldM (fs_dec sd) (fs_reset s) (effective b) with
  | Ok s1, Ok s2 => same_but_comment s1 s2
  | Exc e1, Exc e2 => e1 = e2
  | _, _ => False
  end.
Proof. apply fs_effective. reflexivity. Qed.

Lemma effective_in b : forall d, In d (effective b) -> In (ADec d) b /\ d_word d <> "/".
Proof.
  induction b as [|a b IH]; intros d H; cbn in H; [contradiction|].
  destruct a as [x| |]; try (apply IH in H as [? ?]; split; [now right|assumption]).
  destruct (String.eqb (d_word x) "/") eqn:W; [contradiction|].
  destruct H as [->|H].
  - split; [now left|]. now apply String.eqb_neq.
  - apply IH in H as [? ?]. split; [now right|assumption].
Qed.

Definition readable_dec (d : decimal) : Prop :=
  forall v, d_word d = "G" \/ d_word d = "M" -> d_value d = Some v -> exists n, denotes v n /\ n <= int_max.

Lemma readable_effective b : readable_block b -> Forall readable_dec (effective b).
Proof.
  intro R. apply Forall_forall. intros d I v W V. apply effective_in in I as [I _]. eauto.
Qed.

(** ** Tool changes *)

Definition tcb (te : bool) (d : decimal) : bool :=
  negb (is_some (d_dot d) || is_some (d_value2 d)) &&
  match d_value d with
  | Some v => if te then String.eqb (d_word d) "T"
              else String.eqb (d_word d) "M" && match stoi v with Ok n => n =? 6 | Exc _ => false end
  | None => false
  end.

Lemma tcb_changes te d : readable_dec d -> (tcb te d = true <-> changes_tool te d).
Proof.
  intro R. unfold tcb, changes_tool.
  destruct (d_dot d); cbn [is_some orb negb andb]; [split; [discriminate|intros (? & _); discriminate]|].
  destruct (d_value2 d); cbn [is_some orb negb andb]; [split; [discriminate|intros (_ & ? & _); discriminate]|].
  destruct (d_value d) as [v|] eqn:V; destruct te.
  - rewrite String.eqb_eq. split; [intros ->; repeat split; discriminate|now intros (_ & _ & ? & _)].
  - rewrite andb_true_iff, String.eqb_eq. split.
    + intros [W S]. repeat split; [exact W|]. destruct (R v (or_intror W) V) as (n & D & B).
      rewrite (stoi_ok _ _ D B) in S. exists v. split; [reflexivity|]. now replace 6 with n by lia.
    + intros (_ & _ & W & v' & E & D). split; [exact W|]. inv E.
      rewrite (stoi_ok _ _ D) by (vm_compute; discriminate). reflexivity.
  - split; [discriminate|]. intros (_ & _ & _ & N). contradiction.
  - split; [discriminate|]. intros (_ & _ & _ & v & E & _). discriminate.
Qed.

Lemma fs_dec_tool sd s d s' : fs_was_comment s = false -> d_word d <> "/" -> fs_dec sd s d = Ok s' ->
  let t := tcb (sd_tool_number_executes_exchange sd) d in
  fs_tool_change s' = fs_tool_change s || t /\ fs_tool_cnt s' = fs_tool_cnt s + (if t then 1 else 0).
Proof.
  intros H N. unfold fs_dec, fs_visit. apply String.eqb_neq in N. rewrite N, H.
  set (te := sd_tool_number_executes_exchange sd).
  assert (F : forall s0, tcb te d = false -> fs_tool_change s0 = fs_tool_change s ->
    fs_tool_cnt s0 = fs_tool_cnt s -> Ok s0 = Ok s' -> let t := tcb te d in
    fs_tool_change s' = fs_tool_change s || t /\ fs_tool_cnt s' = fs_tool_cnt s + (if t then 1 else 0)).
  { intros s0 T T1 T2 E. inv E. cbn zeta. rewrite T, orb_false_r. split; [assumption|lia]. }
  unfold tcb in *.
  destruct (d_value d) as [v|].
  2:{ apply F; [apply andb_false_r|reflexivity..]. }
  destruct (String.eqb (d_word d) "G") eqn:G.
  { apply String.eqb_eq in G. rewrite G in *.
    assert (T : negb (is_some (d_dot d) || is_some (d_value2 d)) &&
      (if te then String.eqb "G" "T"
       else String.eqb "G" "M" && match stoi v with Ok n => n =? 6 | Exc _ => false end) = false)
      by (destruct te; apply andb_false_r).
    destruct (stoi v); cbn [bind]; [|discriminate]. bdestr; apply F; first [exact T|reflexivity]. }
  destruct (String.eqb (d_word d) "M") eqn:M.
  { apply String.eqb_eq in M. rewrite M in *.
    destruct (is_some (d_dot d) || is_some (d_value2 d)); cbn [negb andb] in *.
    { apply F; reflexivity. }
    destruct te; cbn [negb].
    { apply F; reflexivity. }
    destruct (stoi v) as [n|e]; cbn [bind]; [|discriminate]. cbn [String.eqb Ascii.eqb Bool.eqb andb] in *.
    destruct (n =? 6); [|apply F; reflexivity]. intro X; inv X; cbn [fs_tool_change fs_tool_cnt].
    now rewrite orb_true_r. }
  destruct (String.eqb (d_word d) "T") eqn:T.
  { destruct (is_some (d_dot d) || is_some (d_value2 d)); cbn [negb andb] in *.
    { apply F; reflexivity. }
    destruct te; [|apply F; reflexivity]. intro X; inv X; cbn [fs_tool_change fs_tool_cnt].
    now rewrite orb_true_r. }
  apply F; [destruct te; apply andb_false_r|reflexivity..].
Qed.

Definition tcount te (l : list decimal) : Z := Z.of_nat (List.length (filter (tcb te) l)).

Lemma tcount_cons te d l : tcount te (d :: l) = (if tcb te d then 1 else 0) + tcount te l.
Proof. unfold tcount. cbn [filter]. destruct (tcb te d); cbn [List.length]; lia. Qed.

Lemma tcount_app te l1 l2 : tcount te (l1 ++ l2) = tcount te l1 + tcount te l2.
Proof. induction l1 as [|d l1 IH]; [reflexivity|]. cbn [app]. rewrite !tcount_cons. lia. Qed.

Lemma tcount_nonneg te l : 0 <= tcount te l.
Proof. unfold tcount. lia. Qed.

Lemma fold_tool sd l : forall s s', fs_was_comment s = false -> Forall (fun d => d_word d <> "/") l ->
  foldM (fs_dec sd) s l = Ok s' ->
  let n := tcount (sd_tool_number_executes_exchange sd) l in
  fs_tool_change s' = fs_tool_change s || (0 <? n) /\ fs_tool_cnt s' = fs_tool_cnt s + n.
Proof.
  induction l as [|d l IH]; intros s s' H W E; cbn [foldM] in E.
  - inv E. cbn. rewrite orb_false_r. split; [reflexivity|lia].
  - destruct (fs_dec sd s d) as [s1|e] eqn:D; [|discriminate]. inv W.
    pose proof (fs_dec_comment _ _ _ _ H H2 D) as H1.
    apply fs_dec_tool in D as [D1 D2]; [|assumption..].
    apply IH in E as [E1 E2]; [|assumption..]. cbn zeta. rewrite tcount_cons.
    pose proof (tcount_nonneg (sd_tool_number_executes_exchange sd) l).
    rewrite E1, E2, D1, D2. split; [|lia].
    set (m := tcount _ l) in *. destruct (tcb _ d).
    + replace (0 <? 1 + m) with true by lia. now rewrite !orb_true_r.
    + now rewrite orb_false_r.
Qed.

Lemma block_tool sd s b s' : fs_block sd s b = Ok s' ->
  let n := tcount (sd_tool_number_executes_exchange sd) (effective b) in
  fs_tool_change s' = (0 <? n) /\ fs_tool_cnt s' = fs_tool_cnt s + n.
Proof.
  intro E. pose proof (fs_block_effective sd s b) as P. rewrite E in P.
  destruct (foldM (fs_dec sd) (fs_reset s) (effective b)) as [s2|] eqn:F; [|contradiction].
  destruct P as (_ & _ & -> & ->).
  apply fold_tool in F; [exact F|reflexivity|].
  apply Forall_forall. intros d I. now apply effective_in in I.
Qed.

Lemma state_tool sd pre : forall s s1, state_after (dec_tool sd) s pre = Ok s1 ->
  fs_tool_cnt s1 = fs_tool_cnt s
    + tcount (sd_tool_number_executes_exchange sd) (List.concat (map effective pre)).
Proof.
  induction pre as [|b pre IH]; intros s s1 E; cbn [state_after] in E.
  - inv E. cbn. lia.
  - unfold dec_tool at 1 in E. destruct (fs_block sd s b) as [s'|e] eqn:B; cbn [bind] in E; [|discriminate].
    apply IH in E. apply block_tool in B as [_ B]. cbn [map List.concat]. rewrite tcount_app. lia.
Qed.

Lemma tcount_pos te l : 0 < tcount te l <-> exists d, In d l /\ tcb te d = true.
Proof.
  split.
  - induction l as [|d l IH]; [cbn; lia|]. rewrite tcount_cons. destruct (tcb te d) eqn:E.
    + intros _. exists d. split; [now left|exact E].
    + intro H. destruct IH as (d' & I & T); [lia|]. exists d'. split; [now right|exact T].
  - intros (d & I & T). apply in_split in I as (l1 & l2 & ->). rewrite tcount_app, tcount_cons, T.
    pose proof (tcount_nonneg te l1). pose proof (tcount_nonneg te l2). lia.
Qed.

Lemma tcount_two te l : 1 < tcount te l -> exists l1 d l2, l = (l1 ++ d :: l2)%list /\ tcb te d = true /\
  0 < tcount te l1.
Proof.
  induction l as [|d l IH] using rev_ind; [cbn; lia|]. rewrite tcount_app, tcount_cons.
  change (tcount te []) with 0. destruct (tcb te d) eqn:E; intro H.
  - exists l, d, []. split; [reflexivity|]. split; [exact E|lia].
  - destruct IH as (l1 & x & l2 & -> & T & P); [lia|]. exists l1, x, (l2 ++ [d])%list.
    rewrite <- app_assoc. auto.
Qed.

Lemma tool_cut sd rp data ps : Forall readable_block data -> split_tool sd rp data = Ok ps ->
  exists cores, partition data cores /\ ps = fenced rp cores /\
  forall pre b post, data = (pre ++ b :: post)%list ->
   (starts_part cores pre b post <-> later_tool_change (sd_tool_number_executes_exchange sd) pre b).
Proof.
  intros R. unfold split_tool. rewrite (init_pieces rp), split_tool_cores by discriminate.
  destruct (cores_acc _ [[]] _ data) as [cs'|e] eqn:C; cbn [res_map]; intro E; inv E.
  destruct (cores_partition _ _ _ _ _ _ _ (good_init _) C) as [G Cc].
  exists (rev cs'). split; [now apply good_partition|]. split; [reflexivity|].
  intros pre b post ->. rewrite (cores_cut _ _ _ _ _ _ C _ _ _ eq_refl).
  set (te := sd_tool_number_executes_exchange sd).
  apply Forall_app in R as [Rp Rb]. apply Forall_inv in Rb.
  pose proof (readable_effective b Rb) as Re. rewrite Forall_forall in Re.
  assert (Rc : forall d, In d (List.concat (map effective pre)) -> readable_dec d).
  { intros d I. apply in_concat in I as (l & Il & I). apply in_map_iff in Il as (b' & <- & Ib).
    rewrite Forall_forall in Rp. pose proof (readable_effective b' (Rp b' Ib)) as F.
    rewrite Forall_forall in F. auto. }
  split.
  - intros (s1 & s2 & S & D). apply state_tool in S. cbn [fs_init fs_tool_cnt] in S.
    unfold dec_tool in D. destruct (fs_block sd s1 b) as [s'|] eqn:B; cbn [bind] in D; [|discriminate].
    injection D as D _. apply block_tool in B as [B1 B2]. fold te in S, B1, B2.
    rewrite B1, B2, S in D.
    assert (P : 0 < tcount te (effective b)) by lia.
    destruct (Z_lt_dec 0 (tcount te (List.concat (map effective pre)))) as [H|H].
    + apply tcount_pos in H as (d' & I' & T'). apply tcount_pos in P as (d & I & T).
      apply in_split in I as (l1 & l2 & El).
      exists d, l1, l2. split; [exact El|]. split.
      { apply tcb_changes; [apply Re; rewrite El; apply in_elt|exact T]. }
      exists d'. split; [apply tcb_changes; auto|]. right.
      apply in_concat in I' as (l & Il & I'). apply in_map_iff in Il as (b' & <- & Ib). eauto.
    + pose proof (tcount_nonneg te (List.concat (map effective pre))).
      destruct (tcount_two te (effective b)) as (l1 & d & l2 & El & T & P'); [lia|].
      apply tcount_pos in P' as (d' & I' & T').
      exists d, l1, l2. split; [exact El|]. split.
      { apply tcb_changes; [apply Re; rewrite El; apply in_elt|exact T]. }
      exists d'. split; [|left; exact I'].
      apply tcb_changes; [apply Re; rewrite El; apply in_or_app; now left|exact T'].
  - intros (d & l1 & l2 & El & Cd & d' & Cd' & Hd').
    assert (Hs : exists s1, state_after (dec_tool sd) fs_init pre = Ok s1 /\ exists f s2, dec_tool sd s1 b = Ok (f, s2)).
    { clear -C. revert C. generalize fs_init as s, [@nil block] as cs.
      induction pre as [|x pre IH]; intros s cs C; cbn [app cores_acc state_after] in *.
      - exists s. split; [reflexivity|]. destruct (dec_tool sd s b) as [[f s2]|]; [eauto|discriminate].
      - destruct (dec_tool sd s x) as [[[|] s']|]; [eauto|eauto|discriminate]. }
    destruct Hs as (s1 & S & f & s2 & D). exists s1, s2. split; [exact S|]. rewrite D. do 2 f_equal.
    apply state_tool in S. cbn [fs_init fs_tool_cnt] in S.
    unfold dec_tool in D. destruct (fs_block sd s1 b) as [s'|] eqn:B; cbn [bind] in D; [|discriminate].
    injection D as D _. apply block_tool in B as [B1 B2]. fold te in S, B1, B2.
    rewrite B1, B2, S in D.
    assert (T : tcb te d = true) by (apply tcb_changes; [apply Re; rewrite El; apply in_elt|exact Cd]).
    assert (P : 0 < tcount te (effective b)).
    { apply tcount_pos. exists d. split; [rewrite El; apply in_elt|exact T]. }
    pose proof (tcount_nonneg te (List.concat (map effective pre))).
    enough (1 < tcount te (List.concat (map effective pre)) + tcount te (effective b)) by lia.
    destruct Hd' as [I|(b' & Ib & I)].
    + assert (0 < tcount te l1).
      { apply tcount_pos. exists d'. split; [exact I|]. apply tcb_changes; [|exact Cd'].
        apply Re. rewrite El. apply in_or_app. now left. }
      rewrite El, tcount_app, tcount_cons, T. pose proof (tcount_nonneg te l2). lia.
    + assert (0 < tcount te (List.concat (map effective pre))); [|lia].
      assert (Ic : In d' (List.concat (map effective pre))).
      { apply in_concat. exists (effective b'). split; [now apply in_map|exact I]. }
      apply tcount_pos. exists d'. split; [exact Ic|]. apply tcb_changes; auto.
Qed.

Lemma text_cut text rp data :
  exists cores, partition data cores /\ split_text text rp data = fenced rp cores /\
  forall pre x post, data = (pre ++ x :: post)%list ->
   (starts_part cores pre x post <-> contains text x = true).
Proof.
  destruct (split_text_cores text rp data [[]]) as (cs' & C & E); [discriminate|].
  destruct (cores_partition _ _ _ _ _ _ _ (good_init _) C) as [G Cc].
  exists (rev cs'). split; [now apply good_partition|]. split.
  { unfold split_text. rewrite <- E. f_equal. apply init_pieces. }
  intros pre x post ->. rewrite (cores_cut _ _ _ _ _ _ C _ _ _ eq_refl). unfold dec_text.
  split.
  - intros (s1 & s2 & _ & D). now inv D.
  - intro H. exists tt, tt. rewrite H. split; [|reflexivity]. clear.
    induction pre as [|y pre IH]; [reflexivity|exact IH].
Qed.

(** ** C17 *)

Lemma blocks_sizes_acc sd rapid step data : 0 < step -> forall c rest s cs',
  cores_acc (dec_blocks sd rapid step) (c :: rest) (s, Z.of_nat (List.length c)) data = Ok cs' ->
  Forall (fun p => step <= Z.of_nat (List.length p)) rest ->
  Forall (fun p => step <= Z.of_nat (List.length p)) (tl cs').
Proof.
  intro Hs. induction data as [|x data IH]; intros c rest s cs' E F; cbn [cores_acc] in E.
  - now inv E.
  - unfold dec_blocks at 1 in E. destruct (fs_block sd s x) as [s'|]; cbn [bind] in E; [|discriminate].
    destruct ((Z.of_nat (List.length c) <? step) || one_block_after_start s' || (rapid && negb (fs_active_g s' =? 0))) eqn:B.
    + cbn [push_back] in E. apply IH with (c := (c ++ [x])%list) (rest := rest) (s := s'); [|exact F].
      rewrite app_length. cbn [List.length]. now replace (Z.of_nat (List.length c + 1)) with (Z.of_nat (List.length c) + 1) by lia.
    + apply IH with (c := [x]) (rest := c :: rest) (s := s'); [exact E|]. constructor; [|exact F].
      rewrite !orb_false_iff in B. lia.
Qed.

Lemma removelast_rev {A} (l : list A) : removelast (rev l) = rev (tl l).
Proof. destruct l as [|a l]; [reflexivity|]. cbn [rev tl]. apply removelast_last. Qed.

Lemma blocks_sizes sd rapid step rp data ps : split_blocks sd rapid step rp data = Ok ps ->
  exists cores, partition data cores /\ ps = fenced rp cores /\
  Forall (fun c => step <= Z.of_nat (List.length c)) (removelast cores).
Proof.
  unfold split_blocks. destruct (step <=? 0) eqn:S; [discriminate|].
  rewrite (init_pieces rp), split_blocks_cores by discriminate.
  destruct (cores_acc _ [[]] _ data) as [cs'|e] eqn:C; cbn [res_map]; intro E; inv E.
  destruct (cores_partition _ _ _ _ _ _ _ (good_init _) C) as [G Cc].
  exists (rev cs'). split; [now apply good_partition|]. split; [reflexivity|].
  rewrite removelast_rev. apply Forall_rev.
  apply (blocks_sizes_acc sd rapid step data ltac:(lia) [] [] fs_init cs' C). constructor.
Qed.

(** Codes seen by the visitor. *)
Lemma fs_dec_cycle sd s d s' : readable_dec d ->
  (forall n, g_code d n -> ~ In n [73; 74; 76; 80; 81; 82; 83; 84; 85; 86; 87; 88; 89]) ->
  fs_was_comment s = false -> d_word d <> "/" ->
  fs_drill s = false -> fs_active_g s <> 80 -> fs_dec sd s d = Ok s' ->
  fs_drill s' = false /\ fs_active_g s' <> 80.
Proof.
  intros R NC H N D A. unfold fs_dec, fs_visit. apply String.eqb_neq in N. rewrite N, H.
  destruct (d_value d) as [v|] eqn:V; [|now intro E; inv E].
  destruct (String.eqb (d_word d) "G") eqn:G.
  { apply String.eqb_eq in G. destruct (R v (or_introl G) V) as (n & Dn & B).
    rewrite (stoi_ok _ _ Dn B). cbn [bind].
    assert (Hn : ~ In n [73; 74; 76; 80; 81; 82; 83; 84; 85; 86; 87; 88; 89]).
    { apply NC. split; [exact G|]. eauto. }
    cbn [In] in Hn.
    assert (I : is_drill_cycle n || is_drill_cycle_qparam n = false).
    { unfold is_drill_cycle, is_drill_cycle_qparam. cbn [existsb]. lia. }
    rewrite I.
    bdestr; intro X; inv X; cbn [fs_drill fs_active_g]; split; auto; lia. }
  destruct (String.eqb (d_word d) "M").
  { destruct (stoi v); cbn [bind]; bdestr; intro X; inv X; auto. }
  bdestr; intro X; inv X; auto.
Qed.

Lemma fold_cycle sd l : forall s s', Forall readable_dec l ->
  (forall d n, In d l -> g_code d n -> ~ In n [73; 74; 76; 80; 81; 82; 83; 84; 85; 86; 87; 88; 89]) ->
  fs_was_comment s = false -> Forall (fun d => d_word d <> "/") l ->
  fs_drill s = false -> fs_active_g s <> 80 -> foldM (fs_dec sd) s l = Ok s' ->
  fs_drill s' = false /\ fs_active_g s' <> 80.
Proof.
  induction l as [|d l IH]; intros s s' R NC H W D A E; cbn [foldM] in E; [now inv E|].
  destruct (fs_dec sd s d) as [s1|] eqn:F; [|discriminate]. inv R. inv W.
  pose proof (fs_dec_comment _ _ _ _ H H4 F) as H1.
  apply fs_dec_cycle in F as [F1 F2]; try assumption; [|intros n Hn; apply (NC d n); [now left|exact Hn]].
  apply IH in E; auto. intros x n I. apply NC. now right.
Qed.

Lemma block_cycle sd s b s' : readable_block b -> no_cycle_code b ->
  fs_drill s = false -> fs_active_g s <> 80 -> fs_block sd s b = Ok s' ->
  fs_drill s' = false /\ fs_active_g s' <> 80.
Proof.
  intros R NC D A E. pose proof (fs_block_effective sd s b) as P. rewrite E in P.
  destruct (foldM (fs_dec sd) (fs_reset s) (effective b)) as [s2|] eqn:F; [|contradiction].
  destruct P as (-> & -> & _ & _).
  eapply fold_cycle; [| | | | | |exact F].
  - now apply readable_effective.
  - intros d n I (G & v & V & Dn). apply effective_in in I as [I _]. exact (NC d v n I G V Dn).
  - reflexivity.
  - apply Forall_forall. intros d I. now apply effective_in in I.
  - exact D.
  - cbn [fs_reset fs_active_g]. bdestr; [lia|exact A].
Qed.

Lemma blocks_exact_acc sd step data : 0 < step -> forall c rest s cs',
  Forall readable_block data -> Forall no_cycle_code data ->
  fs_drill s = false -> fs_active_g s <> 80 -> Z.of_nat (List.length c) <= step ->
  cores_acc (dec_blocks sd false step) (c :: rest) (s, Z.of_nat (List.length c)) data = Ok cs' ->
  Forall (fun p => Z.of_nat (List.length p) = step) rest ->
  exists c' rest', cs' = c' :: rest' /\ Z.of_nat (List.length c') <= step /\
  Forall (fun p => Z.of_nat (List.length p) = step) rest'.
Proof.
  intro Hs. induction data as [|x data IH]; intros c rest s cs' R NC D A L E F; cbn [cores_acc] in E.
  - inv E. exists c, rest. auto.
  - inv R. inv NC.
    unfold dec_blocks at 1 in E. destruct (fs_block sd s x) as [s'|] eqn:B; cbn [bind] in E; [|discriminate].
    apply block_cycle in B as [D' A']; try assumption.
    assert (O : one_block_after_start s' = false).
    { unfold one_block_after_start. rewrite D'. rewrite andb_false_r. cbn [orb]. lia. }
    rewrite O in E. cbn [andb] in E. rewrite !orb_false_r in E.
    destruct (Z.of_nat (List.length c) <? step) eqn:Q.
    + cbn [push_back] in E. apply IH with (c := (c ++ [x])%list) (rest := rest) (s := s'); try assumption.
      * rewrite app_length. cbn [List.length]. lia.
      * rewrite app_length. cbn [List.length]. now replace (Z.of_nat (List.length c + 1)) with (Z.of_nat (List.length c) + 1) by lia.
    + apply IH with (c := [x]) (rest := c :: rest) (s := s'); try assumption.
      * cbn. lia.
      * constructor; [lia|exact F].
Qed.

Lemma blocks_exact sd step rp data ps :
  Forall readable_block data -> Forall no_cycle_code data ->
  split_blocks sd false step rp data = Ok ps ->
  exists cores, partition data cores /\ ps = fenced rp cores /\
  Forall (fun c => Z.of_nat (List.length c) = step) (removelast cores) /\
  Z.of_nat (List.length (last cores [])) <= step.
Proof.
  intros R NC. unfold split_blocks. destruct (step <=? 0) eqn:S; [discriminate|].
  rewrite (init_pieces rp), split_blocks_cores by discriminate.
  destruct (cores_acc _ [[]] _ data) as [cs'|e] eqn:C; cbn [res_map]; intro E; inv E.
  destruct (cores_partition _ _ _ _ _ _ _ (good_init _) C) as [G Cc].
  exists (rev cs'). split; [now apply good_partition|]. split; [reflexivity|].
  rewrite removelast_rev.
  destruct (blocks_exact_acc sd step data ltac:(lia) [] [] fs_init cs' R NC) as (c' & rest' & -> & L & F);
    [reflexivity|discriminate|cbn; lia|exact C|constructor|].
  cbn [tl rev]. split; [now apply Forall_rev|]. now rewrite last_last.
Qed.

Lemma blocks_refused sd rapid step rp data : step <= 0 ->
  split_blocks sd rapid step rp data = Exc (EFileSplitter ["CannotSplitFileNumberOfBlocks"]).
Proof. intro H. unfold split_blocks. now replace (step <=? 0) with true by lia. Qed.

(** Cutting only at rapid traverse. *)
Definition in_rapid_l (l : list decimal) : Prop :=
  exists l1 d l2, l = (l1 ++ d :: l2)%list /\ g_code d 0 /\
    forall d' n, In d' l2 -> g_code d' n -> ~ motion_code n.

Lemma rapid_snoc l d : in_rapid_l l -> (forall n, g_code d n -> ~ motion_code n) -> in_rapid_l (l ++ [d]).
Proof.
  intros (l1 & x & l2 & -> & G & F) H. exists l1, x, (l2 ++ [d])%list.
  rewrite <- app_assoc. split; [reflexivity|]. split; [exact G|].
  intros d' n I. apply in_app_iff in I as [I|[<-|[]]]; eauto.
Qed.

Lemma fs_dec_rapid sd l s d s' : readable_dec d -> fs_was_comment s = false -> d_word d <> "/" ->
  (fs_active_g s = 0 -> in_rapid_l l) -> fs_dec sd s d = Ok s' ->
  fs_active_g s' = 0 -> in_rapid_l (l ++ [d]).
Proof.
  intros R H N A. unfold fs_dec, fs_visit. apply String.eqb_neq in N. rewrite N, H.
  destruct (d_value d) as [v|] eqn:V.
  2:{ intros E Z; inv E. apply rapid_snoc; [auto|]. intros n (_ & v & E & _). congruence. }
  destruct (String.eqb (d_word d) "G") eqn:G.
  { apply String.eqb_eq in G. destruct (R v (or_introl G) V) as (n & Dn & B).
    rewrite (stoi_ok _ _ Dn B). cbn [bind].
    destruct ((0 <=? n) && (n <=? 3)) eqn:E1.
    { intro X; inv X. cbn [fs_active_g]. intros ->. exists l, d, []. split; [reflexivity|].
      split; [split; [exact G|eauto]|]. intros d' n' []. }
    destruct (is_drill_cycle n || is_drill_cycle_qparam n) eqn:E2.
    { intro X; inv X. cbn [fs_active_g]. intros ->. discriminate. }
    assert (NM : forall n', g_code d n' -> ~ motion_code n' \/ n' = 80).
    { intros n' (_ & v' & V' & D'). rewrite V in V'. inv V'.
      rewrite <- (denotes_fun _ _ _ Dn D').
      unfold is_drill_cycle, is_drill_cycle_qparam in E2. cbn [existsb] in E2.
      destruct (Z.eq_dec n 80); [now right|left]. unfold motion_code. cbn [In]. lia. }
    destruct ((n =? 80) || ((fs_active_g s =? 0) && sd_rapid_traverse_cancel_cycle sd)
       || ((fs_active_g s =? 1) && sd_linear_interpolation_cancel_cycle sd)) eqn:E3.
    { intro X; inv X. cbn [fs_active_g]. intros ->. discriminate. }
    intro X; inv X. intro Z. apply rapid_snoc; [auto|]. intros n' Gn. destruct (NM n' Gn) as [Q| ->]; [assumption|].
    destruct Gn as (_ & v' & V' & D'). rewrite V in V'. inv V'.
    rewrite (denotes_fun _ _ _ Dn D') in E3. discriminate. }
  assert (NG : forall n, g_code d n -> ~ motion_code n).
  { intros n (W & _). rewrite W in G. discriminate. }
  destruct (String.eqb (d_word d) "M").
  { destruct (stoi v); cbn [bind]; bdestr; intros X Z; inv X; apply rapid_snoc; auto. }
  bdestr; intros X Z; inv X; apply rapid_snoc; auto.
Qed.

Lemma fold_rapid sd l' : forall l s s', Forall readable_dec l' -> fs_was_comment s = false ->
  Forall (fun d => d_word d <> "/") l' -> (fs_active_g s = 0 -> in_rapid_l l) ->
  foldM (fs_dec sd) s l' = Ok s' -> fs_active_g s' = 0 -> in_rapid_l (l ++ l').
Proof.
  induction l' as [|d l' IH]; intros l s s' R H W A E; cbn [foldM] in E.
  - inv E. now rewrite app_nil_r.
  - destruct (fs_dec sd s d) as [s1|] eqn:F; [|discriminate]. inv R. inv W.
    pose proof (fs_dec_comment _ _ _ _ H H4 F) as H1.
    replace (l ++ d :: l')%list with ((l ++ [d]) ++ l')%list by now rewrite <- app_assoc.
    apply (IH _ s1 s'); try assumption. intro Z. eapply fs_dec_rapid; [| | | |exact F|exact Z]; assumption.
Qed.

Lemma block_rapid sd l s b s' : readable_block b -> (fs_active_g s = 0 -> in_rapid_l l) ->
  fs_block sd s b = Ok s' -> fs_active_g s' = 0 -> in_rapid_l (l ++ effective b).
Proof.
  intros R A E. pose proof (fs_block_effective sd s b) as P. rewrite E in P.
  destruct (foldM (fs_dec sd) (fs_reset s) (effective b)) as [s2|] eqn:F; [|contradiction].
  destruct P as (-> & _). apply (fold_rapid sd _ l (fs_reset s) s2).
  - now apply readable_effective.
  - reflexivity.
  - apply Forall_forall. intros d I. now apply effective_in in I.
  - cbn [fs_reset fs_active_g]. bdestr; [lia|exact A].
  - exact F.
Qed.

Lemma state_rapid sd rapid step pre : forall l s cnt s1, Forall readable_block pre ->
  (fs_active_g s = 0 -> in_rapid_l l) ->
  state_after (dec_blocks sd rapid step) (s, cnt) pre = Ok s1 ->
  fs_active_g (fst s1) = 0 -> in_rapid_l (l ++ List.concat (map effective pre)).
Proof.
  induction pre as [|b pre IH]; intros l s cnt s1 R A E; cbn [state_after map List.concat] in *.
  - inv E. now rewrite app_nil_r.
  - unfold dec_blocks at 1 in E. destruct (fs_block sd s b) as [s'|] eqn:B; cbn [bind] in E; [|discriminate].
    inv R. rewrite app_assoc.
    destruct ((cnt <? step) || one_block_after_start s' || (rapid && negb (fs_active_g s' =? 0)));
      (eapply IH; [assumption| |exact E]; eapply block_rapid; eauto).
Qed.

Lemma blocks_rapid sd step rp data ps : Forall readable_block data ->
  split_blocks sd true step rp data = Ok ps ->
  exists cores, partition data cores /\ ps = fenced rp cores /\
  forall pre b post, starts_part cores pre b post -> in_rapid (pre ++ [b]).
Proof.
  intro R. unfold split_blocks. destruct (step <=? 0) eqn:S; [discriminate|].
  rewrite (init_pieces rp), split_blocks_cores by discriminate.
  destruct (cores_acc _ [[]] _ data) as [cs'|e] eqn:C; cbn [res_map]; intro E; inv E.
  destruct (cores_partition _ _ _ _ _ _ _ (good_init _) C) as [G Cc].
  exists (rev cs'). split; [now apply good_partition|]. split; [reflexivity|].
  intros pre b post SP. assert (Ed : data = (pre ++ b :: post)%list).
  { destruct SP as (cs1 & c & cs2 & E & _ & <- & <-). cbn in Cc. rewrite <- Cc, E, concat_app. reflexivity. }
  subst data. apply (cores_cut _ _ _ _ _ _ C _ _ _ eq_refl) in SP as ([s1 cnt] & s2 & St & D).
  apply Forall_app in R as [Rp Rb]. apply Forall_inv in Rb.
  cbn [dec_blocks] in D. destruct (fs_block sd s1 b) as [s'|] eqn:B; cbn [bind] in D; [|discriminate].
  destruct ((cnt <? step) || one_block_after_start s' || (true && negb (fs_active_g s' =? 0))) eqn:Q; [discriminate|].
  rewrite !orb_false_iff in Q. unfold in_rapid. rewrite map_app, concat_app. cbn [map List.concat].
  rewrite app_nil_r. eapply block_rapid; [exact Rb| |exact B|cbn [andb] in Q; lia].
  intro Z. apply (state_rapid _ _ _ _ [] _ _ _ Rp) with (2 := St); [cbn; discriminate|exact Z].
Qed.
