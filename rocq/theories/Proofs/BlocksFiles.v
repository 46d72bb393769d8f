(** Proofs about reading and writing predefined blocks. *)
From Verif Require Import Model.Base Model.Blocks Spec.Text Spec.BlocksSpec Proofs.Tactics Proofs.StringFacts Proofs.BlocksProofs.
From Coq Require Import Lia.
Local Open Scope string_scope.
Local Open Scope list_scope.
Local Open Scope Z_scope.

(** ** Names *)

Lemma lower_of c d : lower_case c = d -> (d = "." -> c = ".")%char /\ (d = "j" -> In c ["j"; "J"])%char /\ (d = "s" -> In c ["s"; "S"])%char /\
  (d = "o" -> In c ["o"; "O"])%char /\ (d = "n" -> In c ["n"; "N"])%char.
Proof.
  intros <-. destruct c as [[] [] [] [] [] [] [] []]; vm_compute; repeat split; intro H; try discriminate H; auto.
Qed.

Lemma substring_all s : substring 0 (String.length s) s = s.
Proof. induction s as [|c s IH]; cbn; [reflexivity|now rewrite IH]. Qed.
Lemma substring_tail a b : substring (String.length a) (String.length b) (a ++ b) = b.
Proof. induction a as [|c a IH]; cbn; [apply substring_all|exact IH]. Qed.
Lemma split_at n s : (n <= String.length s)%nat -> exists a b, s = (a ++ b)%string /\ String.length a = n.
Proof.
  revert s. induction n as [|n IH]; intros s H; [exists "", s; auto|]. destruct s as [|c s]; cbn in H; [lia|].
  destruct (IH s) as (a & b & -> & L); [lia|]. exists (String c a), b. cbn. auto.
Qed.
Lemma length_app a b : String.length (a ++ b) = (String.length a + String.length b)%nat.
Proof. induction a as [|c a IH]; cbn; [reflexivity|now rewrite IH]. Qed.

Lemma json_iff n : is_json n = true <-> json_name n.
Proof.
  unfold is_json. split.
  - rewrite andb_true_iff. intros [L E]. apply Nat.leb_le in L. destruct (split_at (String.length n - 5) n) as (a & b & Q & A); [lia|].
    assert (B : String.length b = 5%nat) by (pose proof (length_app a b); rewrite <- Q in *; lia).
    apply String.eqb_eq in E. rewrite <- A, <- B, Q, substring_tail in E.
    destruct b as [|c0 [|c1 [|c2 [|c3 [|c4 [|]]]]]]; try discriminate B. cbn [lower_text] in E. injection E as E0 E1 E2 E3 E4.
    apply lower_of in E0 as (E0 & _). apply lower_of in E1 as (_ & E1 & _). apply lower_of in E2 as (_ & _ & E2 & _).
    apply lower_of in E3 as (_ & _ & _ & E3 & _). apply lower_of in E4 as (_ & _ & _ & _ & E4). rewrite (E0 eq_refl) in Q.
    exists a, c1, c2, c3, c4. split; [exact Q|]. auto.
  - intros (a & j & s & o & d & -> & J & S & O & D). set (b := String "." (String j (String s (String o (String d ""))))).
    replace (String.length (a ++ b) - 5)%nat with (String.length a) by (rewrite length_app; cbn; lia). rewrite andb_true_iff. split.
    + apply Nat.leb_le. rewrite length_app. cbn. lia.
    + change 5%nat with (String.length b). rewrite substring_tail. unfold b.
      repeat match goal with H : In _ _ |- _ => cbn in H; destruct H as [<-|[<-|[]]] end; reflexivity.
Qed.

Definition of_dir (dir : string) (e : path * content) : bool := String.eqb (fst (fst e)) dir && is_json (snd (fst e)).
Lemma of_dir_iff dir e : of_dir dir e = true <-> group_file dir e.
Proof. unfold of_dir, group_file. now rewrite andb_true_iff, String.eqb_eq, json_iff. Qed.

Lemma filter_selected dir fs l : selected (group_file dir) fs l <-> l = filter (of_dir dir) fs.
Proof.
  split.
  - induction 1 as [|a l l' P _ ->|a l l' P _ ->]; cbn; [reflexivity| |].
    + apply of_dir_iff in P. now rewrite P.
    + destruct (of_dir dir a) eqn:E; [apply of_dir_iff in E; contradiction|reflexivity].
  - intros ->. induction fs as [|a fs IH]; cbn; [constructor|]. destruct (of_dir dir a) eqn:E.
    + constructor; [now apply of_dir_iff|exact IH].
    + constructor; [|exact IH]. intro P. apply of_dir_iff in P. congruence.
Qed.

(** ** Reading *)

Lemma mapm_iff {A B} (f : A -> res B) l r : mapm f l = Ok r <-> Forall2 (fun a b => f a = Ok b) l r.
Proof.
  split.
  - revert r. induction l as [|a l IH]; cbn; intros r H; [inv H; constructor|]. destruct (f a) eqn:E; [|discriminate]. cbn in H.
    destruct (mapm f l); [|discriminate]. inv H. constructor; auto.
  - induction 1 as [|a b l r H _ IH]; [reflexivity|]. cbn. now rewrite H, IH.
Qed.
Lemma forall2_impl {A B} (P Q : A -> B -> Prop) l r : (forall a b, P a b -> Q a b) -> Forall2 P l r -> Forall2 Q l r.
Proof. intro H. induction 1; constructor; auto. Qed.

Lemma block_iff dot b b' : format_block dot b = Ok b' <-> block_shown dot b b'.
Proof.
  unfold format_block, block_shown. split.
  - destruct (bl_code b) as [l|] eqn:E; [|discriminate]. destruct (mapm _ l) as [l'|] eqn:M; [|discriminate]. intro H. inv H. split; [reflexivity|].
    exists l, l'. split; [reflexivity|]. split; [reflexivity|]. apply mapm_iff in M. revert M. apply forall2_impl. intros x y Y. now apply format_iff.
  - intros (A & l & l' & E & E' & F). rewrite E. replace (mapm _ l) with (Ok l').
    + destruct b, b'. cbn in *. now subst.
    + symmetry. apply mapm_iff. revert F. apply forall2_impl. intros x y Y. now apply format_iff.
Qed.
Lemma group_iff dot g g' : format_group dot g = Ok g' <-> group_shown dot g g'.
Proof.
  unfold format_group, group_shown. split.
  - destruct (gr_blocks g) as [l|] eqn:E; [|discriminate]. destruct (mapm _ l) as [l'|] eqn:M; [|discriminate]. intro H. inv H. split; [reflexivity|].
    exists l, l'. split; [reflexivity|]. split; [reflexivity|]. apply mapm_iff in M. revert M. apply forall2_impl. intros x y Y. now apply block_iff.
  - intros (A & l & l' & E & E' & F). rewrite E. replace (mapm _ l) with (Ok l').
    + destruct g, g'. cbn in *. now subst.
    + symmetry. apply mapm_iff. revert F. apply forall2_impl. intros x y Y. now apply block_iff.
Qed.

(** A file, and the entry made of it. *)
Definition entry_of (dot : string) (a : access) (e : path * content) (g : path * (group * access)) : Prop :=
  fst g = fst e /\ snd (snd g) = a /\ exists v, snd e = Group_ v /\ group_shown dot v (fst (snd g)).

Section Files.
Variable full : string -> string.

Lemma read_iff_filter dir dot a fs gs :
  read_groups full dir dot a fs = Ok gs <-> Forall2 (entry_of dot a) (filter (of_dir (full dir)) fs) gs.
Proof.
  unfold read_groups, json_files. match goal with |- context [filter ?p fs] => change (filter p fs) with (filter (of_dir (full dir)) fs) end.
  assert (D : Forall (fun e : path * content => fst (fst e) = full dir) (filter (of_dir (full dir)) fs)).
  { apply Forall_forall. intros e H. apply filter_In in H as [_ H]. apply of_dir_iff in H as [H _]. exact H. }
  revert D gs. induction (filter (of_dir (full dir)) fs) as [|e l IH]; intros D gs.
  { cbn. split; intro H; [inv H; constructor|]. inversion H. reflexivity. }
  inversion D as [|? ? De Dl]; subst. specialize (IH Dl). destruct e as [[ed en] ec]. cbn in De. subst ed. cbn [map mapm fst snd].
  destruct ec as [| |v]; cbn [bind]; [split; [discriminate|]; intro H; inversion H as [|? ? ? ? (_ & _ & v & X & _)]; discriminate X..|].
  match type of IH with context [mapm ?f (map ?h l)] => destruct (mapm f (map h l)) as [ps|x] end; cbn [bind mapm] in *.
  2:{ split; [discriminate|]. intro H. inversion H as [|? g ? gs' _ HF]; subst. apply IH in HF. discriminate. }
  cbn [fst snd]. destruct (format_group dot v) as [v'|y] eqn:F; cbn [bind].
  2:{ split; [discriminate|]. intro H. inversion H as [|? g ? gs' (_ & _ & u & X & G) _]; subst. cbn in X. inv X. apply group_iff in G. congruence. }
  apply group_iff in F. match type of IH with context [mapm ?f ps] => destruct (mapm f ps) as [qs|x] end; cbn [bind] in *.
  - split; intro H.
    + inv H. constructor; [|now apply IH]. unfold entry_of. cbn. split; [|split; [reflexivity|exists v; auto]]. reflexivity.
    + inversion H as [|? g ? gs' (K & A & u & X & G) HF]; subst. apply IH in HF. inv HF. cbn in X. inv X.
      apply group_iff in F. apply group_iff in G. rewrite G in F. inv F. destruct g as [k [w a]]. cbn in *. now subst.
  - split; [discriminate|]. intro H. inversion H as [|? g ? gs' _ HF]; subst. apply IH in HF. discriminate.
Qed.

Lemma read_iff dir dot a fs gs : read_groups full dir dot a fs = Ok gs <->
  exists sel, selected (group_file (full dir)) fs sel /\ Forall2 (entry_of dot a) sel gs.
Proof.
  rewrite read_iff_filter. split.
  - intro H. exists (filter (of_dir (full dir)) fs). split; [now apply filter_selected|exact H].
  - intros (sel & S & H). apply filter_selected in S. now subst.
Qed.

(** One file that cannot be read is enough. *)
Lemma one_bad dir dot a fs e : In e fs -> group_file (full dir) e -> (forall g, ~ entry_of dot a e g) ->
  exists x, read_groups full dir dot a fs = Exc x.
Proof.
  intros I G N. destruct (read_groups full dir dot a fs) as [gs|x] eqn:E; [|now exists x]. apply read_iff_filter in E.
  assert (I' : In e (filter (of_dir (full dir)) fs)) by (apply filter_In; split; [exact I|now apply of_dir_iff]).
  exfalso. revert E I'. generalize (filter (of_dir (full dir)) fs) as l. intros l E. induction E as [|e0 g l l' H _ IH]; intro J; [destruct J|].
  destruct J as [->|J]; [now apply (N g)|auto].
Qed.

(** ** Writing *)

Lemma path_spec p q : reflect (p = q) (path_eqb p q).
Proof.
  unfold path_eqb. destruct p as [a b], q as [c d]. cbn. destruct (String.eqb_spec a c), (String.eqb_spec b d); constructor; congruence.
Qed.

Definition put_one (fs : files) (g : path * (group * access)) : files :=
  match snd g with (v, ReadWrite) => put_file (fst g) (Group_ v) fs | (_, ReadOnly) => fs end.

Lemma put_in p c fs q d : In (q, d) (put_file p c fs) <-> (q = p /\ d = c) \/ (q <> p /\ In (q, d) fs).
Proof.
  unfold put_file. destruct (existsb _ fs) eqn:E.
  - apply existsb_exists in E as ([p' c'] & I & Q). cbn in Q. destruct (path_spec p p') as [<-|]; [|discriminate]. rewrite in_map_iff. split.
    + intros ([q' d'] & H & J). cbn in H. destruct (path_spec p q') as [<-|N]; inv H; [auto|]. right. split; [congruence|exact J].
    + intros [[-> ->]|[N J]].
      * exists (p, c'). cbn. destruct (path_spec p p); [auto|congruence].
      * exists (q, d). cbn. destruct (path_spec p q); [congruence|auto].
  - assert (N : forall c', ~ In (p, c') fs).
    { intros c' I. assert (T : existsb (fun e : path * content => path_eqb p (fst e)) fs = true).
      { apply existsb_exists. exists (p, c'). split; [exact I|]. cbn. destruct (path_spec p p); [reflexivity|congruence]. }
      congruence. }
    rewrite in_app_iff. cbn. split.
    + intros [I|[H|[]]]; [|inv H; auto]. right. split; [|exact I]. intros ->. now apply N in I.
    + intros [[-> ->]|[_ I]]; auto.
Qed.

Lemma puts_in gs : distinct gs -> forall fs q d, In (q, d) (fold_left put_one gs fs) <->
  (exists v, In (q, (v, ReadWrite)) gs /\ d = Group_ v) \/ (In (q, d) fs /\ forall v, ~ In (q, (v, ReadWrite)) gs).
Proof.
  unfold distinct. induction gs as [|[p [v a]] gs IH]; intros D fs q d; cbn [fold_left].
  { split; [intro H; right; split; [exact H|intros v []]|]. intros [(v & [] & _)|[H _]]. exact H. }
  cbn in D. inversion D as [|? ? Np D']; subst. specialize (IH D'). rewrite IH.
  assert (Np' : forall v', ~ In (p, (v', ReadWrite)) gs).
  { intros v' I. apply Np. apply in_map_iff. exists (p, (v', ReadWrite)). auto. }
  unfold put_one. cbn [fst snd]. destruct a.
  - split.
    + intros [(u & I & ->)|[I N]]; [left; exists u; split; [now right|reflexivity]|right; split; [exact I|]]. intros u [X|X]; [discriminate|now apply (N u)].
    + intros [(u & [X|I] & ->)|[I N]]; [discriminate|left; eauto|right; split; [exact I|]]. intros u X. apply (N u). now right.
  - rewrite put_in. split.
    + intros [(u & I & ->)|[[[-> ->]|[Q I]] N]].
      * left. exists u. split; [now right|reflexivity].
      * left. exists v. split; [now left|reflexivity].
      * right. split; [exact I|]. intros u [X|X]; [inv X; congruence|now apply (N u)].
    + intros [(u & [X|I] & ->)|[I N]].
      * inv X. right. split; [auto|exact Np'].
      * left. exists u. auto.
      * right. split; [right; split; [|exact I]|].
        -- intros ->. apply (N v). now left.
        -- intros u X. apply (N u). now right.
Qed.

(** What is there afterwards. *)
Lemma write_in gs dir fs q d : distinct gs -> In (q, d) (write_groups full gs dir fs) <->
  (exists v, In (q, (v, ReadWrite)) gs /\ d = Group_ v) \/
  ((forall v, ~ In (q, (v, ReadWrite)) gs) /\ In (q, d) fs /\ (group_file (full dir) (q, d) -> In (dir, snd q) (map fst gs))).
Proof.
  intro D. unfold write_groups. change (fun fs g => match snd g with (_, ReadOnly) => fs | (v, ReadWrite) => put_file (fst g) (Group_ v) fs end) with put_one.
  rewrite puts_in by exact D. rewrite filter_In. cbn [fst snd].
  assert (X : negb (String.eqb (fst q) (full dir) && is_json (snd q) && negb (existsb (fun g : path * (group * access) => path_eqb (dir, snd q) (fst g)) gs)) = true <->
    (group_file (full dir) (q, d) -> In (dir, snd q) (map fst gs))).
  { rewrite negb_true_iff. change (String.eqb (fst q) (full dir) && is_json (snd q)) with (of_dir (full dir) (q, d)).
    assert (Y : existsb (fun g : path * (group * access) => path_eqb (dir, snd q) (fst g)) gs = true <-> In (dir, snd q) (map fst gs)).
    { rewrite existsb_exists, in_map_iff. split.
      - intros (g & I & E). destruct (path_spec (dir, snd q) (fst g)); [|discriminate]. exists g. auto.
      - intros (g & E & I). exists g. split; [exact I|]. destruct (path_spec (dir, snd q) (fst g)); congruence. }
    rewrite <- Y, <- of_dir_iff. destruct (of_dir (full dir) (q, d)), (existsb _ gs); cbn; intuition congruence. }
  rewrite X. tauto.
Qed.

(** ** Reading what was written *)

Definition update (e : path * content) (g : path * (group * access)) : path * content :=
  match snd g with (v, ReadWrite) => if path_eqb (fst g) (fst e) then (fst g, Group_ v) else e | (_, ReadOnly) => e end.

Lemma update_key e g : fst (update e g) = fst e.
Proof. unfold update. destruct (snd g) as [v []]; [reflexivity|]. destruct (path_spec (fst g) (fst e)); [assumption|reflexivity]. Qed.
Lemma updates_key gs e : fst (fold_left update gs e) = fst e.
Proof. revert e. induction gs as [|g gs IH]; intro e; cbn; [reflexivity|]. now rewrite IH, update_key. Qed.

Lemma puts_map gs : forall fs, (forall g, In g gs -> In (fst g) (map fst fs)) -> fold_left put_one gs fs = map (fun e => fold_left update gs e) fs.
Proof.
  induction gs as [|g gs IH]; intros fs H; cbn [fold_left]; [now rewrite map_id|].
  assert (P : put_one fs g = map (fun e => update e g) fs).
  { unfold put_one, update. destruct (snd g) as [v []]; [now rewrite map_id|]. unfold put_file.
    replace (existsb _ fs) with true; [reflexivity|]. symmetry. apply existsb_exists. destruct (proj1 (in_map_iff _ _ _) (H g (or_introl eq_refl))) as (e & E & I).
    exists e. split; [exact I|]. destruct (path_spec (fst g) (fst e)); congruence. }
  rewrite P, IH, map_map; [reflexivity|]. intros g' I. rewrite map_map. rewrite (map_ext _ fst) by (intro; apply update_key). apply H. now right.
Qed.

Lemma updates_other gs e : ~ In (fst e) (map fst gs) -> fold_left update gs e = e.
Proof.
  revert e. induction gs as [|g gs IH]; intros e H; cbn; [reflexivity|]. cbn in H.
  replace (update e g) with e; [apply IH; tauto|]. unfold update. destruct (snd g) as [v []]; [reflexivity|].
  destruct (path_spec (fst g) (fst e)); [tauto|reflexivity].
Qed.
Lemma updates_found gs e p v : distinct gs -> In (p, (v, ReadWrite)) gs -> fst e = p -> fold_left update gs e = (p, Group_ v).
Proof.
  unfold distinct. revert e. induction gs as [|g gs IH]; intros e D I E; [destruct I|]. cbn in D. inversion D as [|? ? N D']; subst. cbn. destruct I as [->|I].
  - assert (U : update e (fst e, (v, ReadWrite)) = (fst e, Group_ v)).
    { unfold update. cbn. destruct (path_spec (fst e) (fst e)); [reflexivity|congruence]. }
    rewrite U. apply updates_other. exact N.
  - apply IH; auto. apply update_key.
Qed.

Lemma group_plain dot g : (forall s, line_of s g -> no_braces s) -> (exists d g0, group_shown d g0 g) -> group_shown dot g g.
Proof.
  intros N (d & g0 & _ & l0 & l & _ & E & F). split; [reflexivity|]. exists l, l. split; [exact E|]. split; [exact E|].
  assert (N' : forall b ls s, In b l -> bl_code b = Some ls -> In s ls -> no_braces s).
  { intros b ls s B C S. apply N. exists l, b, ls. auto. }
  clear N E. induction F as [|b0 b l0 l (_ & c0 & c & _ & Ec & _) _ IH]; [constructor|]. constructor.
  - split; [reflexivity|]. exists c, c. split; [exact Ec|]. split; [exact Ec|].
    assert (M : forall s, In s c -> no_braces s) by (intros s S; apply (N' b c s); auto; now left).
    clear - M. induction c as [|s c IH]; constructor; [apply shown_plain, M; now left|]. apply IH. intros x X. apply M. now right.
  - apply IH. intros b' ls s B. apply N'. now right.
Qed.

Lemma filter_map_key (f : path * content -> path * content) dir fs : (forall e, fst (f e) = fst e) ->
  filter (of_dir dir) (map f fs) = map f (filter (of_dir dir) fs).
Proof.
  intro H. induction fs as [|e fs IH]; [reflexivity|]. cbn. replace (of_dir dir (f e)) with (of_dir dir e) by (unfold of_dir; now rewrite H).
  destruct (of_dir dir e); cbn; now rewrite IH.
Qed.

Lemma entries_keys dot a l gs : Forall2 (entry_of dot a) l gs -> map fst gs = map fst l.
Proof. induction 1 as [|e g l gs (K & _) _ IH]; [reflexivity|]. cbn. now rewrite K, IH. Qed.

Lemma distinct_filter (p : path * content -> bool) fs : distinct fs -> distinct (filter p fs).
Proof.
  unfold distinct. induction fs as [|e fs IH]; cbn; intro D; [constructor|]. inversion D as [|? ? N D']; subst. destruct (p e); [|auto].
  cbn. constructor; [|auto]. intro I. apply N. apply in_map_iff in I as (x & E & I). apply filter_In in I as [I _]. rewrite <- E. now apply in_map.
Qed.

Lemma saved dir dot dot' fs gs : full dir = dir -> distinct fs -> read_groups full dir dot ReadWrite fs = Ok gs ->
  (forall g s, In g gs -> line_of s (fst (snd g)) -> no_braces s) ->
  read_groups full dir dot' ReadWrite (write_groups full gs dir fs) = Ok gs.
Proof.
  intros FD D R N. apply read_iff_filter in R. apply read_iff_filter. rewrite FD in *. pose proof (entries_keys _ _ _ _ R) as K.
  assert (DG : distinct gs) by (unfold distinct; rewrite K; now apply distinct_filter).
  assert (W : write_groups full gs dir fs = map (fun e => fold_left update gs e) fs).
  { unfold write_groups. change (fun fs g => match snd g with (_, ReadOnly) => fs | (v, ReadWrite) => put_file (fst g) (Group_ v) fs end) with put_one.
    match goal with |- fold_left put_one gs (filter ?p fs) = _ => assert (X : filter p fs = fs) end.
    { assert (Q : forall e, In e fs -> of_dir dir e = true -> In (fst e) (map fst gs)).
      { intros e I O. rewrite K. apply in_map. now apply filter_In. }
      clear - Q FD. induction fs as [|e fs IH]; [reflexivity|]. cbn [filter]. rewrite IH by (intros; apply Q; auto; now right).
      match goal with |- (if ?c then _ else _) = _ => replace c with true; [reflexivity|] end. symmetry. apply negb_true_iff. rewrite FD.
      match goal with |- ?x && _ = _ => change x with (of_dir dir e) end.
      destruct (of_dir dir e) eqn:O; [|reflexivity]. cbn [andb]. apply negb_false_iff.
      apply existsb_exists. specialize (Q e (or_introl eq_refl) O). apply in_map_iff in Q as (g & E & I). exists g. split; [exact I|].
      apply of_dir_iff in O as [O _]. rewrite E. destruct e as [[ed en] ec]. cbn in O |- *. subst ed.
      destruct (path_spec (dir, en) (dir, en)); [reflexivity|congruence]. }
    rewrite X. apply puts_map. intros g I. assert (J : In (fst g) (map fst gs)) by now apply in_map.
    rewrite K in J. apply in_map_iff in J as (e & <- & J). apply filter_In in J as [J _]. now apply in_map. }
  rewrite W, filter_map_key by (intro; apply updates_key).
  assert (X : forall l hs, Forall2 (entry_of dot ReadWrite) l hs -> (forall g, In g hs -> In g gs) ->
    Forall2 (entry_of dot' ReadWrite) (map (fun e => fold_left update gs e) l) hs); [|now apply X].
  clear W K R. intros l hs R. induction R as [|e h l hs (KE & A & v & _ & S) _ IH]; intro G; [constructor|].
  cbn [map]. constructor; [|apply IH; intros; apply G; now right].
  assert (I : In h gs) by (apply G; now left). destruct h as [p [u a]]. cbn in KE, A, S. subst a.
  rewrite (updates_found gs e p u) by auto. unfold entry_of. cbn. split; [reflexivity|]. split; [reflexivity|]. exists u. split; [reflexivity|].
  apply group_plain; [|eauto]. intros s L. exact (N _ s I L).
Qed.
End Files.
