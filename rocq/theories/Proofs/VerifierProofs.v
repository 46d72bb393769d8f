From Verif Require Import Model.Base Model.Attr Model.Double Model.Macro Model.Verifiers.
From Verif Require Import Spec.VerifierSpec Proofs.Tactics Proofs.StringFacts Proofs.TextProofs Proofs.DoubleFacts.

(** ** Uniqueness *)

Lemma addresses_app b c : addresses (b ++ c)%list = (addresses b ++ addresses c)%list.
Proof. apply flat_map_app. Qed.

(** [seen] holds the unique addresses of the prefix [pre]. *)
Definition seen_ok wm pre seen : Prop :=
  forall w, unique_address wm w -> (In w seen <-> In w pre).

Lemma unique_step_other wm seen w v : unique_step wm seen (AStr w v) = Ok seen.
Proof. reflexivity. Qed.

Definition no_repeats wm l := forall w, unique_address wm w -> ~ repeated w l.

Lemma repeated_snoc w l x :
  repeated w (l ++ [x])%list <-> repeated w l \/ (w = x /\ In w l).
Proof.
  unfold repeated. rewrite count_occ_app. cbn.
  rewrite (count_occ_In string_dec l w).
  destruct (string_dec x w) as [->|D]; split.
  - intro H. destruct (Nat.le_gt_cases 2 (count_occ string_dec l w)); [tauto|right]. split; [reflexivity|lia].
  - intros [H|[_ H]]; lia.
  - intro H. left. lia.
  - intros [H|[H _]]; [lia|congruence].
Qed.

Lemma unique_fold wm b : forall pre seen, seen_ok wm pre seen -> no_repeats wm pre ->
  match foldM (unique_step wm) seen b with
  | Ok _ => no_repeats wm (pre ++ addresses b)%list
  | Exc e => exists w l1 l2, addresses b = (l1 ++ w :: l2)%list /\ e = EUniqueCode w /\
      unique_address wm w /\ In w (pre ++ l1)%list /\ no_repeats wm (pre ++ l1)%list
  end.
Proof.
  induction b as [|a b IH]; intros pre seen S N; cbn [foldM].
  - cbn. now rewrite app_nil_r.
  - destruct a as [d|w v|w c]; [|apply (IH pre seen S N)|apply (IH pre seen S N)].
    change (addresses (ADec d :: b)) with (d_word d :: addresses b).
    cbn [unique_step].
    assert (Skip : forall seen', seen_ok wm (pre ++ [d_word d])%list seen' ->
      (unique_address wm (d_word d) -> ~ In (d_word d) pre) ->
      match foldM (unique_step wm) seen' b with
      | Ok _ => no_repeats wm (pre ++ d_word d :: addresses b)%list
      | Exc e => exists w l1 l2, (d_word d :: addresses b) = (l1 ++ w :: l2)%list /\ e = EUniqueCode w /\
          unique_address wm w /\ In w (pre ++ l1)%list /\ no_repeats wm (pre ++ l1)%list
      end).
    { intros seen' S' U.
      assert (N' : no_repeats wm (pre ++ [d_word d])%list).
      { intros w Hw. rewrite repeated_snoc. intros [R | [-> I]]; [exact (N w Hw R)|exact (U Hw I)]. }
      specialize (IH _ _ S' N').
      replace (pre ++ d_word d :: addresses b)%list with ((pre ++ [d_word d]) ++ addresses b)%list
        by (rewrite <- app_assoc; reflexivity).
      destruct (foldM (unique_step wm) seen' b) as [s|e]; [exact IH|].
      destruct IH as (w & l1 & l2 & E & X & Y & I & R).
      exists w, (d_word d :: l1), l2. rewrite E.
      replace (pre ++ d_word d :: l1)%list with ((pre ++ [d_word d]) ++ l1)%list
        by (rewrite <- app_assoc; reflexivity).
      auto. }
    destruct (assoc (d_word d) wm) as [g|] eqn:A.
    2:{ apply Skip.
        - intros w Hw. rewrite (S w Hw), in_app_iff. cbn. split; [tauto|].
          intros [H|[H|[]]]; [exact H|]. subst. destruct Hw as (g & Hg & _). congruence.
        - intros (g & Hg & _). congruence. }
    destruct (g_unique g) eqn:U; cbn [negb].
    2:{ apply Skip.
        - intros w Hw. rewrite (S w Hw), in_app_iff. cbn. split; [tauto|].
          intros [H|[H|[]]]; [exact H|]. subst. destruct Hw as (g' & Hg & U'). congruence.
        - intros (g' & Hg & U'). congruence. }
    assert (Hu : unique_address wm (d_word d)) by (exists g; auto).
    destruct (mem_str (d_word d) seen) eqn:M; cbn [negb].
    + apply mem_str_In in M. apply (S _ Hu) in M.
      exists (d_word d), [], (addresses b). rewrite app_nil_r. auto.
    + apply mem_str_not_In in M. apply Skip.
      * intros w Hw. rewrite in_app_iff. cbn. rewrite (S w Hw). tauto.
      * intros _ I. apply M. now apply (S _ Hu).
Qed.

Lemma unique_result wm b :
  match unique_code wm b with
  | Ok _ => no_repeats wm (addresses b)
  | Exc e => exists w l1 l2, addresses b = (l1 ++ w :: l2)%list /\ e = EUniqueCode w /\
      unique_address wm w /\ In w l1 /\ no_repeats wm l1
  end.
Proof.
  unfold unique_code.
  pose proof (unique_fold wm b [] []) as H. cbn [app] in H.
  assert (S : seen_ok wm [] []) by (intros w _; tauto).
  assert (N : no_repeats wm []) by (intros w _ R; unfold repeated in R; cbn in R; lia).
  specialize (H S N). now destruct (foldM (unique_step wm) [] b).
Qed.

Lemma unique_accepts wm b : unique_code wm b = Ok tt <->
  (forall w, unique_address wm w -> ~ repeated w (addresses b)).
Proof.
  pose proof (unique_result wm b) as H. destruct (unique_code wm b) as [[]|e].
  - split; auto.
  - split; [discriminate|]. intro N. destruct H as (w & l1 & l2 & E & _ & U & I & _).
    exfalso. apply (N w U). rewrite E. unfold repeated. rewrite count_occ_app. cbn.
    apply (count_occ_In string_dec) in I. destruct (string_dec w w); [lia|congruence].
Qed.

Lemma unique_rejects wm b e : unique_code wm b = Exc e ->
  exists w l1 l2, addresses b = (l1 ++ w :: l2)%list /\ e = EUniqueCode w /\
    unique_address wm w /\ In w l1 /\ (forall x, unique_address wm x -> ~ repeated x l1).
Proof. intro E. pose proof (unique_result wm b) as H. now rewrite E in H. Qed.

(** ** Code groups *)

Lemma cgv_eqb_eq a b : cgv_eqb a b = true <-> a = b.
Proof.
  destruct a as [a1 a2], b as [b1 b2]. unfold cgv_eqb. cbn.
  rewrite andb_true_iff, !Z.eqb_eq. split; [intros []; congruence|intro H; inv H; auto].
Qed.

Lemma find_groups_In m c gs : NoDup (map fst m) ->
  (find_groups m c = Some gs <-> In (c, gs) m).
Proof.
  induction m as [|[k g] m IH]; cbn; intro N; [split; [discriminate|tauto]|]. inv N.
  destruct (cgv_eqb c k) eqn:E.
  - apply cgv_eqb_eq in E. subst. split; [intro H; inv H; auto|].
    intros [H|H]; [now inv H|]. exfalso. apply H1. change k with (fst (k, gs)). now apply in_map.
  - rewrite IH by assumption. split; [auto|]. intros [H|H]; [|exact H].
    inv H. rewrite (proj2 (cgv_eqb_eq c c) eq_refl) in E. discriminate.
Qed.

Lemma find_groups_None m c : find_groups m c = None -> forall g, ~ in_group m c g.
Proof.
  induction m as [|[k gs] m IH]; cbn; intros H g (gs' & I & G); [exact I|].
  destruct (cgv_eqb c k) eqn:E; [discriminate|]. destruct I as [I|I].
  - inv I. rewrite (proj2 (cgv_eqb_eq c c) eq_refl) in E. discriminate.
  - apply (IH H g). exists gs'. split; [exact I|exact G].
Qed.

Lemma in_group_find m c gs g : NoDup (map fst m) -> find_groups m c = Some gs ->
  (in_group m c g <-> In g gs).
Proof.
  intros N F. split.
  - intros (gs' & I & G). apply (find_groups_In m c gs' N) in I. congruence.
  - intro G. exists gs. split; [now apply find_groups_In|exact G].
Qed.

Lemma split_point_digits t : all_chars is_digit t = true -> split_point t = None.
Proof.
  induction t as [|c t IH]; cbn; [reflexivity|]. intro H. apply andb_true_iff in H as [Hc H].
  destruct (Ascii.eqb_spec c "."); [subst; discriminate Hc|]. now rewrite IH.
Qed.

Lemma split_point_app a b : all_chars is_digit a = true ->
  split_point (a ++ "." ++ b) = Some (a, b).
Proof.
  induction a as [|c t IH]; cbn; [reflexivity|]. intro H. apply andb_true_iff in H as [Hc H].
  destruct (Ascii.eqb_spec c "."); [subst; discriminate Hc|]. cbn in IH. now rewrite IH.
Qed.

Lemma to_u32_denotes s n : denotes s n -> n <= int_max -> to_u32 n = n.
Proof. intros D H. apply to_u32_id. split; [eapply denotes_nonneg; eauto|exact H]. Qed.

Definition text_result (t : string) : res (option cgv) :=
  match split_point t with
  | Some (ip, fp) => do c <- stoi ip; do r <- stoi fp; Ok (Some (mkCgv (to_u32 c) (to_u32 r)))
  | None => do c <- stoi t; Ok (Some (mkCgv (to_u32 c) 0))
  end.

Lemma text_result_ok t c : text_code t c -> text_result t = Ok (Some c).
Proof.
  unfold text_result. intros [n D H | a b n r -> Da Ha Db Hb].
  - rewrite split_point_digits by apply D. rewrite (stoi_ok _ _ D H). cbn [bind].
    now rewrite (to_u32_denotes _ _ D H).
  - rewrite split_point_app by apply Da. rewrite (stoi_ok _ _ Da Ha), (stoi_ok _ _ Db Hb).
    cbn [bind]. now rewrite (to_u32_denotes _ _ Da Ha), (to_u32_denotes _ _ Db Hb).
Qed.

Lemma word_code_of mv line w d c : readable_code mv line w (ADec d) -> code_of mv line w d c ->
  word_code mv line w d = Ok (Some c).
Proof.
  intros R C. unfold word_code.
  assert (Hw : d_word d = w) by (destruct C; assumption).
  assert (Hr : (forall v, d_value d = Some v -> exists n, denotes v n /\ n <= int_max) /\
               (forall v, d_value2 d = Some v -> exists n, denotes v n /\ n <= int_max)).
  { destruct R as [R|[R|(R1 & R2 & _)]]; [contradiction| |auto].
    exfalso. destruct C as [c W M P|v id x c W M V]; [destruct P|]; congruence. }
  destruct Hr as [R1 R2]. rewrite (proj2 (String.eqb_eq _ _) Hw). cbn [negb].
  destruct C as [c _ M P | v id x c _ M V D L T].
  - destruct P as [v n V D V2|v n v2 r V D V2 D2]; rewrite V.
    + destruct (R1 v V) as (n' & D' & H). rewrite (denotes_fun _ _ _ D' D) in H.
      rewrite (stoi_ok _ _ D H). cbn [bind]. rewrite M, V2. now rewrite (to_u32_denotes _ _ D H).
    + destruct (R1 v V) as (n' & D' & H). rewrite (denotes_fun _ _ _ D' D) in H.
      destruct (R2 v2 V2) as (r' & D2' & H2). rewrite (denotes_fun _ _ _ D2' D2) in H2.
      rewrite (stoi_ok _ _ D H). cbn [bind]. rewrite M, V2, (stoi_ok _ _ D2 H2). cbn [bind].
      now rewrite (to_u32_denotes _ _ D H), (to_u32_denotes _ _ D2 H2).
  - rewrite V. destruct (R1 v V) as (n' & D' & H). rewrite (denotes_fun _ _ _ D' D) in H.
    rewrite (stoi_ok _ _ D H). cbn [bind]. rewrite (to_u32_denotes _ _ D H).
    destruct (d_macro d); [|discriminate M]. rewrite L. now apply text_result_ok.
Qed.

Lemma code_of_fun mv line w d c c' : readable_code mv line w (ADec d) ->
  code_of mv line w d c -> code_of mv line w d c' -> c = c'.
Proof.
  intros R H H'. apply (word_code_of _ _ _ _ _ R) in H. apply (word_code_of _ _ _ _ _ R) in H'. congruence.
Qed.

Lemma word_code_undefined mv line w d : readable_code mv line w (ADec d) ->
  undefined_macro mv line w d ->
  exists v, d_value d = Some v /\
    word_code mv line w d = Exc (ECodeGroups ["MissingValue"; ("#" ++ v)%string]).
Proof.
  intros R (v & id & W & M & V & D & L). exists v. split; [exact V|]. unfold word_code.
  rewrite (proj2 (String.eqb_eq _ _) W), V. cbn [negb].
  destruct R as [R|[R|(R1 & _)]]; [contradiction|congruence|].
  destruct (R1 v V) as (n' & D' & H). rewrite (denotes_fun _ _ _ D' D) in H.
  rewrite (stoi_ok _ _ D H). cbn [bind]. rewrite (to_u32_denotes _ _ D H), L.
  destruct (d_macro d); [reflexivity|discriminate M].
Qed.

Lemma word_code_none mv line w d : d_word d <> w \/ d_value d = None ->
  word_code mv line w d = Ok None /\ (forall c, ~ code_of mv line w d c) /\ ~ undefined_macro mv line w d.
Proof.
  intro H. repeat split.
  - unfold word_code. destruct (String.eqb_spec (d_word d) w); [|reflexivity]. cbn [negb].
    destruct H as [H|H]; [contradiction|]. now rewrite H.
  - intros c C. destruct H as [H|H]; destruct C as [c W M P|v id x c W M V]; try contradiction;
      [destruct P|]; congruence.
  - intros (v & id & W & M & V & _). destruct H; [contradiction|congruence].
Qed.

Lemma exists_last_or {A} (l : list A) : l = [] \/ exists l' x, l = (l' ++ [x])%list.
Proof. destruct l as [|a l]; [now left|right]. destruct (@exists_last _ (a :: l)) as (l' & x & E); [discriminate|eauto]. Qed.

Section Groups.
Variables (mv : macro_map dbl) (line : Z) (w : string) (m : code_groups).
Hypothesis Gm : groups_ok m.

Definition held (pre : block) (c : cgv) (g : string) : Prop :=
  exists d, In (ADec d) pre /\ code_of mv line w d c /\ in_group m c g.

Definition occ_ok (pre : block) (occ : occ_map) : Prop :=
  (forall g c, assoc g occ = Some c -> held pre c g) /\
  (forall g c, held pre c g -> assoc g occ <> None).

Lemma visit_groups_spec c gs : NoDup gs -> forall occ,
  match visit_groups w c occ gs with
  | Ok occ' => (forall g, In g gs -> assoc g occ = None) /\
      (forall g, assoc g occ' = if mem_str g gs then Some c else assoc g occ)
  | Exc e => exists g c2, In g gs /\ assoc g occ = Some c2 /\
      e = ECodeGroups ["InSameCodeGroup"; cgv_text w c; cgv_text w c2; g]
  end.
Proof.
  induction gs as [|g gs IH]; intros N occ; cbn [visit_groups].
  - split; [intros g []|reflexivity].
  - inv N. destruct (assoc g occ) as [c2|] eqn:A.
    + exists g, c2. split; [now left|auto].
    + specialize (IH H2 ((g, c) :: occ)). destruct (visit_groups w c ((g, c) :: occ) gs) as [occ'|e].
      * destruct IH as [IH1 IH2]. split.
        -- intros x [->|I]; [exact A|]. specialize (IH1 x I). cbn in IH1.
           destruct (String.eqb_spec x g); [discriminate|exact IH1].
        -- intro x. rewrite IH2. cbn. destruct (String.eqb_spec x g).
           ++ subst. cbn [orb]. now destruct (mem_str g gs).
           ++ reflexivity.
      * destruct IH as (x & c2 & I & A' & E). exists x, c2. cbn in A'.
        destruct (String.eqb_spec x g); [subst; contradiction|]. split; [now right|auto].
Qed.

Lemma conflict_snoc pre a c1 c2 g :
  conflict mv line w m (pre ++ [a])%list c1 c2 g <->
  conflict mv line w m pre c1 c2 g \/
  (held pre c1 g /\ exists d, a = ADec d /\ code_of mv line w d c2 /\ in_group m c2 g).
Proof.
  split.
  - intros (b1 & d1 & b2 & d2 & b3 & E & C1 & C2 & G1 & G2).
    destruct (exists_last_or b3) as [->|(b3' & z & ->)].
    + right. replace (b1 ++ ADec d1 :: b2 ++ [ADec d2])%list with ((b1 ++ ADec d1 :: b2) ++ [ADec d2])%list in E
        by (rewrite <- app_assoc; reflexivity).
      apply app_inj_tail in E as [-> ->]. split; [|exists d2; auto].
      exists d1. split; [apply in_or_app; right; now left|auto].
    + left. replace (b1 ++ ADec d1 :: b2 ++ ADec d2 :: b3' ++ [z])%list
        with ((b1 ++ ADec d1 :: b2 ++ ADec d2 :: b3') ++ [z])%list in E
        by (rewrite <- !app_assoc; cbn; rewrite <- app_assoc; reflexivity).
      apply app_inj_tail in E as [-> _]. exists b1, d1, b2, d2, b3'. auto.
  - intros [(b1 & d1 & b2 & d2 & b3 & -> & H)|[(d1 & I & C1 & G1) (d2 & -> & C2 & G2)]].
    + exists b1, d1, b2, d2, (b3 ++ [a])%list. split; [|exact H].
      rewrite <- !app_assoc. cbn. now rewrite <- app_assoc.
    + apply in_split in I as (b1 & b2 & ->). exists b1, d1, b2, d2, [].
      split; [now rewrite <- app_assoc|auto].
Qed.

Lemma groups_fold rm b : rm = false -> forall pre occ, occ_ok pre occ ->
  Forall (readable_code mv line w) b ->
  (forall c1 c2 g, ~ conflict mv line w m pre c1 c2 g) ->
  match foldM (groups_step mv line w m rm) occ b with
  | Ok _ => (forall c1 c2 g, ~ conflict mv line w m (pre ++ b)%list c1 c2 g) /\ ~ some_undefined mv line w b
  | Exc e =>
      (exists d v, In (ADec d) b /\ undefined_macro mv line w d /\ d_value d = Some v /\
        e = ECodeGroups ["MissingValue"; ("#" ++ v)%string]) \/
      (exists c1 c2 g, conflict mv line w m (pre ++ b)%list c1 c2 g /\
        e = ECodeGroups ["InSameCodeGroup"; cgv_text w c2; cgv_text w c1; g])
  end.
Proof.
  intros ->. induction b as [|a b IH]; intros pre occ O R N; cbn [foldM].
  - rewrite app_nil_r. split; [exact N|]. intros (d & [] & _).
  - inv R. rename H1 into Ra, H2 into Rb.
    assert (Next : forall occ', occ_ok (pre ++ [a])%list occ' ->
      (forall c1 c2 g, ~ conflict mv line w m (pre ++ [a])%list c1 c2 g) ->
      (forall d, a = ADec d -> ~ undefined_macro mv line w d) ->
      match foldM (groups_step mv line w m false) occ' b with
      | Ok _ => (forall c1 c2 g, ~ conflict mv line w m (pre ++ a :: b)%list c1 c2 g) /\ ~ some_undefined mv line w (a :: b)
      | Exc e =>
          (exists d v, In (ADec d) (a :: b) /\ undefined_macro mv line w d /\ d_value d = Some v /\
            e = ECodeGroups ["MissingValue"; ("#" ++ v)%string]) \/
          (exists c1 c2 g, conflict mv line w m (pre ++ a :: b)%list c1 c2 g /\
            e = ECodeGroups ["InSameCodeGroup"; cgv_text w c2; cgv_text w c1; g])
      end).
    { intros occ' O' N' U. specialize (IH _ _ O' Rb N'). rewrite <- app_assoc in IH. cbn [app] in IH.
      destruct (foldM (groups_step mv line w m false) occ' b) as [o|e].
      - destruct IH as [IH1 IH2]. split; [exact IH1|]. intros (d & [I|I] & Hd); [exact (U d I Hd)|].
        apply IH2. exists d. auto.
      - destruct IH as [(d & v & I & H)|IH]; [left|now right]. exists d, v. split; [now right|exact H]. }
    assert (Skip : (forall d c, a = ADec d -> ~ code_of mv line w d c \/ find_groups m c = None) ->
      (forall d, a = ADec d -> ~ undefined_macro mv line w d) ->
      match foldM (groups_step mv line w m false) occ b with
      | Ok _ => (forall c1 c2 g, ~ conflict mv line w m (pre ++ a :: b)%list c1 c2 g) /\ ~ some_undefined mv line w (a :: b)
      | Exc e =>
          (exists d v, In (ADec d) (a :: b) /\ undefined_macro mv line w d /\ d_value d = Some v /\
            e = ECodeGroups ["MissingValue"; ("#" ++ v)%string]) \/
          (exists c1 c2 g, conflict mv line w m (pre ++ a :: b)%list c1 c2 g /\
            e = ECodeGroups ["InSameCodeGroup"; cgv_text w c2; cgv_text w c1; g])
      end).
    { intros HC HU. assert (HC' : forall d c g, a = ADec d -> code_of mv line w d c -> ~ in_group m c g).
      { intros d c g E C. destruct (HC d c E) as [H|H]; [contradiction|now apply find_groups_None]. }
      apply Next.
      - destruct O as [O1 O2]. split.
        + intros g c A. destruct (O1 g c A) as (d & I & H). exists d. split; [apply in_or_app; now left|exact H].
        + intros g c (d & I & C & G). apply in_app_or in I as [I|[I|[]]].
          * apply (O2 g c). exists d. auto.
          * exfalso. exact (HC' d c g I C G).
      - intros c1 c2 g C. apply conflict_snoc in C as [C|[_ (d & E & C & G)]]; [exact (N _ _ _ C)|].
        exact (HC' d c2 g E C G).
      - exact HU. }
    destruct a as [d|s v|s c]; cbn [groups_step]; [|apply Skip; intros; discriminate|apply Skip; intros; discriminate].
    destruct (string_dec (d_word d) w) as [W|W].
    2:{ destruct (word_code_none mv line w d (or_introl W)) as (-> & HC & HU). cbn [bind].
        apply Skip; [intros d' c' E; left|intros d' E]; inv E; auto. }
    destruct (d_value d) as [v|] eqn:V.
    2:{ destruct (word_code_none mv line w d (or_intror V)) as (-> & HC & HU). cbn [bind].
        apply Skip; [intros d' c' E; left|intros d' E]; inv E; auto. }
    assert (Cases : undefined_macro mv line w d \/ exists c, code_of mv line w d c).
    { destruct Ra as [H|[H|(_ & _ & H)]]; [contradiction|congruence|exact H]. }
    destruct Cases as [U|[c C]].
    { destruct (word_code_undefined mv line w d Ra U) as (v' & V' & ->). cbn [bind]. left.
      exists d, v'. split; [now left|auto]. }
    assert (NU : ~ undefined_macro mv line w d).
    { intro U. destruct (word_code_undefined mv line w d Ra U) as (v' & _ & E).
      rewrite (word_code_of _ _ _ _ _ Ra C) in E. discriminate. }
    rewrite (word_code_of _ _ _ _ _ Ra C). cbn [bind].
    destruct (find_groups m c) as [gs|] eqn:F.
    2:{ apply Skip.
        - intros d' c' E. inv E. destruct (cgv_eqb c c') eqn:Ec.
          + apply cgv_eqb_eq in Ec. subst. now right.
          + left. intro C'. rewrite (code_of_fun _ _ _ _ _ _ Ra C' C) in Ec.
            rewrite (proj2 (cgv_eqb_eq c c) eq_refl) in Ec. discriminate.
        - intros d' E. inv E. exact NU. }
    destruct Gm as [Gk Gs].
    assert (Ng : NoDup gs).
    { apply (find_groups_In m c gs Gk) in F. rewrite Forall_forall in Gs. exact (Gs _ F). }
    pose proof (visit_groups_spec c gs Ng occ) as VG.
    destruct (visit_groups w c occ gs) as [occ'|e].
    + destruct VG as [VG1 VG2]. destruct O as [O1 O2]. apply Next.
      * split.
        -- intros g c' A. rewrite VG2 in A. destruct (mem_str g gs) eqn:M.
           ++ inv A. exists d. split; [apply in_or_app; right; now left|]. split; [exact C|].
              apply (in_group_find m c' gs g Gk F). now apply mem_str_In.
           ++ destruct (O1 g c' A) as (d' & I & H). exists d'. split; [apply in_or_app; now left|exact H].
        -- intros g c' (d' & I & C' & G). rewrite VG2. destruct (mem_str g gs) eqn:M; [discriminate|].
           apply in_app_or in I as [I|[I|[]]].
           ++ apply (O2 g c'). exists d'. auto.
           ++ inv I. rewrite (code_of_fun _ _ _ _ _ _ Ra C' C) in G.
              apply (in_group_find m c gs g Gk F) in G. apply mem_str_not_In in M. contradiction.
      * intros c1 c2 g Cf. apply conflict_snoc in Cf as [Cf|[Hh (d' & E & C' & G)]]; [exact (N _ _ _ Cf)|].
        inv E. rewrite (code_of_fun _ _ _ _ _ _ Ra C' C) in G.
        apply (in_group_find m c gs g Gk F) in G. apply (O2 g c1 Hh). now apply VG1.
      * intros d' E. inv E. exact NU.
    + destruct VG as (g & c2 & I & A & ->). right. exists c2, c, g. split; [|reflexivity].
      destruct O as [O1 _]. destruct (O1 g c2 A) as (d1 & I1 & C1 & G1).
      apply in_split in I1 as (b1 & b2 & ->). exists b1, d1, b2, d, b.
      split; [rewrite <- app_assoc; reflexivity|]. split; [exact C1|]. split; [exact C|]. split; [exact G1|].
      now apply (in_group_find m c gs g Gk F).
Qed.

Lemma groups_letter b : Forall (readable_code mv line w) b ->
  match foldM (groups_step mv line w m false) [] b with
  | Ok _ => (forall c1 c2 g, ~ conflict mv line w m b c1 c2 g) /\ ~ some_undefined mv line w b
  | Exc e =>
      (exists d v, In (ADec d) b /\ undefined_macro mv line w d /\ d_value d = Some v /\
        e = ECodeGroups ["MissingValue"; ("#" ++ v)%string]) \/
      (exists c1 c2 g, conflict mv line w m b c1 c2 g /\
        e = ECodeGroups ["InSameCodeGroup"; cgv_text w c2; cgv_text w c1; g])
  end.
Proof.
  intro R. apply (groups_fold false b eq_refl [] []); [|exact R|].
  - split; [discriminate|]. intros g c (d & [] & _).
  - intros c1 c2 g (b1 & d1 & b2 & d2 & b3 & E & _). destruct b1; discriminate.
Qed.
End Groups.

Definition block_fine mv line w m b : Prop :=
  (forall c1 c2 g, ~ conflict mv line w m b c1 c2 g) /\ ~ some_undefined mv line w b.

Lemma groups_accepts mv gg mg line b : groups_ok gg -> groups_ok mg ->
  Forall (readable_code mv line "G") b -> Forall (readable_code mv line "M") b ->
  (code_groups_verifier mv gg mg line false b = Ok tt <->
   (forall c1 c2 g, ~ conflict mv line "G" gg b c1 c2 g) /\ ~ some_undefined mv line "G" b /\
   (forall c1 c2 g, ~ conflict mv line "M" mg b c1 c2 g) /\ ~ some_undefined mv line "M" b).
Proof.
  intros Hg Hm Rg Rm. unfold code_groups_verifier.
  pose proof (groups_letter mv line "G" gg Hg b Rg) as G.
  pose proof (groups_letter mv line "M" mg Hm b Rm) as M.
  destruct (foldM (groups_step mv line "G" gg false) [] b) as [o|e]; cbn [bind].
  - destruct (foldM (groups_step mv line "M" mg false) [] b) as [o'|e]; cbn [bind].
    + split; [intros _; tauto|reflexivity].
    + split; [discriminate|]. intros (_ & _ & N & U). exfalso.
      destruct M as [(d & v & I & Hu & _)|(c1 & c2 & g & C & _)]; [apply U; exists d; auto|exact (N _ _ _ C)].
  - split; [discriminate|]. intros (N & U & _ & _). exfalso.
    destruct G as [(d & v & I & Hu & _)|(c1 & c2 & g & C & _)]; [apply U; exists d; auto|exact (N _ _ _ C)].
Qed.

Lemma groups_rejects mv gg mg line b e : groups_ok gg -> groups_ok mg ->
  Forall (readable_code mv line "G") b -> Forall (readable_code mv line "M") b ->
  code_groups_verifier mv gg mg line false b = Exc e ->
  exists w m, (w = "G" /\ m = gg \/ w = "M" /\ m = mg) /\
   ((exists d v, In (ADec d) b /\ undefined_macro mv line w d /\ d_value d = Some v /\
        e = ECodeGroups ["MissingValue"; ("#" ++ v)%string]) \/
    (exists c1 c2 g, conflict mv line w m b c1 c2 g /\
        e = ECodeGroups ["InSameCodeGroup"; cgv_text w c2; cgv_text w c1; g])).
Proof.
  intros Hg Hm Rg Rm. unfold code_groups_verifier.
  pose proof (groups_letter mv line "G" gg Hg b Rg) as G.
  pose proof (groups_letter mv line "M" mg Hm b Rm) as M.
  destruct (foldM (groups_step mv line "G" gg false) [] b) as [o|e']; cbn [bind].
  - destruct (foldM (groups_step mv line "M" mg false) [] b) as [o'|e']; cbn [bind]; intro E; inv E.
    exists "M", mg. auto.
  - intro E; inv E. exists "G", gg. auto.
Qed.

(** ** Limits *)

Lemma substring_prefix a : forall b, String.substring 0 (String.length a) (a ++ b) = a.
Proof. induction a as [|c a IH]; intro b; cbn; [now destruct b|]. now rewrite IH. Qed.

Lemma half_app v a b : v = (a ++ b)%string ->
  String.length b = String.length a \/ String.length b = S (String.length a) ->
  substring_half v = a.
Proof.
  intros -> H. unfold substring_half. rewrite string_app_length.
  replace (Nat.div2 (String.length a + String.length b)) with (String.length a).
  - apply substring_prefix.
  - destruct H as [-> | ->].
    + replace (String.length a + String.length a)%nat with (2 * String.length a)%nat by lia.
      now rewrite Nat.div2_double.
    + replace (String.length a + S (String.length a))%nat with (S (2 * String.length a)) by lia.
      now rewrite Nat.div2_succ_double.
Qed.

Lemma substring_split n : forall s, exists b, s = (String.substring 0 n s ++ b)%string.
Proof.
  induction n as [|n IH]; intros [|c s]; cbn; eauto.
  destruct (IH s) as [b E]. exists b. now rewrite <- E.
Qed.

Lemma substring_length n : forall s, (n <= String.length s)%nat -> String.length (String.substring 0 n s) = n.
Proof.
  induction n as [|n IH]; intros [|c s]; cbn; intro H; try lia. rewrite IH; lia.
Qed.

Lemma tool_text_spec mt v n : denotes v n -> exists t, tool_of mt v t /\ denotes (tool_number_text mt v) t /\ t <= n.
Proof.
  intros D. unfold tool_number_text. destruct mt.
  1,3: exists n; repeat split; try apply D; try lia; apply tool_whole; [now left|exact D].
  destruct (Nat.ltb_spec 2 (String.length v)) as [L|L].
  2:{ exists n. repeat split; try apply D; try lia. apply tool_whole; [right; lia|exact D]. }
  destruct (substring_split (Nat.div2 (String.length v)) v) as [b E].
  set (a := String.substring 0 (Nat.div2 (String.length v)) v) in *.
  assert (La : String.length a = Nat.div2 (String.length v)).
  { apply substring_length. pose proof (Nat.div2_div (String.length v)).
    pose proof (Nat.div_le_mono (String.length v) (2 * String.length v) 2).
    pose proof (Nat.le_div2 (String.length v)). apply Nat.div2_decr. lia. }
  assert (Lb : String.length v = (String.length a + String.length b)%nat) by (rewrite E at 1; apply string_app_length).
  pose proof (Nat.div2_odd (String.length v)) as Od.
  assert (Hab : String.length b = String.length a \/ String.length b = S (String.length a)).
  { destruct (Nat.odd (String.length v)); cbn [Nat.b2n] in Od; lia. }
  destruct D as (Nz & A & V).
  assert (Aa : all_chars is_digit a = true /\ all_chars is_digit b = true).
  { rewrite E, all_chars_app in A. now apply andb_true_iff in A. }
  assert (Da : denotes a (digits_val a)).
  { repeat split; [|apply Aa]. intro Z. rewrite Z in La. cbn in La. destruct (String.length v) as [|[|[|k]]]; cbn in *; lia. }
  exists (digits_val a). split; [|split].
  - eapply tool_half; eauto.
  - exact Da.
  - rewrite <- V. unfold digits_val at 2. rewrite E, digits_acc_app.
    pose proof (digits_val_nonneg a (proj1 Aa)) as Pa. fold (digits_val a).
    rewrite digits_acc_pow. pose proof (digits_val_nonneg b (proj2 Aa)) as Pb. unfold digits_val in Pb at 1.
    assert (1 <= 10 ^ Z.of_nat (String.length b)) by (pose proof (Z.pow_pos_nonneg 10 (Z.of_nat (String.length b))); lia).
    fold (digits_val b). unfold digits_val in *. nia.
Qed.

Lemma tool_of_text mt v n : tool_of mt v n -> denotes (tool_number_text mt v) n.
Proof.
  unfold tool_number_text. intros [v' n' H D | v' a b n' -> L E H D].
  - destruct mt; try exact D. destruct (Nat.ltb_spec 2 (String.length v')); [|exact D].
    destruct H; [congruence|lia].
  - destruct (Nat.ltb_spec 2 (String.length v')); [|lia]. now rewrite (half_app _ _ _ E H).
Qed.

Lemma range_step_spec mt k d : finite (kin_max_feed k) -> integer_word d ->
  match range_step mt k (ADec d) with
  | Ok _ => ~ exceeds mt k d
  | Exc e => exceeds mt k d /\ exists l, e = ERangeVerifier (d_word d :: l)
  end.
Proof.
  intros Fk (_ & _ & _ & I). cbn [range_step]. destruct (d_value d) as [v|] eqn:V.
  2:{ intros [v n H|v n H|v n H]; congruence. }
  destruct I as (n & D & Hn).
  destruct (String.eqb_spec (d_word d) "S") as [W|W].
  { rewrite (stoi_ok _ _ D Hn). cbn [bind]. destruct (Z.ltb_spec (kin_max_spindle k) n).
    - split; [eapply ex_spindle; eauto|]. rewrite W. eauto.
    - intros [v' n' H0 V' D'|v' n' H0|v' n' H0]; try congruence.
      rewrite V in V'. inv V'. rewrite (denotes_fun _ _ _ D' D) in *. lia. }
  destruct (String.eqb_spec (d_word d) "T") as [W'|W'].
  { destruct (tool_text_spec mt v n D) as (t & T & Dt & Ht).
    rewrite (stoi_ok _ _ Dt) by lia. cbn [bind]. destruct (Z.ltb_spec (kin_warehouse k) t).
    - split; [eapply ex_tool; eauto|]. rewrite W'. eauto.
    - intros [v' n' H0|v' n' H0 V' T'|v' n' H0]; try congruence.
      rewrite V in V'. inv V'. apply tool_of_text in T'. rewrite (denotes_fun _ _ _ T' Dt) in *. lia. }
  destruct (String.eqb_spec (d_word d) "F") as [W''|W''].
  { rewrite (stoi_ok _ _ D Hn). cbn [bind].
    assert (Hi : is_int (d_of_Z n) n).
    { apply d_of_Z_int. apply denotes_nonneg in D. unfold int_max in Hn. lia. }
    destruct Hi as [Fi Ei]. pose proof (dgtb_gt (d_of_Z n) (kin_max_feed k) Fi Fk) as G. rewrite Ei in G.
    destruct (dgtb (d_of_Z n) (kin_max_feed k)).
    - split; [eapply ex_feed; [exact W''|exact V|exact D|now apply G]|]. rewrite W''. eauto.
    - intros [v' n' H0|v' n' H0|v' n' H0 V' D' G']; try congruence.
      rewrite V in V'. inv V'. rewrite (denotes_fun _ _ _ D' D) in *. apply G in G'. discriminate. }
  intros [v' n' H0|v' n' H0|v' n' H0]; congruence.
Qed.

Lemma range_accepts mt k b : finite (kin_max_feed k) -> (forall d, In (ADec d) b -> integer_word d) ->
  match range_verifier mt k b with
  | Ok _ => forall d, In (ADec d) b -> ~ exceeds mt k d
  | Exc e => exists d l, In (ADec d) b /\ exceeds mt k d /\ e = ERangeVerifier (d_word d :: l)
  end.
Proof.
  unfold range_verifier. intro Fk. induction b as [|a b IH]; intro I; cbn [foldM]; [intros d []|].
  assert (Ib : forall d, In (ADec d) b -> integer_word d) by (intros d H; apply I; now right).
  specialize (IH Ib).
  assert (S : match range_step mt k a with
    | Ok _ => forall d, a = ADec d -> ~ exceeds mt k d
    | Exc e => exists d l, a = ADec d /\ exceeds mt k d /\ e = ERangeVerifier (d_word d :: l) end).
  { destruct a as [d|w v|w c]; [|intros; discriminate|intros; discriminate].
    pose proof (range_step_spec mt k d Fk (I d (or_introl eq_refl))) as S.
    destruct (range_step mt k (ADec d)); [intros d' E; inv E; exact S|].
    destruct S as [X [l E]]. exists d, l. auto. }
  destruct (range_step mt k a) as [[]|e].
  - destruct (foldM (fun _ a0 => range_step mt k a0) tt b).
    + intros d [H|H]; [now apply S|now apply IH].
    + destruct IH as (d & l & H & X). exists d, l. split; [now right|exact X].
  - destruct S as (d & l & -> & X). exists d, l. split; [now left|exact X].
Qed.

Lemma range_fraction_refuted : exists mt k b d,
  In (ADec d) b /\ d_word d = "S" /\ number_exceeds d (kin_max_spindle k) /\ range_verifier mt k b = Ok tt.
Proof.
  set (d := mkDec "S" None None None None (Some "100") (Some "."%char) (Some "5") None).
  exists MTMill, (mkKin [] dzero 100 10), [ADec d], d.
  split; [now left|]. split; [reflexivity|]. split; [|reflexivity].
  exists "100", 100, "5", 5. repeat split; discriminate.
Qed.

(** ** Axis travel *)

Lemma axis_step_exact k zp w mn cur mx : exact_limits k zp -> finite cur ->
  match axis_step k zp (w, (mn, cur, mx)) with
  | Ok _ => ~ out_of_travel k zp w cur
  | Exc e => out_of_travel k zp w cur /\ exists l, e = ERangeVerifier (w :: l)
  end.
Proof.
  intros (Fx & Fy & Fz & L) Fc. unfold axis_step, out_of_travel.
  destruct (assoc w (kin_axes k)) as [[lo hi]|] eqn:A.
  2:{ intros (lo & hi & E & _). discriminate. }
  destruct (L w lo hi A) as (Flo & Fhi & Rlo & Rhi).
  assert (Sh : forall v, finite v -> representable (sval v - sval (offset_of zp w)) ->
    finite (shift_by (zp_offset zp w) v) /\
    sval (shift_by (zp_offset zp w) v) = sval v - sval (offset_of zp w)).
  { intros v Fv Rv. unfold zp_offset, offset_of in *. revert Rv.
    destruct (String.eqb w "X"); [|destruct (String.eqb w "Y"); [|destruct (String.eqb w "Z")]];
      cbn [shift_by]; intro Rv; try (apply dsub_exact; assumption).
    split; [exact Fv|]. cbn [sval dzero]. lia. }
  destruct (Sh lo Flo Rlo) as [Flo' Elo]. destruct (Sh hi Fhi Rhi) as [Fhi' Ehi].
  set (lo' := shift_by (zp_offset zp w) lo) in *. set (hi' := shift_by (zp_offset zp w) hi) in *.
  pose proof (dgtb_gt cur hi' Fc Fhi') as G. pose proof (dltb_lt cur lo' Fc Flo') as Lt.
  destruct (dgtb cur hi') eqn:Eg; [|destruct (dltb cur lo') eqn:El]; cbn [orb].
  - split; [|eauto]. exists lo, hi. split; [reflexivity|]. left. destruct G as [G _]. specialize (G eq_refl). lia.
  - split; [|eauto]. exists lo, hi. split; [reflexivity|]. right. destruct Lt as [Lt _]. specialize (Lt eq_refl). lia.
  - intros (lo0 & hi0 & E & H). inv E.
    destruct H as [H|H]; [destruct G as [_ C]|destruct Lt as [_ C]]; assert (false = true) by (apply C; lia); discriminate.
Qed.

Lemma axis_exact k zp wrm : exact_limits k zp -> Forall (fun e => finite (snd (fst (snd e)))) wrm ->
  match axis_verifier k zp wrm with
  | Ok _ => forall w mn cur mx, In (w, (mn, cur, mx)) wrm -> ~ out_of_travel k zp w cur
  | Exc e => exists w mn cur mx l, In (w, (mn, cur, mx)) wrm /\ out_of_travel k zp w cur /\
      e = ERangeVerifier (w :: l)
  end.
Proof.
  intro L. unfold axis_verifier. induction wrm as [|[w [[mn cur] mx]] wrm IH]; intro F; cbn [foldM].
  - intros w mn cur mx [].
  - inv F. cbn [fst snd] in H1. specialize (IH H2).
    pose proof (axis_step_exact k zp w mn cur mx L H1) as S.
    destruct (axis_step k zp (w, (mn, cur, mx))) as [[]|e].
    + destruct (foldM (fun _ e => axis_step k zp e) tt wrm).
      * intros w' mn' cur' mx' [E|I]; [inv E; exact S|exact (IH _ _ _ _ I)].
      * destruct IH as (w' & mn' & cur' & mx' & l & I & X). exists w', mn', cur', mx', l. split; [now right|exact X].
    + destruct S as [O [l E]]. exists w, mn, cur, mx, l. split; [now left|auto].
Qed.
