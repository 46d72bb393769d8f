(** Code lenses and completion lists: proofs. *)
From Coq Require Import Permutation.
From Verif Require Import Model.Base Model.Macro Model.NCText Model.MacrosDesc Model.Server Spec.ServerSpec Spec.LensSpec.
From Verif Require Import Proofs.Tactics Proofs.ServerProofs Proofs.DescProofs.

Section Handler.
Variable env : server_env.

Lemma all_split ds1 ds2 : forall v p v' p' outs, handle_all env (v, p) (ds1 ++ ds2) = Ok (v', p', outs) ->
  List.length outs = List.length (ds1 ++ ds2) -> exists v1 p1 o1 o2, handle_all env (v, p) ds1 = Ok (v1, p1, o1) /\
    List.length o1 = List.length ds1 /\
    (ds2 = [] \/ sv_exit v1 = false \/ ds1 = []) /\
    handle_all env (v1, p1) ds2 = Ok (v', p', o2) /\ List.length o2 = List.length ds2 /\ outs = (o1 ++ o2)%list.
Proof.
  induction ds1 as [|d ds1 IH]; intros v p v' p' outs H L; cbn [app] in *.
  - exists v, p, [], outs. repeat split; auto.
  - cbn [handle_all] in H. apply bind_ok in H as ([[v1 p1] out] & E & H). cbn [fst] in H.
    destruct (sv_exit v1) eqn:X.
    + inv H. cbn in L. assert (ds1 = [] /\ ds2 = []) as [-> ->].
      { rewrite app_length in L. destruct ds1, ds2; cbn in L; try lia; auto. }
      exists v', p', [out], []. cbn [handle_all]. rewrite E. cbn [bind fst]. rewrite X. repeat split; auto.
    + apply bind_ok in H as ([[v2 p2] outs'] & E2 & H). inv H. cbn in L.
      destruct (IH _ _ _ _ _ E2) as (v3 & p3 & o1 & o2 & A & B & C & D & F & ->); [lia|].
      exists v3, p3, (out :: o1), o2. cbn [handle_all]. rewrite E. cbn [bind fst]. rewrite X, A. cbn. rewrite B. repeat split; auto.
      destruct C as [C|[C| ->]]; auto. cbn in A. inv A. auto.
Qed.

Lemma step_uri d v p v' p' out : step env d v p v' p' out -> ~ method d "textDocument/codeLens" -> sv_uri v' = sv_uri v.
Proof.
  intros S N. inv S; try contradiction; auto.
  - apply publish_inv in H2 as (ms & mm & pt & v1 & er & ds & _ & -> & Hf & _ & _). apply fetch_macros_grown in Hf as [(_ & -> & _) _]. reflexivity.
  - apply publish_inv in H3 as (ms & mm & pt & v1 & er & ds & _ & -> & Hf & _ & _). apply fetch_macros_grown in Hf as [(_ & -> & _) _]. reflexivity.
  - apply fetch_gcodes_grown in H1 as [(_ & E1 & _) _]. apply fetch_mcodes_grown in H2 as [(_ & E2 & _) _]. now rewrite E2, E1.
  - apply hover_inv in H0 as (? & ? & ? & ? & ? & _ & _ & H0 & _). apply hover_line_grown in H0 as (_ & -> & _). auto.
Qed.

Lemma all_uri ds : forall v p v' p' outs, handle_all env (v, p) ds = Ok (v', p', outs) ->
  Forall (fun d => ~ method d "textDocument/codeLens") ds -> sv_uri v' = sv_uri v.
Proof.
  induction ds as [|d ds IH]; intros v p v' p' outs H N; cbn in H; [now inv H|].
  apply bind_ok in H as ([[v1 p1] out] & E & H). cbn [fst] in H. inv N. apply handle_step in E. apply step_uri in E; auto.
  destruct (sv_exit v1); [now inv H|]. apply bind_ok in H as ([[v2 p2] outs'] & E2 & H). inv H. rewrite <- E. eauto.
Qed.

Lemma find_line_spec n l : match find_line n l with Some s => In (n, s) l | None => forall s, ~ In (n, s) l end.
Proof.
  induction l as [|[k s] l IH]; cbn; auto. destruct (Z.eqb_spec k n) as [->|N]; auto.
  destruct (find_line n l); auto. intros s' [E|I]; [inv E; congruence|]. eapply IH; eauto.
Qed.

(** ** Completion *)

Lemma items_of id ls : items (response id (JArr (completion_items 1 ls))) ls.
Proof.
  exists (completion_items 1 ls). split; [reflexivity|].
  assert (K : forall k, List.length (completion_items k ls) = List.length ls /\
    forall i l, nth_error ls i = Some l -> exists j, nth_error (completion_items k ls) i = Some j /\
      at_path j ["label"] = Some (JStr l) /\ at_path j ["data"] = Some (JInt (Z.of_nat i + k))).
  { induction ls as [|a ls IH]; intro k; cbn; [split; auto; intros [|i] l E; discriminate|].
    destruct (IH (k + 1)) as [L H]. split; [lia|]. intros [|i] l E; cbn in E.
    - inv E. eexists. split; [reflexivity|]. split; reflexivity.
    - destruct (H i l E) as (j & A & B & C). exists j. split; auto. split; auto. replace (Z.of_nat (S i) + k) with (Z.of_nat i + (k + 1)) by lia. exact C. }
  apply K.
Qed.

Lemma step_macros d v p v' p' out e : step env d v p v' p' out -> says d e ->
  (sv_macros v' <> None <-> sv_macros v <> None \/ exists u t, e = Sent u t).
Proof.
  intros S Y.
  assert (PUB : forall u' t' n, publish env v p u' t' = Ok (v', p', n) -> sv_macros v' <> None).
  { intros u' t' n H. apply publish_inv in H as (ms & mm & pt & v1 & er & ds & _ & -> & Hf & _ & _). apply fetch_macros_grown in Hf as [_ H]. auto. }
  assert (SAME : sv_macros v' = sv_macros v -> (forall u t, e <> Sent u t) -> (sv_macros v' <> None <-> sv_macros v <> None \/ exists u t, e = Sent u t)).
  { intros -> N. split; auto. intros [H|(u & t & ->)]; auto. now apply (N u t) in H || (exfalso; eapply N; reflexivity). }
  inv S; (inv Y; try (match goal with X : method d ?a, Z : method d ?b |- _ => pose proof (method_fun _ _ _ X Z); discriminate end)); try contradiction;
    try solve [apply SAME; [reflexivity|discriminate]].
  - split; eauto.
  - split; eauto.
  - apply SAME; [|discriminate]. unfold fetch_gcodes in H1. unfold fetch_mcodes in H2.
    destruct (sv_gcodes v); [|apply bind_ok in H1 as (? & _ & H1)]; inv H1; (destruct (sv_mcodes _); [|apply bind_ok in H2 as (? & _ & H2)]; inv H2; reflexivity).
  - apply SAME; [|discriminate]. apply hover_inv in H0 as (? & ? & ? & ? & ? & _ & _ & H0 & _).
    assert (KG : forall a b, fetch_gcodes env a = Ok b -> sv_macros b = sv_macros a).
    { intros a b Q. unfold fetch_gcodes in Q. destruct (sv_gcodes a); [now inv Q|]. apply bind_ok in Q as (? & _ & Q). now inv Q. }
    assert (KM : forall a b, fetch_mcodes env a = Ok b -> sv_macros b = sv_macros a).
    { intros a b Q. unfold fetch_mcodes in Q. destruct (sv_mcodes a); [now inv Q|]. apply bind_ok in Q as (? & _ & Q). now inv Q. }
    unfold hover_line in H0. destruct (search_pattern match_code _ _ _ _) as [[[c f] t]|].
    + apply bind_ok in H0 as (a & A & H0). apply bind_ok in H0 as (b & B & H0). apply bind_ok in H0 as (c' & _ & H0). inv H0.
      rewrite (KM _ _ B). auto.
    + destruct (snd _) as [[|m1 mm]|]; [now inv H0| |now inv H0].
      destruct (search_pattern match_code_macro _ _ _ _) as [[[c f] t]|].
      * unfold hover_code_macro in H0. apply bind_ok in H0 as (n & _ & H0). destruct (macro_lookup _ _ _); [|now inv H0].
        apply bind_ok in H0 as (a & A & H0). apply bind_ok in H0 as (b & B & H0). apply bind_ok in H0 as (c' & _ & H0). inv H0.
        rewrite (KM _ _ B). auto.
      * destruct (search_pattern match_macro _ _ _ _) as [[[c f] t]|]; [|now inv H0]. apply bind_ok in H0 as (a & _ & H0). now inv H0.
  - apply SAME; [|discriminate]. apply lens_inv in H0 as (? & u' & _ & _ & -> & _). now destruct (assoc (c_str u') (sv_files v)).
  - exfalso. eapply H; [exact H0|cbn; tauto].
  - exfalso. eapply H; [exact H0|cbn; tauto].
Qed.

Lemma all_macros ds : forall v p v' p' outs es, handle_all env (v, p) ds = Ok (v', p', outs) ->
  List.length outs = List.length ds -> Forall2 says ds es -> (sv_macros v' <> None <-> sv_macros v <> None \/ some_text es).
Proof.
  induction ds as [|d ds IH]; intros v p v' p' outs es H L Y; cbn in H.
  - inv H. inv Y. split; auto. intros [H|(u & t & [])]; auto.
  - apply bind_ok in H as ([[v1 p1] out] & E & H). cbn [fst] in H. inv Y. apply handle_step in E. pose proof (step_macros _ _ _ _ _ _ _ E H2) as C.
    assert (K : sv_macros v' <> None <-> sv_macros v1 <> None \/ some_text l').
    { destruct (sv_exit v1).
      - inv H. cbn in L. destruct ds; [|discriminate]. inv H4. split; auto. intros [K|(u & t & [])]; auto.
      - apply bind_ok in H as ([[v2 p2] outs'] & E2 & H). inv H. cbn in L. eapply IH; eauto. }
    rewrite K, C. unfold some_text. split.
    + intros [[A|(u & t & ->)]|(u & t & I)]; [auto|right; exists u, t; left; auto|right; exists u, t; right; auto].
    + intros [A|(u & t & [->|I])]; [auto|left; right; eauto|right; eauto].
Qed.

Lemma completion_reply v p d v' p' out gc mc : good_state env v -> env_gcodes env = Ok gc -> env_mcodes env = Ok mc ->
  method d "textDocument/completion" -> handle env (v, p) d = Ok (v', p', out) ->
  exists r ls, out = [r] /\ items r ls /\
    Permutation ls (prefixed "G" (co_codes gc) ++ prefixed "M" (co_codes mc) ++
                    match sv_macros v with
                    | Some md => match env_macros env with Ok (_, None) => prefixed "#" (map fst (md_data md)) | _ => [] end
                    | None => [] end).
Proof.
  intros [S _] Eg Em M H. apply handle_step in H.
  inv H; try (match goal with X : method d ?k |- _ => pose proof (method_fun _ _ _ X M); discriminate end).
  - exists (response id (JArr (completion_items 1 (sv_suggestions v')))), (sv_suggestions v'). split; [reflexivity|]. split; [apply items_of|].
    pose proof (fetch_gcodes_sound _ _ _ S H2) as S1. pose proof (fetch_mcodes_sound _ _ _ S1 H3) as S2.
    destruct S2 as (A & B & _ & P). etransitivity; [exact P|]. unfold table_suggestions.
    pose proof (fetch_gcodes_grown _ _ _ H2) as [G1 N1]. pose proof (fetch_mcodes_grown _ _ _ H3) as [G2 N2].
    destruct G2 as (_ & _ & _ & _ & Q & _). specialize (Q N1).
    assert (KM : sv_macros v' = sv_macros v).
    { unfold fetch_gcodes in H2. unfold fetch_mcodes in H3.
      destruct (sv_gcodes v); [|apply bind_ok in H2 as (? & _ & H2)]; inv H2; (destruct (sv_mcodes _); [|apply bind_ok in H3 as (? & _ & H3)]; inv H3; reflexivity). }
    rewrite KM. destruct (sv_gcodes v') as [c|] eqn:X; [|congruence]. destruct (sv_mcodes v') as [c'|] eqn:X'; [|congruence].
    assert (c = gc) by (rewrite (A c eq_refl) in Eg; congruence). assert (c' = mc) by (rewrite (B c' eq_refl) in Em; congruence). subst. reflexivity.
  - exfalso. eapply H0; [exact M|cbn; tauto].
Qed.
End Handler.
