(** Macro substitution and system macro publication. *)
From Verif Require Import Model.Base Model.Attr Model.Double Model.Macro Model.MacroEval
  Spec.MacroSpec Proofs.Tactics Proofs.StringFacts Proofs.MacroProofs.

Lemma macro_use_value ops allowed L d v n :
  is_some (d_macro d) = true -> d_value d = Some v -> stoi v = Ok n -> 0 <= n ->
  mem_str (d_word d) macro_plain_words = false -> mem_str (d_word d) allowed = false ->
  (forall x, visible ops n L x ->
     evaluated_code allowed (mrun ops) L [ADec d]
     = Ok (d_word d ++ opt_chr (d_sign d) ++ opt_str (d_open d) ++ to_string_trunc x
           ++ opt_str (d_close d))%string) /\
  (nothing_visible ops n L ->
     evaluated_code allowed (mrun ops) L [ADec d] = Exc (EMacroEvaluatedCode ("#" ++ v))).
Proof.
  intros Hm Hv Hn Hpos Hp Ha.
  assert (to_u32 n = n) as Hu by (apply to_u32_id; apply stoi_int in Hn; lia).
  unfold evaluated_code, bind. cbn [foldM ec_step]. unfold ec_visit, bind.
  cbn [ec_interesting ec_init ec_text ec_modified].
  rewrite Hp, Ha, Hm, Hv, Hn, Hu. cbn [negb andb orb]. split.
  - intros x Hx. apply macro_lookup_visible in Hx. rewrite Hx. cbn [foldM ec_modified ec_text append].
    f_equal. now rewrite !string_app_assoc.
  - intro Hx. apply macro_lookup_nothing in Hx. now rewrite Hx.
Qed.

(** The table operations of all words of a block, up to the first that throws. *)
Fixpoint block_ops (line : Z) (b : block) : list (mop dbl) :=
  match b with
  | [] => []
  | a :: b' => match system_ops line a with Ok ops => (ops ++ block_ops line b')%list | Exc _ => [] end
  end.

Lemma system_assign_run line b : forall mv,
  fst (system_assign mv line b) = fold_left mstep (block_ops line b) mv.
Proof.
  induction b as [|a b IH]; intro mv; cbn; [reflexivity|].
  destruct (system_ops line a); cbn; [|reflexivity].
  now rewrite IH, fold_left_app.
Qed.

Lemma given_app V (o1 o2 : list (mop V)) id line : forall cur,
  given cur (o1 ++ o2) id line = given (given cur o1 id line) o2 id line.
Proof. induction o1; intro cur; cbn; auto. Qed.

Lemma given_other V (ops : list (mop V)) id line : forall cur,
  (forall o, In o ops -> op_hits o id line = false) -> given cur ops id line = cur.
Proof.
  induction ops as [|o ops IH]; intros cur H; cbn; [reflexivity|].
  rewrite H by (left; reflexivity). apply IH. intros; apply H; now right.
Qed.

Lemma given_sys_same V ids l (x : V) id : forall cur,
  given cur (map (fun i => MSystem i l x) ids) id l =
  if existsb (Z.eqb id) ids then Some x else cur.
Proof.
  induction ids as [|i ids IH]; intro cur; cbn; [reflexivity|].
  rewrite IH. rewrite Z.eqb_refl, andb_true_r, (Z.eqb_sym id i).
  destruct (i =? id); cbn; destruct (existsb (Z.eqb id) ids); reflexivity.
Qed.

Lemma assoc_in {A} k (m : list (string * A)) v : assoc k m = Some v -> In (k, v) m.
Proof.
  induction m as [|[k' v'] m IH]; cbn; [discriminate|].
  destruct (String.eqb_spec k k'); intro H; [inv H; auto|auto].
Qed.

Definition disjoint_check : bool :=
  forallb (fun e1 => forallb (fun e2 =>
    String.eqb (fst e1) (fst e2)
    || forallb (fun id => negb (existsb (Z.eqb id) (snd e2))) (snd e1)) word_macros) word_macros.

(** A published number belongs to one address only. *)
Lemma word_macros_disjoint w1 ids1 w2 ids2 id :
  assoc w1 word_macros = Some ids1 -> assoc w2 word_macros = Some ids2 ->
  existsb (Z.eqb id) ids1 = true -> existsb (Z.eqb id) ids2 = true -> w1 = w2.
Proof.
  assert (disjoint_check = true) as D by (vm_compute; reflexivity).
  intros A1 A2 I1 I2. apply assoc_in in A1, A2. unfold disjoint_check in D.
  rewrite forallb_forall in D. apply D in A1. rewrite forallb_forall in A1. apply A1 in A2.
  cbn [fst snd] in A2. destruct (String.eqb_spec w1 w2); [assumption|]. cbn [orb] in A2.
  rewrite forallb_forall in A2. apply existsb_exists in I1 as (i & Hi & E).
  apply A2 in Hi. assert (id = i) by lia; subst i. now rewrite I2 in Hi.
Qed.

Local Opaque stod value_text word_macros.

Lemma block_ops_given line b w ids id : forall cur,
  assoc w word_macros = Some ids -> existsb (Z.eqb id) ids = true ->
  snd (system_assign [] line b) = None ->
  match last_word w b with
  | Some d => exists x, stod (value_text d) = Ok x /\ given cur (block_ops line b) id line = Some x
  | None => given cur (block_ops line b) id line = cur
  end.
Proof.
  assert (snd_indep : forall b m1 m2,
    snd (system_assign m1 line b) = snd (system_assign m2 line b)).
  { clear. induction b as [|a b IH]; intros; cbn; [reflexivity|].
    destruct (system_ops line a); cbn; auto. }
  intros cur Hw Hid. revert cur. induction b as [|a b IH]; intros cur H; cbn; [reflexivity|].
  cbn in H. destruct a as [d|s v|s c]; cbn in *.
  2,3: now apply IH.
  destruct (assoc (d_word d) word_macros) as [ids'|] eqn:A.
  - destruct (stod (value_text d)) as [x|e] eqn:D; cbn in *; [|discriminate].
    rewrite (snd_indep b _ []) in H.
    specialize (IH (given cur (map (fun i => MSystem i line x) ids') id line) H).
    rewrite given_app. destruct (last_word w b) as [d'|]; [assumption|].
    rewrite given_sys_same in *. destruct (String.eqb_spec (d_word d) w) as [E|E].
    + subst w. rewrite A in Hw; inv Hw. rewrite Hid in *. eauto.
    + destruct (existsb (Z.eqb id) ids') eqn:F; [|assumption].
      exfalso. apply E. eapply word_macros_disjoint; eauto.
  - specialize (IH cur H). destruct (last_word w b); [assumption|].
    destruct (String.eqb_spec (d_word d) w); [congruence|assumption].
Qed.

Lemma block_ops_lines line b o : In o (block_ops line b) ->
  exists w ids id x, assoc w word_macros = Some ids /\ existsb (Z.eqb id) ids = true
                /\ o = MSystem id line x.
Proof.
  induction b as [|a b IH]; cbn; [tauto|].
  destruct a as [d|s v|s c]; cbn; auto.
  destruct (assoc (d_word d) word_macros) as [ids|] eqn:A; cbn; auto.
  destruct (stod (value_text d)) as [x|e]; cbn; [|tauto].
  intro H. apply in_app_or in H as [H|H]; [|auto].
  apply in_map_iff in H as (id & <- & I). exists (d_word d), ids, id, x. repeat split; auto.
  apply existsb_exists. exists id. split; [assumption|apply Z.eqb_refl].
Qed.

Definition is_system_number (id : Z) : bool :=
  existsb (fun e => existsb (Z.eqb id) (snd e)) word_macros.

Lemma system_assign_spec ops line b m' :
  system_assign (mrun ops) line b = (m', None) ->
  NoDup (map fst m') /\
  (forall w ids id, assoc w word_macros = Some ids -> In id ids ->
     forall d, last_word w b = Some d ->
     exists x, stod (value_text d) = Ok x /\ In (mkKey id line, x) m') /\
  (forall w ids id v, assoc w word_macros = Some ids -> In id ids ->
     last_word w b = None -> (In (mkKey id line, v) m' <-> given_on ops id line = Some v)) /\
  (forall id l v, l <> line \/ is_system_number id = false ->
     (In (mkKey id l, v) m' <-> given_on ops id l = Some v)).
Proof.
  intro H.
  assert (m' = mrun (ops ++ block_ops line b)) as ->.
  { unfold mrun. rewrite fold_left_app. change (fold_left mstep ops []) with (mrun ops).
    rewrite <- system_assign_run, H. reflexivity. }
  assert (snd (system_assign [] line b) = None) as H0.
  { assert (snd_indep : forall b m1 m2,
      snd (system_assign m1 line b) = snd (system_assign m2 line b)).
    { clear. induction b as [|a b IH]; intros; cbn; [reflexivity|].
      destruct (system_ops line a); cbn; auto. }
    rewrite (snd_indep b [] (mrun ops)), H. reflexivity. }
  assert (E : forall id ids, In id ids -> existsb (Z.eqb id) ids = true).
  { intros id ids I. apply existsb_exists. exists id. split; [assumption|apply Z.eqb_refl]. }
  split; [apply sorted_nodup, mrun_sorted|]. split; [|split].
  - intros w ids id Hw I d Hd.
    pose proof (block_ops_given line b w ids id (given_on ops id line) Hw (E _ _ I) H0) as B.
    rewrite Hd in B. destruct B as (x & Hx & G). exists x. split; [assumption|].
    apply mrun_in. unfold given_on. now rewrite given_app.
  - intros w ids id v Hw I Hd.
    pose proof (block_ops_given line b w ids id (given_on ops id line) Hw (E _ _ I) H0) as B.
    rewrite Hd in B. rewrite mrun_in. unfold given_on in *. now rewrite given_app, B.
  - intros id l v Hor. rewrite mrun_in. unfold given_on. rewrite given_app, given_other; [tauto|].
    intros o I. apply block_ops_lines in I as (w & ids & i & x & Hw & Hi & ->). cbn.
    destruct Hor as [Hl|Hs]; [lia|].
    destruct (i =? id) eqn:F; [|reflexivity]. assert (i = id) by lia; subst i.
    exfalso. unfold is_system_number in Hs.
    assert (existsb (fun e => existsb (Z.eqb id) (snd e)) word_macros = true) as Q.
    { apply existsb_exists. exists (w, ids). split; [now apply assoc_in|assumption]. }
    rewrite Q in Hs. discriminate.
Qed.

Transparent word_macros.

Lemma published_iff w id :
  published w id <-> exists ids, assoc w word_macros = Some ids /\ In id ids.
Proof.
  split.
  - intros (base & I & D). cbn in I.
    repeat (destruct I as [I|I]; [inversion I; subst w base; eexists; split; [reflexivity|cbn; lia]|]).
    tauto.
  - intros (ids & A & I). apply assoc_in in A. cbn in A.
    repeat (destruct A as [A|A]; [inversion A; subst w ids; cbn in I;
      eexists; split; [cbn; tauto|lia]|]).
    tauto.
Qed.

Lemma system_number_iff id : is_system_number id = false <-> forall w, ~ published w id.
Proof.
  split.
  - intros H w P. apply published_iff in P as (ids & A & I). apply assoc_in in A.
    assert (is_system_number id = true); [|congruence].
    apply existsb_exists. exists (w, ids). split; [assumption|].
    apply existsb_exists. exists id. split; [assumption|apply Z.eqb_refl].
  - intro H. destruct (is_system_number id) eqn:E; [|reflexivity]. exfalso.
    apply existsb_exists in E as ([w ids] & I & J). apply existsb_exists in J as (i & J & K).
    assert (id = i) by lia; subst i. apply (H w). apply published_iff. exists ids. split; [|exact J].
    cbn in I. repeat (destruct I as [I|I]; [inversion I; subst w ids; reflexivity|]). tauto.
Qed.

Lemma system_publish ops line b m' :
  system_assign (mrun ops) line b = (m', None) ->
  NoDup (map fst m') /\
  (forall w id d, published w id -> last_word w b = Some d ->
     exists x, stod (value_text d) = Ok x /\ In (mkKey id line, x) m') /\
  (forall w id v, published w id -> last_word w b = None ->
     (In (mkKey id line, v) m' <-> In (mkKey id line, v) (mrun ops))) /\
  (forall id l v, l <> line \/ (forall w, ~ published w id) ->
     (In (mkKey id l, v) m' <-> In (mkKey id l, v) (mrun ops))).
Proof.
  intro H. destruct (system_assign_spec _ _ _ _ H) as (A & B & C & D).
  repeat split; auto.
  - intros w id d P Hd. apply published_iff in P as (ids & P & I). eauto.
  - intro J. apply published_iff in H0 as (ids & P & I). rewrite mrun_in. now apply (C w ids).
  - intro J. apply published_iff in H0 as (ids & P & I). rewrite mrun_in in J. now apply (C w ids).
  - intro J. rewrite mrun_in. apply D; [|assumption].
    destruct H0; [auto|right; now apply system_number_iff].
  - intro J. rewrite mrun_in in J. apply D; [|assumption].
    destruct H0; [auto|right; now apply system_number_iff].
Qed.

Lemma table_function V (ops : list (mop V)) :
  NoDup (map fst (mrun ops)) /\
  (forall id line v, In (mkKey id line, v) (mrun ops) <-> given_on ops id line = Some v).
Proof. split; [apply sorted_nodup, mrun_sorted|intros; apply mrun_in]. Qed.

Lemma user_first V (ops : list (mop V)) id line v :
  (forall w, In (mkKey id line, w) (mrun ops) ->
     forall u, In (mkKey id line, u) (mrun (ops ++ [MUser id line v])) <-> u = w) /\
  ((forall w, ~ In (mkKey id line, w) (mrun ops)) ->
     forall u, In (mkKey id line, u) (mrun (ops ++ [MUser id line v])) <-> u = v) /\
  (forall id' line' u, (id', line') <> (id, line) ->
     (In (mkKey id' line', u) (mrun (ops ++ [MUser id line v])) <-> In (mkKey id' line', u) (mrun ops))).
Proof.
  split; [|split].
  - intros w H u. rewrite mrun_in in *. unfold given_on in *. rewrite given_app, H. cbn.
    rewrite !Z.eqb_refl. cbn. split; congruence.
  - intros H u. rewrite mrun_in. unfold given_on. rewrite given_app. cbn. rewrite !Z.eqb_refl. cbn.
    destruct (given None ops id line) as [w|] eqn:E; [|split; congruence].
    exfalso. apply (H w). now apply mrun_in.
  - intros id' line' u N. rewrite !mrun_in. unfold given_on. rewrite given_app. cbn.
    destruct ((id =? id') && (line =? line')) eqn:E; [|tauto].
    exfalso. apply N. f_equal; lia.
Qed.
