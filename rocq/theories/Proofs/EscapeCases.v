(** The shipped tables are complete, and harmless documents are recognised. *)
From Verif Require Import Model.Base Model.Attr Model.Double Model.Shipped Model.PathCalc Model.NCText Model.Parser Model.Settings Model.Document.
From Verif Require Import Spec.Text Spec.NCTextSpec Spec.EscapeSpec Proofs.Tactics Proofs.TextProofs Proofs.StringFacts Proofs.GrammarLex Proofs.NCTextProofs Proofs.EscapeWords Proofs.EscapeProofs.
Local Open Scope string_scope.
Local Open Scope Z_scope.

Definition completeb (fg : fanuc_grammar) (ops : list string) : bool :=
  forallb (fun w => negb (String.eqb w "")) (map fst (metric fg) ++ ops) &&
  forallb (fun w => match w with
                    | String c EmptyString => negb ((65 <=? code c) && (code c <=? 90)) || (is_some (assoc w (metric fg)) && is_some (assoc w (imperial fg)))
                    | _ => true
                    end) (map fst (metric fg) ++ ops) &&
  forallb (fun e => 0 <=? g_dto (snd e)) (metric fg ++ imperial fg).

Lemma assoc_In {A} w (m : list (string * A)) g : assoc w m = Some g -> In (w, g) m.
Proof.
  induction m as [|[k x] m IH]; [discriminate|]. cbn. destruct (String.eqb_spec w k) as [->|]; [intro H; inv H; now left|]. intro H. right. auto.
Qed.

Lemma completeb_ok fg ops : completeb fg ops = true -> tables_complete fg ops.
Proof.
  unfold completeb. rewrite !andb_true_iff, !forallb_forall. intros [[A B] C]. constructor.
  - intros w H E. subst w. assert (I : In "" (map fst (metric fg) ++ ops)) by (apply in_or_app; exact H). apply A in I. discriminate.
  - intros w (c & -> & R) H. assert (I : In (String c "") (map fst (metric fg) ++ ops)) by (apply in_or_app; exact H). apply B in I.
    replace ((65 <=? code c) && (code c <=? 90)) with true in I by (symmetry; apply andb_true_iff; rewrite !Z.leb_le; exact R). cbn [negb orb] in I.
    apply andb_true_iff in I as [I J]. split; [destruct (assoc _ (metric fg))|destruct (assoc _ (imperial fg))]; cbn in *; congruence.
  - intros w g H. assert (I : In (w, g) (metric fg ++ imperial fg)) by (apply in_or_app; destruct H as [H|H]; [left|right]; now apply assoc_In).
    apply C in I. cbn in I. lia.
Qed.

Lemma shipped_complete name fg : In (name, fg) shipped -> tables_complete fg shipped_ops.
Proof.
  intro H. apply completeb_ok. assert (F : forallb (fun x => completeb (snd x) shipped_ops) shipped = true) by (vm_compute; reflexivity).
  rewrite forallb_forall in F. exact (F _ H).
Qed.

(** The numbers behind a "G". *)
Fixpoint codes (t : string) : list Z :=
  match t with
  | EmptyString => []
  | String c t' =>
      let ds := fst (span is_digit (snd (span gap t'))) in
      ((if Ascii.eqb c "G" && negb (String.eqb ds "") then [digits_val ds] else []) ++ codes t')%list
  end.

Lemma digit_no_gap c : is_digit c = true -> gap c = false.
Proof. destruct c as [[] [] [] [] [] [] [] []]; vm_compute; congruence. Qed.

Lemma codes_spec t n : g_code t n -> In n (codes t).
Proof.
  intros (a & g & ds & b & -> & G & (N & D & V) & B). induction a as [|c a IH].
  - assert (H1 : match ds ++ b with String c _ => gap c = false | EmptyString => True end).
    { destruct ds as [|c ds]; [congruence|]. cbn in D |- *. apply andb_true_iff in D as [D _]. now apply digit_no_gap. }
    assert (H2 : match b with String c _ => is_digit c = false | EmptyString => True end) by (destruct b as [|c b]; [exact I|now apply (B c b)]).
    cbn [append codes]. rewrite (span_app gap g _ G H1). cbn [snd]. rewrite (span_app is_digit ds b D H2).
    cbn [fst]. replace (String.eqb ds "") with false by (symmetry; apply String.eqb_neq; exact N). cbn. now left.
  - cbn [append codes]. apply in_or_app. right. exact IH.
Qed.

Definition unmarkedb (t : string) : bool := negb (contains "[" t) && negb (contains "]" t) && negb (contains "#" t).

Definition memb (n : Z) (l : list Z) : bool := existsb (Z.eqb n) l.

Definition harmlessb (start : Z) (exchange lines : list string) : bool :=
  let all := start :: List.concat (map codes lines) in
  forallb (fun n => negb (memb n peck_cycles)) all &&
  (negb (existsb (fun n => memb n other_cycles) all) || forallb (fun l => negb (contains "K" l)) lines) &&
  (negb (memb 2 all || memb 3 all) ||
   forallb (fun l => negb (contains "X" l && contains "Y" l && contains "Z" l && (contains "R" l || (contains "I" l && contains "J" l && contains "K" l)))) lines) &&
  (negb (memb 28 all) || (mem_str "X" exchange && mem_str "Y" exchange && mem_str "Z" exchange)).

Lemma memb_In n l : memb n l = true <-> In n l.
Proof. unfold memb. rewrite existsb_exists. split; [intros (x & I & E); apply Z.eqb_eq in E; now subst|intro I; exists n; split; [exact I|apply Z.eqb_refl]]. Qed.

Lemma mem_str_in w l : mem_str w l = true -> In w l.
Proof. unfold mem_str. rewrite existsb_exists. intros (x & I & E). apply String.eqb_eq in E. now subst. Qed.

Lemma harmlessb_ok start exchange lines : harmlessb start exchange lines = true -> harmless start exchange lines.
Proof.
  unfold harmlessb. set (all := start :: List.concat (map codes lines)).
  assert (F : forall n, in_force start lines n -> In n all).
  { intros n [->|(l & I & G)]; [now left|]. right. apply in_concat. exists (codes l). split; [now apply in_map|]. now apply codes_spec. }
  rewrite !andb_true_iff, !orb_true_iff, !andb_true_iff, !negb_true_iff. intros (((A & B) & C) & D). constructor.
  - intros n H I. rewrite forallb_forall in A. specialize (A n (F n H)). apply memb_In in I. rewrite I in A. discriminate.
  - intros (n & H & I) l Il. destruct B as [B|B].
    + assert (X : existsb (fun n => memb n other_cycles) all = true) by (apply existsb_exists; exists n; split; [now apply F|now apply memb_In]). congruence.
    + rewrite forallb_forall in B. apply B in Il. now apply negb_true_iff in Il.
  - intros H l Il. destruct C as [C|C].
    + apply orb_false_iff in C as [C2 C3]. destruct H as [H|H]; apply F, memb_In in H; congruence.
    + rewrite forallb_forall in C. apply C in Il. now apply negb_true_iff in Il.
  - intros (l & Il & G). destruct D as [D|((X & Y) & Z)]; [|auto using mem_str_in].
    assert (H : In 28 all) by (apply F; right; eauto). apply memb_In in H. congruence.
Qed.

Lemma unmarkedb_ok ls : forallb unmarkedb ls = true -> Forall unmarked ls.
Proof.
  rewrite forallb_forall, Forall_forall. intros H t I. apply H in I. unfold unmarkedb in I. rewrite !andb_true_iff, !negb_true_iff in I. unfold unmarked. tauto.
Qed.

(** Without settings the default ones are in force. *)
Lemma shipped_ends lit libm atan log cabs stale range_what name fg gg mg code lines :
  In (name, fg) shipped -> segments code lines -> Forall unmarked lines -> harmless 0 ["X"; "Y"; "Z"] lines ->
  exists messages macros,
    run_document lit libm atan log cabs stale range_what code (mkNC false false settings_new (Some (fg, shipped_ops)) (Some gg) (Some mg)) = Ok (messages, macros, []).
Proof.
  intros I S U H. set (n := mkNC _ _ _ _ _ _). assert (DP : exists p, document_parser n = Ok p) by (eexists; reflexivity). destruct DP as [p DP].
  pose proof (document_ends lit libm atan log cabs stale range_what n code lines fg shipped_ops p eq_refl (shipped_complete name fg I)) as K.
  cbn zeta in K. assert (A : Forall address (mc_axes (machine_of (sr_settings (nc_settings n))))).
  { repeat constructor; eexists; (split; [reflexivity|]); vm_compute; split; discriminate. }
  specialize (K A DP S U H). destruct (run_document _ _ _ _ _ _ _ _ n) as [[[ms mv] su]|e] eqn:E; [|destruct K as [K _]; discriminate K].
  exists ms, mv. replace su with (@nil (Z * string)); [reflexivity|]. unfold run_document in E. rewrite DP in E. cbn [bind] in E. unfold parse_document in E.
  assert (N : forall q ls k st a a' st', doc_loop q false k ls st a = Ok (a', st') -> da_summaries a' = da_summaries a).
  { intros q. induction ls as [|l ls IH]; intros k st a a' st'; cbn [doc_loop]; [intro X; injection X as <- _; reflexivity|].
    destruct l as [|c l]; [apply IH|]. destruct (lp_parse _ _ _ _) as [[[r m] s1]|]; cbn [bind]; [|discriminate]. intro X. apply IH in X. rewrite X. now destruct r. }
  cbn [nc_path_time n] in E. destruct (doc_loop _ _ _ _ _ _) as [[a st']|] eqn:D; cbn [bind] in E; [|discriminate]. injection E as _ _ <-. apply N in D. now rewrite D.
Qed.
