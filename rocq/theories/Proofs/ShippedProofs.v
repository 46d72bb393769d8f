(** The shipped word tables meet the conditions asked of tables. *)
From Verif Require Import Model.Base Model.Attr Model.Grammar Model.Shipped Spec.Text Spec.GrammarSpec.
From Verif Require Import Proofs.Tactics Proofs.TextProofs Proofs.StringFacts Proofs.GrammarLex.

Definition start_ok (w : string) : bool := match w with String c _ => negb (existsb (Ascii.eqb c) ["("; "/"; "%"; "["]%char) | _ => true end.

Definition tables_okb (wm : word_map) (dec asg : list string) : bool :=
  forallb (fun w => negb (String.eqb w "") && negb (String.eqb w ",") && all_chars (fun c => negb (is_blank c)) w && start_ok w) (dec ++ asg) &&
  forallb (fun w => match w with String "O" _ => match assoc w wm with None => true | _ => false end | _ => true end) dec &&
  forallb (fun w => match w with String "O" _ => false | _ => true end) asg &&
  forallb (fun w => forallb (fun u => if prefix w u then match drop (String.length w) u with String c _ => negb (tail_char c) | _ => true end else true) dec) dec &&
  forallb (fun w => negb (contains "=" w) || String.eqb w "=") dec && forallb (fun w => negb (contains "=" w)) asg.

Lemma tables_okb_ok wm dec asg : tables_okb wm dec asg = true -> tables_ok wm dec asg.
Proof.
  unfold tables_okb. rewrite !andb_true_iff, !forallb_forall. intros (((((A & B) & C) & D) & E) & F).
  assert (A' : forall w, In w dec \/ In w asg -> w <> ""%string /\ w <> ","%string /\ all_chars (fun c => negb (is_blank c)) w = true /\ start_ok w = true).
  { intros w I. assert (I' : In w (dec ++ asg)%list) by (apply in_or_app; exact I). specialize (A w I'). rewrite !andb_true_iff in A.
    destruct A as (((A1 & A2) & A3) & A4). apply negb_true_iff, String.eqb_neq in A1, A2. auto. }
  split.
  - intros w I. destruct (A' w I) as (? & ? & ? & ?). auto.
  - intros c r I. destruct (A' _ I) as (_ & _ & _ & S). cbn in S. rewrite !orb_false_r in S. apply negb_true_iff in S. rewrite !orb_false_iff in S.
    destruct S as (S1 & S2 & S3 & S4). cbn. intros [<-|[<-|[<-|[<-|[]]]]]; rewrite Ascii.eqb_refl in *; discriminate.
  - intro r. split.
    + intro I. specialize (B _ I). cbn in B. destruct (assoc (String "O" r) wm); [discriminate|reflexivity].
    + intro I. specialize (C _ I). discriminate.
  - intros w c r I J. specialize (D w I). rewrite forallb_forall in D. specialize (D _ J). rewrite prefix_app, drop_app in D. now apply negb_true_iff in D.
  - split.
    + intros w I K. specialize (E w I). rewrite K in E. now apply String.eqb_eq in E.
    + intros w I. specialize (F w I). now apply negb_true_iff in F.
Qed.

(** The four combinations of a shipped grammar: its words are the metric ones,
    the ranges of either system may be active. *)
Definition shipped_grammars : list line_grammar :=
  flat_map (fun x => [make_grammar (snd x) shipped_ops (metric (snd x)); make_grammar (snd x) shipped_ops (imperial (snd x))]) shipped.

Lemma shipped_ok lg : In lg shipped_grammars -> tables_ok (lg_map lg) (lg_decimal lg) (lg_assignable lg).
Proof.
  intro I. apply tables_okb_ok. revert lg I. apply forallb_forall. vm_compute. reflexivity.
Qed.
