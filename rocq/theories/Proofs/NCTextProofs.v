(** Lines, messages, times and diagnostics of the language server. *)
From Coq Require Import Lia.
From Verif Require Import Model.Base Model.Double Model.Calc Model.NCText Spec.Text Spec.DoubleSpec Spec.RoundSpec
  Spec.NCTextSpec Proofs.Tactics Proofs.StringFacts Proofs.CalcProofs Proofs.TextProofs.

(** ** Trimming *)

Lemma snoc_inj : forall a b c d, a ++ String c "" = b ++ String d "" -> a = b /\ c = d.
Proof.
  induction a as [|x a IH]; destruct b as [|y b]; cbn; intros c d H.
  - injection H as ->. auto.
  - exfalso. injection H as _ H. destruct b; discriminate.
  - exfalso. injection H as _ H. destruct a; discriminate.
  - injection H as -> H. apply IH in H as [-> ->]. auto.
Qed.

Lemma rtrim_blank : forall w, all_chars is_space w = true -> rtrim w = "".
Proof.
  induction w as [|c w IH]; cbn; auto. intros H. apply andb_true_iff in H as [H1 H2].
  now rewrite IH, H1.
Qed.

Lemma rtrim_trimmed : forall s, trimmed s (rtrim s).
Proof.
  induction s as [|c s [(w & Hs & Hw) Hn]]; cbn.
  - split; [now exists ""|]. intros (a & c & H & _). destruct a; discriminate.
  - destruct (rtrim s) as [|d t] eqn:E.
    + destruct (is_space c) eqn:Hc.
      * split; [exists (String c w); cbn; rewrite Hc, Hw; subst; auto|]. intros (a & x & H & _). destruct a; discriminate.
      * split; [exists w; subst; auto|]. intros (a & x & H & Hx). destruct a as [|y a]; cbn in H.
        -- injection H as ->. congruence.
        -- exfalso. injection H as _ H. destruct a; discriminate.
    + split; [exists w; subst s; auto|]. intros (a & x & H & Hx). destruct a as [|y a]; cbn in H; [discriminate|]. injection H as -> H.
      apply Hn. exists a, x. auto.
Qed.

Lemma ends_blank_app a w : w <> "" -> all_chars is_space w = true -> ends_blank (a ++ w).
Proof.
  revert a. induction w as [|c w IH]; intros a H H0; [contradiction|]. cbn in H0.
  apply andb_true_iff in H0 as [H1 H2]. destruct w as [|d w].
  - exists a, c. auto.
  - destruct (IH (a ++ String c "") ltac:(discriminate) H2) as (b & x & E & Hx).
    exists b, x. split; auto. rewrite <- E. rewrite string_app_assoc. reflexivity.
Qed.

Lemma trimmed_id s : ~ ends_blank s -> rtrim s = s.
Proof.
  intros H. destruct (rtrim_trimmed s) as [(w & E & Hw) _]. destruct w as [|c w].
  - now rewrite string_app_nil in E.
  - exfalso. apply H. rewrite E. apply ends_blank_app; auto. discriminate.
Qed.

(** ** Lines *)

Lemma split_pieces : forall s cur, split_loop cur s = map rtrim (pieces lf cur s).
Proof.
  induction s as [|c s IH]; intros cur; cbn.
  - now destruct cur.
  - destruct (Ascii.eqb c lf); cbn; [now rewrite IH|apply IH].
Qed.

Lemma without_nil c : without c "".
Proof. intros a b H. destruct a; discriminate. Qed.

Lemma without_cons c x s : without c (String x s) <-> x <> c /\ without c s.
Proof.
  split.
  - intros H. split.
    + intros ->. apply (H "" s). reflexivity.
    + intros a b ->. apply (H (String x a) b). reflexivity.
  - intros [H H0] [|y a] b E; cbn in E; injection E as -> E; [contradiction|]. now apply (H0 a b).
Qed.

Lemma without_app c s t : without c s -> without c t -> without c (s ++ t).
Proof.
  induction s as [|x s IH]; cbn; auto. intros H H0. apply without_cons in H as [H1 H2]. apply without_cons. auto.
Qed.

Lemma without_app_l c s t : without c (s ++ t) -> without c s.
Proof.
  induction s as [|x s IH]; cbn; intros H; [apply without_nil|]. apply without_cons in H as [H1 H2].
  apply without_cons. auto.
Qed.

Definition joined (d : ascii) (l : list string) : string := concat_str (map (fun s => s ++ String d "") l).

(** The pieces, when the text read so far is [cur]. *)
Lemma pieces_spec d : forall s cur, without d cur ->
  Forall (without d) (pieces d cur s) /\
  (cur ++ s = joined d (pieces d cur s) \/
   exists init last, pieces d cur s = (init ++ [last])%list /\ last <> "" /\ cur ++ s = joined d init ++ last).
Proof.
  induction s as [|c s IH]; intros cur H; cbn.
  - rewrite string_app_nil. destruct cur as [|c cur].
    + split; [constructor|left; reflexivity].
    + split; [repeat constructor; auto|]. right. exists [], (String c cur). repeat split; auto. discriminate.
  - destruct (Ascii.eqb_spec c d) as [->|Hc].
    + destruct (IH "" (without_nil d)) as [HF HJ]. split; [constructor; auto|].
      destruct HJ as [HJ|(init & last & HJ & Hl & HE)]; cbn in *.
      * left. unfold joined in *. cbn. rewrite <- HJ, string_app_assoc. reflexivity.
      * right. exists (cur :: init), last. rewrite HJ. repeat split; auto. unfold joined in *. cbn.
        rewrite !string_app_assoc. cbn. rewrite <- HE. reflexivity.
    + destruct (IH (cur ++ String c "")) as [HF HJ].
      { apply without_app; auto. apply without_cons. split; auto. apply without_nil. }
      rewrite string_app_assoc in HJ. cbn in HJ. auto.
Qed.

Lemma content_segments code : segments code (content_lines code).
Proof.
  unfold content_lines, segments. destruct (pieces_spec lf code "" (without_nil lf)) as [H H0]. split; auto.
Qed.

Lemma lines_spec code : exists segs, segments code segs /\ Forall2 trimmed segs (split_lines code).
Proof.
  exists (content_lines code). split; [apply content_segments|].
  unfold split_lines. rewrite split_pieces. fold (content_lines code).
  induction (content_lines code); cbn; constructor; auto. apply rtrim_trimmed.
Qed.

Lemma lines_agree code : Forall2 trimmed (content_lines code) (split_lines code).
Proof.
  unfold split_lines. rewrite split_pieces. fold (content_lines code).
  induction (content_lines code); cbn; constructor; auto. apply rtrim_trimmed.
Qed.

(** Segments are unique. *)
Lemma segments_pieces_joined d : forall s cur, without d cur -> without d s ->
  forall r, pieces d cur (s ++ String d r) = (cur ++ s) :: pieces d "" r.
Proof.
  induction s as [|c s IH]; cbn; intros cur H H0 r.
  - rewrite Ascii.eqb_refl, string_app_nil. reflexivity.
  - apply without_cons in H0 as [H1 H2]. destruct (Ascii.eqb_spec c d); [contradiction|].
    rewrite IH; auto.
    + rewrite string_app_assoc. reflexivity.
    + apply without_app; auto. apply without_cons. split; auto. apply without_nil.
Qed.

Lemma pieces_last d : forall s cur, without d s -> cur ++ s <> "" -> pieces d cur s = [cur ++ s].
Proof.
  induction s as [|c s IH]; cbn; intros cur H H0.
  - rewrite string_app_nil in *. destruct cur; [contradiction|reflexivity].
  - apply without_cons in H as [H1 H2]. destruct (Ascii.eqb_spec c d); [contradiction|]. rewrite IH; auto.
    + rewrite string_app_assoc. reflexivity.
    + rewrite string_app_assoc. auto.
Qed.

Lemma pieces_joined d : forall segs r, Forall (without d) segs ->
  pieces d "" (joined d segs ++ r) = (segs ++ pieces d "" r)%list.
Proof.
  induction segs as [|s segs IH]; intros r H; [reflexivity|]. inversion H; subst.
  unfold joined. cbn. rewrite !string_app_assoc. cbn.
  rewrite segments_pieces_joined; auto using without_nil. cbn. f_equal. now apply IH.
Qed.

Lemma segments_unique code segs : segments code segs -> segs = content_lines code.
Proof.
  intros [H [E|(init & last & E & Hl & E')]]; unfold content_lines.
  - subst code. fold (joined lf segs). rewrite <- (string_app_nil (joined lf segs)), pieces_joined; auto.
    cbn. now rewrite app_nil_r.
  - subst segs code. apply Forall_app in H as [H H0]. inversion H0; subst. fold (joined lf init).
    rewrite pieces_joined; auto. rewrite pieces_last; auto.
Qed.

(** Losslessness for documents whose lines have no trailing white space. *)
Lemma lines_lossless code : Forall (fun s => ~ ends_blank s) (content_lines code) ->
  segments code (split_lines code).
Proof.
  intros H. replace (split_lines code) with (content_lines code); [apply content_segments|].
  unfold split_lines. rewrite split_pieces. fold (content_lines code).
  induction H as [|s l Hs Hl IH]; cbn; auto. rewrite trimmed_id; auto. now rewrite <- IH.
Qed.

(** The other direction: only such documents. *)
Lemma lines_lossless_only code : segments code (split_lines code) ->
  Forall (fun s => ~ ends_blank s) (content_lines code).
Proof.
  intros H. apply segments_unique in H. rewrite <- H. unfold split_lines. rewrite split_pieces.
  induction (pieces lf "" code); cbn; constructor; auto. apply rtrim_trimmed.
Qed.
