(** The text of the status bar. *)
From Verif Require Import Model.Base Model.Client Spec.ClientSpec Proofs.Tactics.
From Coq Require Import Lia.
Local Open Scope string_scope.

Lemma app_assoc_s a b c : a ++ (b ++ c) = (a ++ b) ++ c.
Proof. induction a as [|x a IH]; cbn; [reflexivity|]. now rewrite IH. Qed.
Lemma app_empty a : a ++ "" = a.
Proof. induction a as [|x a IH]; cbn; [reflexivity|]. now rewrite IH. Qed.
Lemma length_app_s a b : String.length (a ++ b) = (String.length a + String.length b)%nat.
Proof. induction a as [|x a IH]; cbn; [reflexivity|]. now rewrite IH. Qed.

(** ** Trimming *)

Lemma js_space_blank c : js_space c = true <-> blank c.
Proof.
  unfold js_space, blank. split.
  - intros H. apply Bool.orb_prop in H as [H|H].
    + left. apply Nat.eqb_eq in H. rewrite <- (ascii_nat_embedding c), H. reflexivity.
    + right. apply andb_prop in H as [A B]. apply Nat.leb_le in A, B. exists (nat_of_ascii c). split; [lia|]. now rewrite ascii_nat_embedding.
  - intros [->|(n & B & ->)]; [reflexivity|]. rewrite nat_ascii_embedding by lia. apply Bool.orb_true_intro. right.
    apply andb_true_intro. split; apply Nat.leb_le; lia.
Qed.

Lemma trim_left_split s : exists x, all_blank x /\ s = x ++ trim_left s /\ forall c r, trim_left s = String c r -> ~ blank c.
Proof.
  induction s as [|c s (x & B & E & F)]; [exists ""; repeat split; auto; discriminate|]. cbn [trim_left]. destruct (js_space c) eqn:J.
  - exists (String c x). apply js_space_blank in J. repeat split; auto. cbn. now f_equal.
  - exists "". repeat split; auto. intros d r H. inv H. rewrite <- js_space_blank. congruence.
Qed.

Lemma trim_right_split s : exists y, all_blank y /\ s = trim_right s ++ y /\ forall c r, trim_right s = r ++ String c "" -> ~ blank c.
Proof.
  induction s as [|c s (y & B & E & F)].
  - exists "". repeat split; auto. intros c r H. destruct r; discriminate.
  - cbn [trim_right]. destruct (trim_right s) as [|d t] eqn:T.
    + cbn in E. subst y. destruct (js_space c) eqn:J.
      * exists (String c s). apply js_space_blank in J. split; [split; assumption|]. split; [reflexivity|]. intros e r H. destruct r; discriminate.
      * exists s. split; [assumption|]. split; [reflexivity|]. intros e r H. destruct r as [|? [|? ?]]; inv H. rewrite <- js_space_blank. congruence.
    + exists y. split; [assumption|]. split; [cbn; now rewrite E at 1|]. intros e r H. destruct r as [|u r]; [inv H|]. cbn in H. inv H. eapply F; eassumption.
Qed.

Lemma trim_right_first s c r : trim_right s = String c r -> exists r', s = String c r'.
Proof.
  destruct s as [|d s]; [discriminate|]. cbn. destruct (trim_right s); [destruct (js_space d); [discriminate|]|]; intros H; inv H; eauto.
Qed.

Lemma js_trim_ok s : trimmed s (js_trim s).
Proof.
  unfold js_trim. destruct (trim_left_split s) as (x & BX & EX & FX). destruct (trim_right_split (trim_left s)) as (y & BY & EY & FY). repeat split.
  - exists x, y. repeat split; auto. rewrite <- EY. exact EX.
  - intros c r H. apply trim_right_first in H as [r' H]. eapply FX; eauto.
  - exact FY.
Qed.

(** ** Names of files *)

Lemma last_dot_none e : (forall x y, e <> x ++ String "." y) -> forall i f, last_dot e i f = f.
Proof.
  induction e as [|c e IH]; intros N i f; [reflexivity|]. cbn [last_dot]. destruct (Ascii.eqb_spec c ".") as [->|D].
  - exfalso. apply (N "" e). reflexivity.
  - apply IH. intros x y E. apply (N (String c x) y). cbn. now rewrite E.
Qed.

Lemma last_dot_at b e : (forall x y, e <> x ++ String "." y) -> forall i f, last_dot (b ++ String "." e) i f = Some (i + String.length b)%nat.
Proof.
  intros N. induction b as [|c b IH]; intros i f; cbn [append last_dot].
  - cbn. rewrite last_dot_none by exact N. f_equal. lia.
  - rewrite IH. f_equal. cbn. lia.
Qed.

Lemma last_dot_found s : forall i f j, last_dot s i f = Some j -> f = Some j \/ exists x y, s = x ++ String "." y /\ j = (i + String.length x)%nat.
Proof.
  induction s as [|c s IH]; intros i f j H; [left; exact H|]. cbn [last_dot] in H. apply IH in H as [H|(x & y & E & L)].
  - destruct (Ascii.eqb_spec c ".") as [->|D]; [|left; exact H]. right. inv H. exists "", s. split; [reflexivity|cbn; lia].
  - right. exists (String c x), y. split; [cbn; now rewrite E|cbn; lia].
Qed.

Lemma substring_all s : substring 0 (String.length s) s = s.
Proof. induction s as [|c s IH]; cbn; [reflexivity|]. now rewrite IH. Qed.

Lemma substring_skip a b : substring (String.length a) (String.length (a ++ b) - String.length a) (a ++ b) = b.
Proof.
  rewrite length_app_s. replace (String.length a + String.length b - String.length a)%nat with (String.length b) by lia.
  induction a as [|c a IH]; cbn; [apply substring_all|exact IH].
Qed.

Lemma extname_some b e : b <> "" -> (forall x y, e <> x ++ String "." y) -> b ++ String "." e <> ".." -> extname (b ++ String "." e) = String "." e.
Proof.
  intros B N D. unfold extname. destruct (String.eqb_spec (b ++ String "." e) "..") as [E|_]; [contradiction|].
  rewrite last_dot_at by exact N. destruct b as [|c b]; [contradiction|].
  replace (0 + String.length (String c b))%nat with (S (String.length b)) by (cbn; lia).
  change (S (String.length b)) with (String.length (String c b)). apply substring_skip.
Qed.

Lemma extname_none f : (forall x y, x <> "" -> f <> x ++ String "." y) -> extname f = "".
Proof.
  intros N. unfold extname. destruct (String.eqb f ".."); [reflexivity|]. destruct (last_dot f 0 None) as [[|i]|] eqn:L; try reflexivity.
  apply last_dot_found in L as [L|(x & y & E & L)]; [discriminate|]. exfalso. apply (N x y); [|exact E]. intros ->. cbn in L. discriminate.
Qed.

Lemma prefix_app a b : prefix a (a ++ b) = true.
Proof. induction a as [|c a IH]; [now destruct b|]. cbn. destruct (ascii_dec c c); [exact IH|contradiction]. Qed.

Lemma prefix_split a : forall s, prefix a s = true -> exists y, s = a ++ y.
Proof.
  induction a as [|c a IH]; intros s H; [now exists s|]. destruct s as [|d s]; [discriminate|]. cbn in H.
  destruct (ascii_dec c d) as [<-|]; [|discriminate]. destruct (IH s H) as [y ->]. now exists y.
Qed.

Lemma remove_first_end b e : e <> "" -> (forall x y, b ++ e = x ++ (e ++ y) -> y = "") -> remove_first e (b ++ e) = b.
Proof.
  intros N. induction b as [|c b IH]; intros U.
  - cbn [append]. destruct e as [|d e]; [contradiction|]. cbn [remove_first].
    replace (prefix (String d e) (String d e)) with true by (symmetry; rewrite <- (app_empty (String d e)) at 2; apply prefix_app).
    rewrite Nat.sub_diag. pose proof (substring_skip (String d e) "") as H. rewrite app_empty, Nat.sub_diag in H. exact H.
  - cbn [append remove_first]. destruct (prefix e (String c (b ++ e))) eqn:P.
    + exfalso. apply prefix_split in P as [y P]. specialize (U "" y P). subst y. rewrite app_empty in P.
      apply (f_equal String.length) in P. cbn in P. rewrite length_app_s in P. lia.
    + f_equal. apply IH. intros x y E. apply (U (String c x) y). cbn. now rewrite E.
Qed.

Lemma basename_plain f : (forall x y, f <> x ++ String "/" y) -> forall acc, basename f acc = acc ++ f.
Proof.
  induction f as [|c f IH]; intros N acc; [cbn; now rewrite app_empty|]. cbn [basename]. destruct (Ascii.eqb_spec c "/") as [->|D].
  - exfalso. apply (N "" f). reflexivity.
  - rewrite IH; [now rewrite <- app_assoc_s|]. intros x y E. apply (N (String c x) y). cbn. now rewrite E.
Qed.

Lemma basename_path d f : (forall x y, f <> x ++ String "/" y) -> forall acc, basename (d ++ String "/" f) acc = f.
Proof.
  intros N. induction d as [|c d IH]; intros acc; cbn [append basename].
  - cbn. now rewrite basename_plain.
  - destruct (Ascii.eqb c "/"); apply IH.
Qed.

(** The file name of a path. *)
Definition file_name (path f : string) : Prop := (forall x y, f <> x ++ String "/" y) /\ (path = f \/ exists d, path = d ++ String "/" f).

Lemma basename_ok path f : file_name path f -> basename path "" = f.
Proof. intros [N [->|[d ->]]]; [now rewrite basename_plain|now apply basename_path]. Qed.

Theorem stem_ok path f b : file_name path f -> f <> ".." -> without_extension f b ->
  (forall e x y, f = b ++ String "." e -> f = x ++ (String "." e ++ y) -> y = "") -> stem path = b.
Proof.
  intros F D W U. unfold stem. rewrite (basename_ok path f F). inv W.
  - rewrite extname_some by assumption. apply remove_first_end; [discriminate|]. intros x y E. exact (U e x y eq_refl E).
  - rewrite extname_none by assumption. destruct b as [|c b]; [reflexivity|]. cbn [remove_first prefix]. cbn. now rewrite substring_all.
Qed.

(** In particular for a name with one dot. *)
Theorem stem_one_dot path b e : file_name path (b ++ String "." e) -> b <> "" -> (forall x y, b <> x ++ String "." y) -> (forall x y, e <> x ++ String "." y) ->
  stem path = b.
Proof.
  intros F B NB NE. unfold stem. rewrite (basename_ok path _ F). rewrite extname_some; auto.
  - apply remove_first_end; [discriminate|]. intros x y E. clear F.
    revert x E. induction b as [|c b IH]; intros x E.
    + destruct x as [|d x]; cbn in E; inv E.
      * apply (f_equal String.length) in H0. rewrite length_app_s in H0. destruct y; [reflexivity|cbn in H0; lia].
      * exfalso. apply (NE x (e ++ y)). assumption.
    + destruct x as [|d x]; cbn in E; inv E; [exfalso; apply (NB "" b); reflexivity|].
      destruct b as [|c' b].
      * cbn in H1. destruct x as [|d' x]; cbn in H1; inv H1.
        -- apply (f_equal String.length) in H0. rewrite length_app_s in H0. destruct y; [reflexivity|cbn in H0; lia].
        -- exfalso. apply (NE x (e ++ y)). assumption.
      * apply (IH ltac:(discriminate)) with (x := x); [|exact H1]. intros u v E. apply (NB (String d u) v). cbn. now rewrite E.
  - destruct b as [|c b]; [contradiction|]. intros E. cbn in E. injection E as -> E. apply (NB "" b). reflexivity.
Qed.

(** ** The status *)

Lemma trim_left_blank x : forall r, all_blank x -> trim_left (x ++ r) = trim_left r.
Proof. induction x as [|c x IH]; intros r B; [reflexivity|]. destruct B as [A B]. apply js_space_blank in A. cbn. rewrite A. now apply IH. Qed.

Lemma trim_right_blank y : all_blank y -> trim_right y = "".
Proof. induction y as [|c y IH]; intros B; [reflexivity|]. destruct B as [A B]. apply js_space_blank in A. cbn. now rewrite IH, A. Qed.

Lemma trim_right_app t y : all_blank y -> trim_right (t ++ y) = trim_right t.
Proof. intros B. induction t as [|c t IH]; cbn; [now apply trim_right_blank|]. now rewrite IH. Qed.

Lemma trim_right_kept t : (forall c r, t = r ++ String c "" -> ~ blank c) -> trim_right t = t.
Proof.
  induction t as [|c t IH]; intros L; [reflexivity|]. cbn [trim_right]. destruct t as [|d t].
  - cbn. destruct (js_space c) eqn:J; [|reflexivity]. apply js_space_blank in J. exfalso. exact (L c "" eq_refl J).
  - rewrite IH; [reflexivity|]. intros e r E. apply (L e (String c r)). cbn. now rewrite E.
Qed.

Theorem trimmed_unique s t : trimmed s t -> t <> "" -> js_trim s = t.
Proof.
  intros ((x & y & BX & BY & ->) & F & L) N. unfold js_trim. rewrite trim_left_blank by exact BX.
  destruct t as [|c r]; [contradiction|]. cbn [append trim_left].
  destruct (js_space c) eqn:J; [apply js_space_blank in J; exfalso; exact (F c r eq_refl J)|].
  change (String c (r ++ y)) with (String c r ++ y). rewrite trim_right_app by exact BY. now apply trim_right_kept.
Qed.

Theorem status_id path s t : trimmed s t -> t <> "" -> status_text path (IdText s) = t.
Proof.
  intros T N. pose proof (trimmed_unique s t T N) as E. unfold status_text. rewrite E.
  destruct (String.eqb_spec s "") as [->|_]; [cbn in E; congruence|]. destruct (String.eqb_spec t ""); [contradiction|reflexivity].
Qed.

Theorem status_stem path m : (forall s, m = IdText s -> all_blank s) -> status_text path m = stem path.
Proof.
  intros H. destruct m as [| |s|b]; try reflexivity. specialize (H s eq_refl). unfold status_text. destruct (String.eqb s ""); [reflexivity|].
  replace (js_trim s) with "" by (unfold js_trim; replace (trim_left s) with ""; [reflexivity|]; induction s as [|c s IH]; [reflexivity|];
    cbn; destruct H as [A B]; apply js_space_blank in A; rewrite A; now apply IH). reflexivity.
Qed.
