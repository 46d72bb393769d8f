From Verif Require Import Model.Base Model.Attr Model.Rotator Spec.RotationSpec Proofs.Tactics.

Lemma mem6 w : is_axis w = true ->
  w = "X" \/ w = "Y" \/ w = "Z" \/ w = "I" \/ w = "J" \/ w = "K".
Proof.
  unfold is_axis, mem_str. cbn [existsb].
  repeat match goal with |- context [String.eqb w ?b] => destruct (String.eqb_spec w b) end;
    subst; intros; try discriminate; tauto.
Qed.

Lemma flip_flip_sign s : same_sign (flip_sign (flip_sign s)) s.
Proof.
  unfold same_sign. destruct s as [c|]; cbn; [|split; discriminate].
  destruct (Ascii.eqb_spec c "-"); cbn; [subst; tauto|].
  split; [discriminate|congruence].
Qed.

Lemma flip_sign_iff s : flip_sign s = Some "-"%char <-> s <> Some "-"%char.
Proof.
  destruct s as [c|]; cbn; [|split; intros; congruence].
  destruct (Ascii.eqb_spec c "-"); split; intros; try congruence; subst; congruence.
Qed.

Lemma not_not_minus (s : option ascii) : ~ s <> Some "-"%char <-> s = Some "-"%char.
Proof.
  split; [|tauto]. intro H. destruct s as [c|]; [|exfalso; apply H; discriminate].
  destruct (Ascii.eqb_spec c "-"); [congruence|]. exfalso. apply H. congruence.
Qed.

Lemma rotate_back_axis o d : is_axis (d_word d) = true ->
  same_word_value (rotate_decimal (back o) (rotate_decimal o d)) d.
Proof.
  intro H. apply mem6 in H. destruct d as [w asg s op mc v dt v2 cl]. cbn [d_word] in H.
  destruct o; decompose [or] H; subst w; repeat split; cbn -[flip_sign];
    rewrite ?flip_sign_iff, ?not_not_minus; tauto.
Qed.

Lemma rotate_axis_word o d : is_axis (d_word d) = true -> is_axis (d_word (rotate_decimal o d)) = true.
Proof.
  intro H. apply mem6 in H. destruct d as [w asg s op mc v dt v2 cl]. cbn [d_word] in H.
  destruct o; decompose [or] H; subst w; reflexivity.
Qed.

Lemma rotate_other o d : is_axis (d_word d) = false -> d_word d <> "G" -> rotate_decimal o d = d.
Proof.
  intros H G. unfold rotate_decimal, is_axis_word, is_axis in *. rewrite H.
  destruct (String.eqb_spec (d_word d) "G"); [contradiction|reflexivity].
Qed.

Lemma rotate_g_word o d : d_word d = "G" ->
  exists v, rotate_decimal o d = set_value d v.
Proof.
  intro H. unfold rotate_decimal. rewrite H. cbn [is_axis_word mem_str existsb].
  cbn. destruct (d_value d) as [v|] eqn:V.
  - destruct (assoc v (g_table o)); [eauto|]. exists (Some v). destruct d; cbn in *. now subst.
  - exists None. destruct d; cbn in *. now subst.
Qed.

Lemma four_quarters_axis o d : is_axis (d_word d) = true ->
  same_word_value (rotate_decimal o (rotate_decimal o (rotate_decimal o (rotate_decimal o d)))) d.
Proof.
  intros H. apply mem6 in H. destruct d as [w asg s op mc v dt v2 cl]. cbn [d_word] in H.
  destruct o; decompose [or] H; subst w;
    repeat split; cbn -[flip_sign]; rewrite ?flip_sign_iff, ?not_not_minus; tauto.
Qed.

(** Lifting to blocks. *)
Lemma restored_rotate o a : restored a (rotate_attr (back o) (rotate_attr o a)).
Proof.
  destruct a as [d|w v|w c]; cbn [rotate_attr restored]; auto.
  destruct (is_axis (d_word d)) eqn:A.
  - pose proof (rotate_back_axis o d A) as S. split; [apply S|]. split; [auto|discriminate].
  - destruct (String.eqb_spec (d_word d) "G") as [G|G].
    + destruct (rotate_g_word o d G) as [v E]. rewrite E.
      destruct (rotate_g_word (back o) (set_value d v)) as [v' E']; [exact G|]. rewrite E'.
      split; [reflexivity|]. split; [discriminate|intros; contradiction].
    + rewrite (rotate_other o d A G), (rotate_other (back o) d A G).
      split; [reflexivity|]. split; [discriminate|auto].
Qed.

Lemma rotate_back_block o b :
  Forall2 restored b (rotate_block (back o) (rotate_block o b)).
Proof.
  unfold rotate_block. induction b as [|a b IH]; cbn [map]; constructor; [|exact IH].
  apply restored_rotate.
Qed.

Lemma four_quarters o b :
  Forall2 restored b (rotate_block o (rotate_block o (rotate_block o (rotate_block o b)))).
Proof.
  unfold rotate_block. induction b as [|a b IH]; cbn [map]; constructor; [|exact IH].
  destruct a as [d|w v|w c]; cbn [rotate_attr restored]; auto.
  destruct (is_axis (d_word d)) eqn:A.
  - pose proof (four_quarters_axis o d A) as S. split; [apply S|]. split; [auto|discriminate].
  - destruct (String.eqb_spec (d_word d) "G") as [G|G].
    + destruct (rotate_g_word o d G) as [v E]. rewrite E.
      destruct (rotate_g_word o (set_value d v)) as [v1 E1]; [exact G|]. rewrite E1.
      destruct (rotate_g_word o (set_value (set_value d v) v1)) as [v2 E2]; [exact G|]. rewrite E2.
      destruct (rotate_g_word o (set_value (set_value (set_value d v) v1) v2)) as [v3 E3]; [exact G|].
      rewrite E3. split; [reflexivity|]. split; [discriminate|intros; contradiction].
    + rewrite !(rotate_other o d A G). split; [reflexivity|]. split; [discriminate|auto].
Qed.

(** Plane words return too; arc directions need not. *)
Lemma rotate_back_plane o p :
  rotate_decimal (back o) (rotate_decimal o (plain "G" (plane_code p))) = plain "G" (plane_code p).
Proof. destruct o, p; reflexivity. Qed.

(** ** Coordinates *)
Lemma word_value_flip d w : word_value (set_word_sign d w (flip_sign (d_sign d))) = - word_value d.
Proof.
  unfold word_value; cbn. destruct (d_sign d) as [c|]; cbn; [|reflexivity].
  destruct (Ascii.eqb_spec c "-"); cbn; lia.
Qed.

Lemma word_value_keep d w : word_value (set_word_sign d w (d_sign d)) = word_value d.
Proof. reflexivity. Qed.

Lemma vec_eq (a b c d e f : Z) : a = d -> b = e -> c = f -> (a, b, c) = (d, e, f).
Proof. congruence. Qed.

Definition vadd (u v : vec) : vec :=
  let '(a, b, c) := u in let '(d, e, f) := v in (a + d, b + e, c + f).

Lemma apply_add m u v : apply m (vadd u v) = vadd (apply m u) (apply m v).
Proof.
  destruct m as [[[[a b] c] [[d e] f]] [[g h] i]], u as [[u1 u2] u3], v as [[v1 v2] v3].
  unfold apply, vadd, dot. apply vec_eq; ring.
Qed.

Definition attr_vec (wx wy wz : string) (a : attr) : vec := coords wx wy wz [a].

Lemma coords_cons wx wy wz a b :
  coords wx wy wz (a :: b) = vadd (attr_vec wx wy wz a) (coords wx wy wz b).
Proof.
  unfold coords, attr_vec, coords, vadd. destruct a; cbn; apply vec_eq; lia.
Qed.

Lemma attr_rotate_xyz o a :
  attr_vec "X" "Y" "Z" (rotate_attr o a) = apply (turn o) (attr_vec "X" "Y" "Z" a).
Proof.
  destruct a as [d|w v|w c]; [|destruct o; reflexivity|destruct o; reflexivity].
  destruct (is_axis (d_word d)) eqn:A.
  - apply mem6 in A. pose proof (word_value_flip d) as F. pose proof (word_value_keep d) as K.
    unfold attr_vec, coords. cbn [rotate_attr coord].
    decompose [or] A; destruct o; unfold rotate_decimal;
      match goal with H : d_word d = _ |- _ => rewrite H end;
      cbn -[word_value set_word_sign flip_sign Z.add Z.mul];
      repeat match goal with
      | |- context [word_value (set_word_sign d ?w (flip_sign (d_sign d)))] => rewrite (F w)
      | |- context [word_value (set_word_sign d ?w (d_sign d))] => rewrite (K w)
      end; cbn -[word_value Z.add Z.mul]; apply vec_eq; lia.
  - assert (N : forall w, In w ["X"; "Y"; "Z"] -> String.eqb (d_word d) w = false).
    { intros w I. destruct (String.eqb_spec (d_word d) w) as [E|E]; [|reflexivity].
      rewrite E in A. clear E. cbn in I. decompose [or] I; try contradiction; subst w; vm_compute in A; discriminate A. }
    assert (W : d_word (rotate_decimal o d) = d_word d).
    { destruct (String.eqb_spec (d_word d) "G") as [G|G].
      - destruct (rotate_g_word o d G) as [v E]. now rewrite E.
      - now rewrite rotate_other. }
    unfold attr_vec, coords. cbn [rotate_attr coord]. rewrite W, !N by (cbn; tauto).
    destruct o; reflexivity.
Qed.

Lemma attr_rotate_ijk o a :
  attr_vec "I" "J" "K" (rotate_attr o a) = apply (turn o) (attr_vec "I" "J" "K" a).
Proof.
  destruct a as [d|w v|w c]; [|destruct o; reflexivity|destruct o; reflexivity].
  destruct (is_axis (d_word d)) eqn:A.
  - apply mem6 in A. pose proof (word_value_flip d) as F. pose proof (word_value_keep d) as K.
    unfold attr_vec, coords. cbn [rotate_attr coord].
    decompose [or] A; destruct o; unfold rotate_decimal;
      match goal with H : d_word d = _ |- _ => rewrite H end;
      cbn -[word_value set_word_sign flip_sign Z.add Z.mul];
      repeat match goal with
      | |- context [word_value (set_word_sign d ?w (flip_sign (d_sign d)))] => rewrite (F w)
      | |- context [word_value (set_word_sign d ?w (d_sign d))] => rewrite (K w)
      end; cbn -[word_value Z.add Z.mul]; apply vec_eq; lia.
  - assert (N : forall w, In w ["I"; "J"; "K"] -> String.eqb (d_word d) w = false).
    { intros w I. destruct (String.eqb_spec (d_word d) w) as [E|E]; [|reflexivity].
      rewrite E in A. clear E. cbn in I. decompose [or] I; try contradiction; subst w; vm_compute in A; discriminate A. }
    assert (W : d_word (rotate_decimal o d) = d_word d).
    { destruct (String.eqb_spec (d_word d) "G") as [G|G].
      - destruct (rotate_g_word o d G) as [v E]. now rewrite E.
      - now rewrite rotate_other. }
    unfold attr_vec, coords. cbn [rotate_attr coord]. rewrite W, !N by (cbn; tauto).
    destruct o; reflexivity.
Qed.

Lemma rotate_coords o b :
  coords "X" "Y" "Z" (rotate_block o b) = apply (turn o) (coords "X" "Y" "Z" b) /\
  coords "I" "J" "K" (rotate_block o b) = apply (turn o) (coords "I" "J" "K" b).
Proof.
  induction b as [|a b [IH1 IH2]]; [destruct o; split; reflexivity|].
  change (rotate_block o (a :: b)) with (rotate_attr o a :: rotate_block o b).
  rewrite !coords_cons, IH1, IH2, attr_rotate_xyz, attr_rotate_ijk, !apply_add. auto.
Qed.

Lemma turn_proper o : det (turn o) = 1 /\ mul (turn o) (transpose (turn o)) = ident.
Proof. destruct o; split; reflexivity. Qed.

Lemma plane_rewritten o p p' k : plane_image o p p' k ->
  rotate_decimal o (plain "G" (plane_code p)) = plain "G" (plane_code p').
Proof.
  intros [Hk E]. destruct o, p, p'; cbn in E; inversion E; try reflexivity; lia.
Qed.

Lemma plane_image_exists o p : exists p' k, plane_image o p p' k.
Proof.
  unfold plane_image.
  destruct o, p;
    first [ exists G17, 1; split; [tauto|reflexivity] | exists G17, (-1); split; [tauto|reflexivity]
          | exists G18, 1; split; [tauto|reflexivity] | exists G18, (-1); split; [tauto|reflexivity]
          | exists G19, 1; split; [tauto|reflexivity] | exists G19, (-1); split; [tauto|reflexivity] ].
Qed.

Lemma arc_g17 o g : g = "2" \/ g = "3" -> arc_consistent o G17 g.
Proof.
  intros Hg p' k [Hk E]. destruct o, p'; cbn in E; inversion E; try lia;
    (assert (k = 1 \/ k = -1) as [-> | ->] by assumption); try lia;
    destruct Hg; subst g; reflexivity.
Qed.

Lemma arc_refuted o : exists p, ~ arc_consistent o p "2".
Proof.
  assert (W : forall p p' k, plane_image o p p' k ->
    rotate_decimal o (plain "G" "2") <> plain "G" (if k =? 1 then "2" else "3") ->
    exists p, ~ arc_consistent o p "2").
  { intros p p' k I N. exists p. intro C. apply N. exact (C p' k I). }
  destruct o.
  - apply (W G18 G17 (-1)); [split; [tauto|reflexivity]|discriminate].
  - apply (W G19 G19 1); [split; [tauto|reflexivity]|discriminate].
  - apply (W G19 G19 1); [split; [tauto|reflexivity]|discriminate].
  - apply (W G18 G18 1); [split; [tauto|reflexivity]|discriminate].
  - apply (W G18 G18 1); [split; [tauto|reflexivity]|discriminate].
  - apply (W G19 G17 (-1)); [split; [tauto|reflexivity]|discriminate].
  - apply (W G19 G18 (-1)); [split; [tauto|reflexivity]|discriminate].
  - apply (W G18 G18 (-1)); [split; [tauto|reflexivity]|discriminate].
  - apply (W G18 G19 (-1)); [split; [tauto|reflexivity]|discriminate].
Qed.

Lemma arc_not_restored : exists o,
  rotate_decimal (back o) (rotate_decimal o (plain "G" "2")) = plain "G" "3".
Proof. exists X90. reflexivity. Qed.
