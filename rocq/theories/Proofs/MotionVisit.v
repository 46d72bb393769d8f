(** What the visitor of the path calculation finds in a block. *)
From Verif Require Import Model.Base Model.Attr Model.Double Model.Macro Model.Verifiers Model.Splitter Model.PathGeom Model.PathCalc
  Spec.SplitSpec Spec.PathSpec Spec.MotionSpec Proofs.Tactics Proofs.PathVisit.

Open Scope string_scope.
Open Scope list_scope.
Open Scope Z_scope.

Ltac cases E :=
  let PA := fresh "PA" in
  destruct E as [[PA [E _]]|[PA [[? E]|[[? E]|[[? E]|[[? E]|[[? E]|[E ?]]]]]]]].

Section Visit.
Variable mc : machine.
Hypothesis axes : proper_axes mc.

Section Last.
Context {A : Type} (sel : found -> option A) (says : decimal -> A -> Prop).
Hypothesis one : forall d v v', d_word d <> "/" -> v_comment v = false -> visit_decimal mc d v = Ok v' ->
  (exists a, says d a /\ sel v' = Some a) \/ ((forall a, ~ says d a) /\ sel v' = sel v).
Hypothesis comment : forall v, sel (with_comment true v) = sel v.
Hypothesis pallet : forall v, sel (with_pallet true v) = sel v.
Hypothesis measure : forall v, sel (with_measure true v) = sel v.

Lemma commented b : forall v v', v_comment v = true -> foldM (visit_attr mc) v b = Ok v' -> sel v' = sel v.
Proof.
  induction b as [|a b IH]; intros v v' C E; [now inv E|].
  cbn [foldM] in E. unfold bind in E. destruct (visit_attr mc v a) as [v1|] eqn:E1; [|discriminate].
  destruct a as [d|w t|w t]; cbn [visit_attr] in E1.
  - unfold visit_decimal in E1. rewrite C in E1. destruct (String.eqb (d_word d) "/"); inv E1.
    + rewrite (IH _ _ (eq_refl : v_comment (with_comment true v) = true) E). apply comment.
    + apply (IH _ _ C E).
  - inv E1. assert (C2 : v_comment (service_codes mc w t v) = true) by (rewrite (codes_other mc v_comment) by reflexivity; exact C).
    rewrite (IH _ _ C2 E). now apply codes_other.
  - inv E1. now apply IH.
Qed.

Lemma last_wins b : forall v v', foldM (visit_attr mc) v b = Ok v' -> v_comment v = false ->
  (exists a, last_said says b (Some a) /\ sel v' = Some a) \/ (last_said says b None /\ sel v' = sel v).
Proof.
  induction b as [|a b IH]; intros v v' E C; [inv E; right; split; [intros d a []|reflexivity]|].
  cbn [foldM] in E. unfold bind in E. destruct (visit_attr mc v a) as [v1|] eqn:E1; [|discriminate].
  destruct a as [d|w t|w t]; cbn [visit_attr] in E1; cbn [last_said effective].
  - destruct (String.eqb (d_word d) "/") eqn:W.
    + assert (v1 = with_comment true v) by (unfold visit_decimal in E1; rewrite W in E1; now inv E1). subst v1.
      right. split; [intros d0 a []|]. rewrite (commented b _ _ (eq_refl : v_comment (with_comment true v) = true) E). apply comment.
    + apply String.eqb_neq in W. pose proof (visit_flag mc d v v1 W C E1) as C1.
      destruct (IH v1 v' E C1) as [(a & (l1 & d0 & l2 & Q & Y & N) & Z)|[N Z]].
      * left. exists a. split; [|exact Z]. exists (d :: l1), d0, l2. rewrite Q. auto.
      * destruct (one d v v1 W C E1) as [(a & Y & S1)|[Y S1]].
        -- left. exists a. split; [|congruence]. exists [], d, (effective b). auto.
        -- right. split; [|congruence]. intros d0 a [<-|I]; [apply Y|now apply N].
  - inv E1. assert (CC : v_comment (service_codes mc w t v) = false) by (rewrite (codes_other mc v_comment) by reflexivity; exact C).
    destruct (IH _ v' E CC) as [H|[N Z]]; [left; exact H|right]. split; [exact N|]. rewrite Z. now apply codes_other.
  - inv E1. apply (IH v1 v' E C).
Qed.
End Last.

Definition said {A} (says : decimal -> A -> Prop) b (o : option A) : Prop := last_said says b o.

Lemma last_found {A} (sel : found -> option A) (says : decimal -> A -> Prop) b v :
  (forall d v v', d_word d <> "/" -> v_comment v = false -> visit_decimal mc d v = Ok v' ->
    (exists a, says d a /\ sel v' = Some a) \/ ((forall a, ~ says d a) /\ sel v' = sel v)) ->
  (forall v, sel (with_comment true v) = sel v) -> (forall v, sel (with_pallet true v) = sel v) ->
  (forall v, sel (with_measure true v) = sel v) -> sel found_init = None ->
  foldM (visit_attr mc) found_init b = Ok v -> last_said says b (sel v).
Proof.
  intros O C P M I E. destruct (last_wins sel says O C P M b found_init v E eq_refl) as [(a & L & ->)|[L ->]]; [exact L|].
  rewrite I. exact L.
Qed.

(** A G code of one group leaves the others alone. *)
Lemma one_code (sel : found -> option Z) (group : list Z) :
  (forall d v v', visit_g d v = Ok v' -> forall t n, d_value d = Some t -> stoi t = Ok n ->
     (In n group /\ sel v' = Some n) \/ (~ In n group /\ sel v' = sel v)) ->
  (forall x v, sel (with_values x v) = sel v) -> (forall x v, sel (with_tools x v) = sel v) -> (forall x v, sel (with_f x v) = sel v) ->
  (forall x v, sel (with_s x v) = sel v) -> (forall v, sel (with_m6 true v) = sel v) ->
  (forall v, sel (with_pallet true v) = sel v) -> (forall v, sel (with_measure true v) = sel v) ->
  forall d v v', d_word d <> "/" -> v_comment v = false -> visit_decimal mc d v = Ok v' ->
    (exists a, code_of group d a /\ sel v' = Some a) \/ ((forall a, ~ code_of group d a) /\ sel v' = sel v).
Proof.
  intros G V T F S M6 P M d v v' W C E. apply (visit_cases mc) in E; [|exact W|exact C].
  assert (NG : d_word d <> "G" -> forall a, ~ code_of group d a) by (intros H a [Q _]; contradiction).
  cases E.
  - right. split; [|rewrite E; apply V]. apply NG. intros Q. rewrite Q, (not_param mc axes) in PA; [discriminate|cbn; tauto].
  - right. split; [apply NG; congruence|]. rewrite E. destruct (whole d); [apply T|reflexivity].
  - right. split; [apply NG; congruence|]. rewrite E. apply F.
  - right. split; [apply NG; congruence|]. rewrite E. apply S.
  - right. split; [apply NG; congruence|]. destruct (whole d) as [t|]; [|now subst]. destruct E as (n & _ & ->).
    rewrite (codes_other mc sel) by assumption. destruct (n =? 6); [apply M6|reflexivity].
  - destruct (d_value d) as [t|] eqn:DV.
    + destruct (stoi t) as [n|] eqn:N; [|unfold visit_g, bind in E; rewrite DV, N in E; discriminate].
      destruct (G d v v' E t n DV N) as [[I Q]|[I Q]].
      * left. exists n. split; [|exact Q]. split; [assumption|]. split; [exists t; auto|exact I].
      * right. split; [|exact Q]. intros a (_ & (t' & D' & N') & I'). rewrite DV in D'. injection D' as <-. rewrite N in N'. injection N' as <-. contradiction.
    + right. unfold visit_g in E. rewrite DV in E. inv E. split; [|reflexivity]. intros a (_ & (t' & D' & _) & _). congruence.
  - right. subst v'. split; [|reflexivity]. apply NG. intros Q. apply H. rewrite Q. cbn; tauto.
Qed.

Ltac spread n :=
  repeat match goal with
    | H : existsb (Z.eqb n) ?l = true |- _ => apply existsb_exists in H as (? & ? & H); apply Z.eqb_eq in H; subst
    end.

Lemma in_existsb n l : In n l <-> existsb (Z.eqb n) l = true.
Proof. rewrite existsb_exists. split; [intro I; exists n; split; [exact I|apply Z.eqb_refl]|]. intros (x & I & E). apply Z.eqb_eq in E. now subst. Qed.

Definition is_motion (n : Z) : bool := ((0 <=? n) && (n <=? 3)) || (n =? 80) || is_drill_cycle n || is_drill_cycle_qparam n.

Lemma is_motion_in n : is_motion n = true <-> In n motions.
Proof.
  unfold is_motion, is_drill_cycle, is_drill_cycle_qparam, motions. rewrite !orb_true_iff, <- !in_existsb, andb_true_iff, Z.eqb_eq.
  cbn [In]. lia.
Qed.

(** Which group a code belongs to. *)
Lemma visit_group d v v' : visit_g d v = Ok v' -> forall t n, d_value d = Some t -> stoi t = Ok n ->
  (In n planes /\ v' = with_plane (Some n) v) \/ (In n motions /\ v' = with_g (Some n) v) \/
  (In n feed_modes /\ v' = with_feed (Some n) v) \/ (In n speed_modes /\ v' = with_css (Some n) v) \/
  (In n returns /\ v' = with_return (Some n) v) \/ (In n programmings /\ v' = with_prog (Some n) v) \/
  (~ In n (motions ++ planes ++ feed_modes ++ speed_modes ++ returns ++ programmings) /\ exists s, v' = with_other (v_other v ++ [s]) v).
Proof.
  intros E t n DV N. unfold visit_g, bind in E. rewrite DV, N in E.
  match type of E with Ok ?x = _ => assert (EQ : v' = x) by (symmetry; exact (f_equal (fun r => match r with Ok y => y | Exc _ => v end) E)) end.
  clear E. subst v'.
  change ((0 <=? n) && (n <=? 3) || (n =? 80) || is_drill_cycle n || is_drill_cycle_qparam n) with (is_motion n).
  destruct (existsb (Z.eqb n) [17; 18; 19]) eqn:E1; [left; split; [now apply in_existsb|reflexivity]|right].
  destruct (is_motion n) eqn:E2; [left; split; [now apply is_motion_in|reflexivity]|right].
  destruct (existsb (Z.eqb n) [94; 95]) eqn:E3; [left; split; [now apply in_existsb|reflexivity]|right].
  destruct (existsb (Z.eqb n) [96; 97]) eqn:E4; [left; split; [now apply in_existsb|reflexivity]|right].
  destruct (existsb (Z.eqb n) [98; 99]) eqn:E5; [left; split; [now apply in_existsb|reflexivity]|right].
  destruct (existsb (Z.eqb n) [90; 91]) eqn:E6; [left; split; [now apply in_existsb|reflexivity]|right].
  split; [|eexists; reflexivity]. rewrite !in_app_iff, <- is_motion_in, !in_existsb.
  change planes with [17; 18; 19]. change feed_modes with [94; 95]. change speed_modes with [96; 97].
  change returns with [98; 99]. change programmings with [90; 91]. rewrite E1, E2, E3, E4, E5, E6. intuition discriminate.
Qed.

Lemma groups_apart n : In n motions -> ~ In n planes /\ ~ In n feed_modes /\ ~ In n speed_modes /\ ~ In n returns /\ ~ In n programmings.
Proof. cbn. lia. Qed.

Ltac pick := intros d0 v0 v1 E0 t n DV N;
  destruct (visit_group d0 v0 v1 E0 t n DV N) as [[I ->]|[[I ->]|[[I ->]|[[I ->]|[[I ->]|[[I ->]|[I [s ->]]]]]]]];
  cbn [v_g v_plane v_return v_prog v_css v_feed with_g with_plane with_return with_prog with_css with_feed with_other];
  first [left; split; [exact I|reflexivity] | right; split; [revert I; cbn; lia|reflexivity]].

Ltac found_by sel group := eapply (last_found sel (code_of group));
  [eapply (one_code sel group); [pick|reflexivity..]|reflexivity..|eassumption].

Lemma found_motion b v : foldM (visit_attr mc) found_init b = Ok v -> last_said (code_of motions) b (v_g v).
Proof. intro E. found_by v_g motions. Qed.
Lemma found_plane b v : foldM (visit_attr mc) found_init b = Ok v -> last_said (code_of planes) b (v_plane v).
Proof. intro E. found_by v_plane planes. Qed.
Lemma found_programming b v : foldM (visit_attr mc) found_init b = Ok v -> last_said (code_of programmings) b (v_prog v).
Proof. intro E. found_by v_prog programmings. Qed.
Lemma found_return b v : foldM (visit_attr mc) found_init b = Ok v -> last_said (code_of returns) b (v_return v).
Proof. intro E. found_by v_return returns. Qed.
Lemma found_feed_mode b v : foldM (visit_attr mc) found_init b = Ok v -> last_said (code_of feed_modes) b (v_feed v).
Proof. intro E. found_by v_feed feed_modes. Qed.
Lemma found_speed_mode b v : foldM (visit_attr mc) found_init b = Ok v -> last_said (code_of speed_modes) b (v_css v).
Proof. intro E. found_by v_css speed_modes. Qed.

(** Feed and speed. *)
Lemma found_feed b v : foldM (visit_attr mc) found_init b = Ok v -> last_said (number_of "F") b (v_f v).
Proof.
  intro E. eapply (last_found v_f (number_of "F")); [|reflexivity..|exact E]. clear b v E.
  intros d v v' W C E. pose proof E as E0. apply (visit_cases mc) in E; [|exact W|exact C].
  assert (NF : d_word d <> "F" -> forall a, ~ number_of "F" d a) by (intros H a [Q _]; contradiction).
  cases E.
  - right. split; [|rewrite E; reflexivity]. apply NF. intros Q. rewrite Q, (not_param mc axes) in PA; [discriminate|cbn; tauto].
  - right. split; [apply NF; congruence|]. rewrite E. destruct (whole d); reflexivity.
  - unfold visit_decimal in E0. apply String.eqb_neq in W. rewrite W, C in E0.
    rewrite H, (not_param mc axes) in E0 by (cbn; tauto). cbn [String.eqb Ascii.eqb Bool.eqb] in E0. unfold bind, plain_value in E0.
    destruct (d_value d) as [t|] eqn:DV, (d_dot d) as [dd|] eqn:DD; cbn [is_some negb andb] in E0;
      try (destruct (stod _) as [x|] eqn:ST; [|discriminate]; injection E0 as <-; left; exists x; split; [|reflexivity];
           split; [exact H|]; split; [|rewrite DV, DD; exact ST]; rewrite DV, DD; intuition discriminate).
    injection E0 as <-. right. split; [|reflexivity]. intros a (_ & [Q|Q] & _); congruence.
  - right. split; [apply NF; congruence|]. rewrite E. reflexivity.
  - right. split; [apply NF; congruence|]. destruct (whole d) as [t|]; [|now subst]. destruct E as (n & _ & ->).
    rewrite (codes_other mc v_f) by reflexivity. destruct (n =? 6); reflexivity.
  - right. split; [apply NF; congruence|]. now apply (visit_g_other v_f) in E.
  - right. subst v'. split; [|reflexivity]. apply NF. intros Q. apply H. rewrite Q. cbn; tauto.
Qed.

Lemma found_speed b v : foldM (visit_attr mc) found_init b = Ok v -> last_said (number_of "S") b (v_s v).
Proof.
  intro E. eapply (last_found v_s (number_of "S")); [|reflexivity..|exact E]. clear b v E.
  intros d v v' W C E. pose proof E as E0. apply (visit_cases mc) in E; [|exact W|exact C].
  assert (NF : d_word d <> "S" -> forall a, ~ number_of "S" d a) by (intros H a [Q _]; contradiction).
  cases E.
  - right. split; [|rewrite E; reflexivity]. apply NF. intros Q. rewrite Q, (not_param mc axes) in PA; [discriminate|cbn; tauto].
  - right. split; [apply NF; congruence|]. rewrite E. destruct (whole d); reflexivity.
  - right. split; [apply NF; congruence|]. rewrite E. reflexivity.
  - unfold visit_decimal in E0. apply String.eqb_neq in W. rewrite W, C in E0.
    rewrite H, (not_param mc axes) in E0 by (cbn; tauto). cbn [String.eqb Ascii.eqb Bool.eqb] in E0. unfold bind, plain_value in E0.
    destruct (d_value d) as [t|] eqn:DV, (d_dot d) as [dd|] eqn:DD; cbn [is_some negb andb] in E0;
      try (destruct (stod _) as [x|] eqn:ST; [|discriminate]; injection E0 as <-; left; exists x; split; [|reflexivity];
           split; [exact H|]; split; [|rewrite DV, DD; exact ST]; rewrite DV, DD; intuition discriminate).
    injection E0 as <-. right. split; [|reflexivity]. intros a (_ & [Q|Q] & _); congruence.
  - right. split; [apply NF; congruence|]. destruct (whole d) as [t|]; [|now subst]. destruct E as (n & _ & ->).
    rewrite (codes_other mc v_s) by reflexivity. destruct (n =? 6); reflexivity.
  - right. split; [apply NF; congruence|]. now apply (visit_g_other v_s) in E.
  - right. subst v'. split; [|reflexivity]. apply NF. intros Q. apply H. rewrite Q. cbn; tauto.
Qed.

(** Codes with a use of their own for coordinates. *)
Lemma found_plain b v : foldM (visit_attr mc) found_init b = Ok v -> plain_codes b -> v_other v = [].
Proof.
  intros E PL.
  pose (sel := fun v : found => match v_other v with [] => None | _ => Some tt end).
  pose (says := fun (d : decimal) (_ : unit) => d_word d = "G" /\ exists t n, d_value d = Some t /\ stoi t = Ok n /\
    ~ In n (motions ++ planes ++ feed_modes ++ speed_modes ++ returns ++ programmings)).
  assert (L : last_said says b (sel v)).
  { eapply last_found; [|reflexivity..|exact E]. clear b v E PL.
    intros d v v' W C E. apply (visit_cases mc) in E; [|exact W|exact C].
    assert (NG : d_word d <> "G" -> forall a, ~ says d a) by (intros H a [Q _]; contradiction).
    assert (K : v_other v' = v_other v -> sel v' = sel v) by (unfold sel; intros ->; reflexivity).
    cases E.
    - right. split; [|rewrite E; reflexivity]. apply NG. intros Q. rewrite Q, (not_param mc axes) in PA; [discriminate|cbn; tauto].
    - right. split; [apply NG; congruence|]. apply K. rewrite E. destruct (whole d); reflexivity.
    - right. split; [apply NG; congruence|]. rewrite E. reflexivity.
    - right. split; [apply NG; congruence|]. rewrite E. reflexivity.
    - right. split; [apply NG; congruence|]. apply K. destruct (whole d) as [t|]; [|now subst]. destruct E as (n & _ & ->).
      rewrite (codes_other mc v_other) by reflexivity. destruct (n =? 6); reflexivity.
    - destruct (d_value d) as [t|] eqn:DV.
      + destruct (stoi t) as [n|] eqn:N; [|unfold visit_g, bind in E; rewrite DV, N in E; discriminate].
        assert (Q : forall l, In n l -> incl l (motions ++ planes ++ feed_modes ++ speed_modes ++ returns ++ programmings) -> forall a, ~ says d a).
        { intros l I J a (_ & t' & n' & D' & N' & X). rewrite DV in D'. injection D' as <-. rewrite N in N'. injection N' as <-. apply X, J, I. }
        destruct (visit_group d v v' E t n DV N) as [[I ->]|[[I ->]|[[I ->]|[[I ->]|[[I ->]|[[I ->]|[I [s ->]]]]]]]];
          try (right; split; [eapply Q; [exact I|intros z Z; rewrite !in_app_iff; tauto]|apply K; reflexivity]).
        left. exists tt. split; [split; [assumption|]; exists t, n; auto|]. unfold sel. cbn [v_other with_other]. destruct (v_other v); reflexivity.
      + right. unfold visit_g in E. rewrite DV in E. inv E. split; [|reflexivity]. intros a (_ & t' & _ & D' & _). congruence.
    - right. subst v'. split; [|reflexivity]. apply NG. intros Q. apply H. rewrite Q. cbn; tauto. }
  unfold sel in L. destruct (v_other v) as [|s l] eqn:O; [reflexivity|]. exfalso.
  destruct L as (l1 & d & l2 & Q & (W & t & n & DV & N & X) & _). apply X. apply (PL d t n); try assumption. rewrite Q. apply in_elt.
Qed.

End Visit.
