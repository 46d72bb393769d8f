(** The path calculation leaves no exception open on harmless blocks. *)
From Verif Require Import Model.Base Model.Attr Model.Double Model.Macro Model.Grammar Model.MacroEval Model.Verifiers Model.Splitter Model.PathGeom Model.PathCalc.
From Verif Require Import Spec.Text Spec.DocumentSpec Spec.EscapeSpec.
From Verif Require Import Proofs.Tactics Proofs.TextProofs Proofs.StringFacts Proofs.GrammarTail Proofs.EscapeWords.
Local Open Scope string_scope.
Local Open Scope Z_scope.

(** ** What a block sets *)

Lemma has_digits d : number_read d -> address (d_word d) ->
  opt_str (d_value d) ++ (if is_some (d_dot d) then opt_str (d_value2 d) else "") <> "".
Proof.
  intros (_ & V & V2 & D & DV & _ & _ & H) A E. specialize (H A). destruct (d_value d) as [v|].
  - destruct V as [N _]. destruct v; [contradiction|discriminate].
  - specialize (H eq_refl). destruct (d_value2 d) as [v2|]; [|contradiction]. destruct D as [D|D]; [now apply DV in D|].
    rewrite D in E. cbn in E. destruct V2 as [N _]. contradiction.
Qed.

Lemma run_digits o : run_of is_digit o -> all_chars is_digit (opt_str o) = true.
Proof. destruct o as [x|]; [intros [_ A]; exact A|reflexivity]. Qed.

Lemma number_text d : number_read d ->
  (match d_dot d with Some c => String c (opt_str (d_value2 d)) | None => "" end) = (if is_some (d_dot d) then String "." (opt_str (d_value2 d)) else "").
Proof. intros (_ & _ & _ & D & _). destruct D as [-> | ->]; reflexivity. Qed.

Lemma value_text_reported d e : number_read d -> address (d_word d) -> stod (value_text d) = Exc e -> e = EOutOfRange.
Proof.
  intros N A. unfold value_text. rewrite (number_text d N). pose proof (has_digits d N A) as H. destruct N as (S & V & V2 & _).
  apply stod_reported; auto using run_digits.
Qed.

Lemma param_reported d e : number_read d -> address (d_word d) -> param_value d = Exc e -> e = EOutOfRange.
Proof.
  intros N A. unfold param_value, bind. destruct (stod _) eqn:E; [discriminate|]. intro H. inv H.
  pose proof (has_digits d N A) as H. destruct N as (S & V & V2 & D & DV & _).
  replace (opt_chr (d_sign d) ++ opt_str (d_value d) ++ opt_chr (d_dot d) ++ opt_str (d_value2 d))
     with (opt_chr (d_sign d) ++ opt_str (d_value d) ++ (if is_some (d_dot d) then String "." (opt_str (d_value2 d)) else "")) in E.
  - revert E. apply stod_reported; auto using run_digits.
  - destruct D as [D|D]; rewrite D; [rewrite (DV D); reflexivity|reflexivity].
Qed.

Lemma plain_reported d e : number_read d -> address (d_word d) -> plain_value d = Exc e -> e = EOutOfRange.
Proof.
  intros N A. unfold plain_value. rewrite (number_text d N). pose proof (has_digits d N A) as H. destruct N as (_ & V & V2 & _).
  change (opt_str (d_value d) ++ ?x) with (opt_chr None ++ opt_str (d_value d) ++ x). apply stod_reported; auto using run_digits.
Qed.

Lemma word_stoi d v e : number_read d -> d_value d = Some v -> stoi v = Exc e -> e = EOutOfRange.
Proof. intros (_ & V & _) E. rewrite E in V. destruct V. now apply stoi_reported. Qed.

Lemma word_stoi_ok d v n : number_read d -> d_value d = Some v -> stoi v = Ok n -> n = digits_val v.
Proof.
  intros (_ & V & _) E. rewrite E in V. destruct V as [V1 V2]. rewrite (stoi_denotes v (digits_val v)) by (repeat split; auto).
  destruct (_ <? _); congruence.
Qed.

Definition digits1 (s : string) : Prop := s <> "" /\ all_chars is_digit s = true.

Lemma substring_chars p s : forall n m, all_chars p s = true -> all_chars p (substring n m s) = true.
Proof.
  induction s as [|c s IH]; intros n m A; [destruct n, m; reflexivity|]. cbn in A. apply andb_true_iff in A as [A1 A2].
  destruct n; [destruct m; [reflexivity|]|]; cbn; [rewrite A1; now apply IH|now apply IH].
Qed.

Lemma tool_text mt v : digits1 v -> digits1 (tool_number_text mt v).
Proof.
  intros [N A]. unfold tool_number_text. destruct mt; [split; auto| |split; auto]. destruct (Nat.ltb_spec 2 (String.length v)); [|split; auto].
  unfold substring_half. split; [|now apply substring_chars]. destruct v as [|c [|c2 v]]; try (cbn in *; lia). cbn. discriminate.
Qed.

Lemma tool_stod t e : digits1 t -> stod t = Exc e -> e = EOutOfRange.
Proof.
  intros [N A] E. assert (E' : stod (opt_chr None ++ t ++ (if false then String "." "" else "")) = Exc e) by (cbn; now rewrite string_app_nil).
  revert E'. apply stod_reported; auto. cbn. now rewrite string_app_nil.
Qed.

Section Found.
Variable mc : machine.
Variable t : string.
Hypothesis axes : Forall address (mc_axes mc).

Record found_ok (v : found) : Prop := {
  fo_values : forall w, assoc w (v_values v) <> None -> contains w t = true;
  fo_g : forall n, v_g v = Some n -> g_code t n;
  fo_home : In "28" (v_other v) -> g_code t 28;
  fo_tools : Forall digits1 (v_tools v)
}.

Lemma found_start : found_ok found_init.
Proof. constructor; cbn; try easy. Qed.

Lemma params_addresses w : is_param mc w = true -> address w.
Proof.
  unfold is_param. intro H. apply orb_true_iff in H as [H|H]; apply mem_str_In in H.
  - cbn in H. repeat (destruct H as [<-|H]; [eexists; split; [reflexivity|vm_compute; split; discriminate]|]). destruct H.
  - rewrite Forall_forall in axes. auto.
Qed.

Lemma assoc_mset {A} w w' (x : A) m : assoc w (mset w' x m) <> None -> w = w' \/ assoc w m <> None.
Proof.
  induction m as [|[k y] m IH]; cbn.
  - destruct (String.eqb_spec w w'); auto.
  - destruct (String.eqb_spec w' k) as [->|N].
    + cbn. destruct (String.eqb_spec w k); auto.
    + destruct (String.ltb w' k); cbn.
      * destruct (String.eqb_spec w w'); auto.
      * destruct (String.eqb_spec w k) as [->|N2]; [right; discriminate|auto].
Qed.

Lemma letter (c : ascii) : (65 <=? code c) && (code c <=? 90) = true -> address (String c "").
Proof. intro H. exists c. split; [reflexivity|]. lia. Qed.

Lemma service_ok w x v : found_ok v -> found_ok (service_codes mc w x v).
Proof.
  intros [A B C D]. unfold service_codes. destruct (String.eqb w (mc_pallet_code mc) && _);
  destruct (negb (mc_auto_measure mc) && _); constructor; assumption.
Qed.

Lemma visit_ok v a : found_ok v -> word_read t a ->
  match visit_attr mc v a with Ok v' => found_ok v' | Exc e => e = EOutOfRange end.
Proof.
  intros F W. destruct a as [d|w x|w x]; cbn [visit_attr]; [|now apply service_ok|exact F]. destruct W as (N & C & G).
  pose proof F as [F1 F2 F3 F4]. unfold visit_decimal.
  destruct (String.eqb _ "/"); [constructor; assumption|]. destruct (v_comment v); [exact F|].
  destruct (is_param mc (d_word d)) eqn:P.
  { destruct (_ && _); [exact F|]. apply params_addresses in P. unfold bind. destruct (param_value d) eqn:E; [|eapply param_reported; eauto].
    constructor; cbn [v_values v_g v_other v_tools with_values]; auto. intros w H. apply assoc_mset in H as [->|H]; auto. }
  destruct (String.eqb_spec (d_word d) "T") as [ET|NT].
  { destruct (d_value d) as [x|] eqn:E; [|exact F]. destruct (_ || _); [exact F|]. constructor; cbn; auto. apply Forall_app. split; [exact F4|].
    constructor; [|constructor]. apply tool_text. destruct N as (_ & V & _). rewrite E in V. exact V. }
  destruct (String.eqb_spec (d_word d) "F") as [EF|NF].
  { destruct (_ && _); [exact F|]. unfold bind. destruct (plain_value d) eqn:E; [constructor; assumption|]. eapply plain_reported; eauto. rewrite EF. now apply letter. }
  destruct (String.eqb_spec (d_word d) "S") as [ES|NS].
  { destruct (_ && _); [exact F|]. unfold bind. destruct (plain_value d) eqn:E; [constructor; assumption|]. eapply plain_reported; eauto. rewrite ES. now apply letter. }
  destruct (String.eqb_spec (d_word d) "M") as [EM|NM].
  { destruct (d_value d) as [x|] eqn:E; [|exact F]. destruct (_ || _); [exact F|]. unfold bind. destruct (stoi x) eqn:E2; [|eapply word_stoi; eauto].
    apply service_ok. destruct (_ =? 6); [constructor; assumption|exact F]. }
  destruct (String.eqb_spec (d_word d) "G") as [EG|NG]; [|exact F].
  unfold visit_g. destruct (d_value d) as [x|] eqn:E; [|exact F]. unfold bind. destruct (stoi x) as [n|e] eqn:E2; [|eapply word_stoi; eauto].
  pose proof (word_stoi_ok d x n N E E2) as En. specialize (G EG x eq_refl). rewrite <- En in G.
  destruct (existsb _ _); [constructor; assumption|]. destruct (_ || _).
  { constructor; cbn; auto. intros n0 H. injection H as <-. exact G. }
  destruct (existsb _ _); [constructor; assumption|]. destruct (existsb _ _); [constructor; assumption|].
  destruct (existsb _ _); [constructor; assumption|]. destruct (existsb _ _); [constructor; assumption|].
  constructor; cbn; auto. rewrite in_app_iff. intros [H|[H|[]]]; [auto|].
  assert (x = "28") as ->.
  { destruct (d_dot d) as [c|] eqn:ED; [|rewrite string_app_nil in H; exact H]. destruct (d_value2 d) as [y|]; [|rewrite string_app_nil in H; exact H].
    destruct N as (_ & _ & _ & D & _). rewrite ED in D. destruct D as [D|D]; [discriminate|]. injection D as ->.
    exfalso. destruct x as [|a [|b [|? x]]]; cbn in H; try discriminate H; injection H; intros; subst; discriminate. }
  subst n. exact G.
Qed.

Lemma found_read b : forall v, found_ok v -> Forall (word_read t) b ->
  match foldM (visit_attr mc) v b with Ok v' => found_ok v' | Exc e => e = EOutOfRange end.
Proof.
  induction b as [|a b IH]; intros v F W; cbn [foldM]; [exact F|]. apply Forall_cons_iff in W as [W1 W2]. pose proof (visit_ok v a F W1) as K.
  unfold bind. destruct (visit_attr mc v a); [now apply IH|exact K].
Qed.
End Found.

(** ** The motion *)

Section Motion.
Variables atan log cabs : dbl -> dbl.
Variable stale : Z.
Variable mc : machine.
Variable v : found.
Variable ok_g : Z -> Prop.
Hypothesis ok_zero : ok_g 0.
Hypothesis ok_cancel : ok_g 80.
Hypothesis ok_given : forall n, v_g v = Some n -> ok_g n.
Hypothesis pecking : forall n, ok_g n -> ~ In n peck_cycles.
Hypothesis repeats : forall n, ok_g n -> In n other_cycles -> assoc "K" (v_values v) = None.
Hypothesis three : (ok_g 2 \/ ok_g 3) ->
  assoc "X" (v_values v) <> None -> assoc "Y" (v_values v) <> None -> assoc "Z" (v_values v) <> None ->
  assoc "R" (v_values v) = None /\
  (assoc "I" (v_values v) = None \/ assoc "J" (v_values v) = None \/ assoc "K" (v_values v) = None).
Hypothesis home : In "28" (v_other v) -> forall w, In w ["X"; "Y"; "Z"] -> assoc w (mc_exchange_point mc) <> None.
Hypothesis tools : Forall digits1 (v_tools v).

Definition fit (c : calc) : Prop := c_helix c = HNone /\ ok_g (c_g c).

Definition keeps {A} (m : M A) (Q : A -> Prop) : Prop :=
  forall c c' r, fit c -> m c = (c', r) -> fit c' /\ match r with Go a => Q a | Return => True | Throw e => reported e end.

Lemma keeps_ret {A} (a : A) (Q : A -> Prop) : Q a -> keeps (ret a) Q. Proof. intros H c c' r F E; inv E; auto. Qed.
Lemma keeps_stop {A} (Q : A -> Prop) : keeps stop Q. Proof. intros c c' r F E; inv E; auto. Qed.
Lemma keeps_throw {A} m (Q : A -> Prop) : keeps (throw m) Q. Proof. intros c c' r F E; inv E; split; [exact F|exact I]. Qed.
Lemma keeps_get {A} (g : calc -> A) (Q : A -> Prop) : (forall c, fit c -> Q (g c)) -> keeps (get g) Q. Proof. intros H c c' r F E; inv E; auto. Qed.
Lemma keeps_upd g (Q : unit -> Prop) : (forall c, fit c -> fit (g c)) -> Q tt -> keeps (upd g) Q. Proof. intros H1 H2 c c' r F E; inv E; auto. Qed.
Lemma keeps_lift {A} (x : res A) (Q : A -> Prop) : (forall e, x = Exc e -> reported e) -> (forall a, x = Ok a -> Q a) -> keeps (lift x) Q.
Proof. intros H1 H2 c c' r F E. unfold lift in E. destruct x; inv E; auto. Qed.
Lemma keeps_need {A} (o : option A) m (Q : A -> Prop) : (forall a, o = Some a -> Q a) -> keeps (need o m) Q.
Proof. destruct o; intro H; [apply keeps_ret; auto|apply keeps_throw]. Qed.
Lemma keeps_deref {A} (o : option A) (Q : A -> Prop) : o <> None -> (forall a, o = Some a -> Q a) -> keeps (deref o) Q.
Proof. destruct o; intros N H; [apply keeps_ret; auto|contradiction]. Qed.
Lemma keeps_bind {A B} (m : M A) (k : A -> M B) P Q : keeps m P -> (forall a, P a -> keeps (k a) Q) -> keeps (mbind m k) Q.
Proof.
  intros Hm Hk c c' r F. unfold mbind. specialize (Hm c). destruct (m c) as [c1 [a| |e]] eqn:E; intro H; destruct (Hm _ _ F eq_refl) as [F1 R1].
  - eapply Hk; eauto.
  - inv H. auto.
  - inv H. auto.
Qed.
Lemma keeps_when b m (Q : unit -> Prop) : keeps m Q -> Q tt -> keeps (when b m) Q.
Proof. intros H1 H2; destruct b; [exact H1|now apply keeps_ret]. Qed.

Definition any {A} (a : A) : Prop := True.

Lemma keeps_seq {A B} (m : M A) (k : M B) Q : keeps m any -> keeps k Q -> keeps (mbind m (fun _ => k)) Q.
Proof. intros H1 H2. eapply keeps_bind; [exact H1|auto]. Qed.
Lemma keeps_path g (Q : unit -> Prop) : Q tt -> keeps (upd_path g) Q. Proof. intro. apply keeps_upd; auto. Qed.
Lemma keeps_time g (Q : unit -> Prop) : Q tt -> keeps (upd_time g) Q. Proof. intro. apply keeps_upd; auto. Qed.

Lemma fit_copy g prog other vals c : fit c -> fit (copy_on_return g prog other vals c).
Proof. unfold copy_on_return. destruct (fold_left _ _ _). intro H; exact H. Qed.

Ltac keeps :=
  repeat match goal with
    | |- any _ => exact I
    | |- keeps (ret _) any => apply keeps_ret; exact I
    | |- keeps stop _ => apply keeps_stop
    | |- keeps (throw _) _ => apply keeps_throw
    | |- keeps (get _) any => apply keeps_get; intros; exact I
    | |- keeps (need _ _) any => apply keeps_need; intros; exact I
    | |- keeps (upd_path _) any => apply keeps_path; exact I
    | |- keeps (upd_time _) any => apply keeps_time; exact I
    | |- keeps (when _ _) any => apply keeps_when; [|exact I]
    | |- keeps (mbind (get c_helix) _) _ => eapply (keeps_bind _ _ (fun h => h = HNone)); [apply keeps_get; intros ? [? _]; assumption|intros ? ->]
    | |- keeps (mbind _ (fun _ => ?k)) _ => apply keeps_seq
    | |- keeps (mbind _ _) _ => eapply (keeps_bind _ _ any); [|intros]
    | |- keeps (match ?x with _ => _ end) _ => destruct x eqn:?
    end.

Lemma straight_keeps m : keeps (straight mc v m) any.
Proof.
  unfold straight, no_cycle, set_motion.
  assert (T : forall w x, In w ["X"; "Y"; "Z"] -> keeps (target mc v w x) any).
  { intros w x I. unfold target. keeps. exfalso. unfold to_base in *. apply (home) with (w := w) in I; [contradiction|]. now apply mem_str_In. }
  keeps; try (apply T; cbn; tauto).
Qed.

Lemma arc_keeps m a : keeps (arc atan cabs m a) any.
Proof.
  unfold arc. destruct (plane_params (m_plane m)) as [[p1 p2] p3]. keeps.
  all: apply keeps_deref; [|intros; exact I]; destruct (a_r a); [discriminate|]; cbn in *; congruence.
Qed.

Lemma circular_keeps m : ok_g (m_g m) -> m_g m = 2 \/ m_g m = 3 -> keeps (circular atan log cabs mc v m) any.
Proof.
  intros O G. assert (O2 : ok_g 2 \/ ok_g 3) by (destruct G as [E|E]; rewrite E in O; auto).
  unfold circular, no_cycle. keeps; try apply arc_keeps.
  1: apply keeps_deref; [|intros; exact I]; intro N; rewrite N in *; discriminate.
  all: exfalso; cbn [a_x a_y a_z a_i a_j a_k a_r] in *.
  all: match goal with H1 : plane_axes _ = _, H2 : plane_params _ = _ |- _ =>
    unfold plane_axes, plane_params in H1, H2; destruct (m_plane m =? 17); [|destruct (m_plane m =? 18)]; inv H1; inv H2 end.
  all: destruct (three O2) as (T1 & T2); try congruence; rewrite T1 in *;
    destruct (assoc "I" (v_values v)), (assoc "J" (v_values v)), (assoc "K" (v_values v)); cbn in *; try discriminate; destruct T2 as [T2|[T2|T2]]; discriminate.
Qed.

Lemma holes_keeps n x y : keeps (holes n x y) any.
Proof. induction n as [|n IH]; cbn [holes]; keeps. exact IH. Qed.

Lemma drilling_keeps m : ok_g (m_g m) -> is_drill_cycle (m_g m) || is_drill_cycle_qparam (m_g m) = true -> keeps (drilling mc v m) any.
Proof.
  intros O G. assert (NQ : is_drill_cycle_qparam (m_g m) = false).
  { apply not_true_is_false. intro Q. apply (pecking _ O). unfold is_drill_cycle_qparam in Q. apply existsb_exists in Q as (x & I & E). apply Z.eqb_eq in E. now subst x. }
  rewrite NQ, orb_false_r in G. assert (K : assoc "K" (v_values v) = None).
  { apply (repeats _ O). unfold is_drill_cycle in G. apply existsb_exists in G as (x & I & E). apply Z.eqb_eq in E. now subst x. }
  unfold drilling, cycle_distance, set_both. rewrite K, NQ. cbn [is_some]. keeps; apply holes_keeps.
Qed.

Lemma motion_keeps m : ok_g (m_g m) -> keeps (motion atan log cabs mc v m) ok_g.
Proof.
  intros O. unfold motion, cancel, no_cycle.
  destruct ((m_g m =? 0) || (m_g m =? 1)); [apply keeps_seq; [apply straight_keeps|now apply keeps_ret]|].
  destruct ((m_g m =? 2) || (m_g m =? 3)) eqn:E2. { apply keeps_seq; [apply circular_keeps; [exact O|lia]|now apply keeps_ret]. }
  destruct (m_g m =? 80). { keeps. apply keeps_ret. now destruct (cd_cancel_starts_rapid _). }
  destruct (is_drill_cycle (m_g m) || is_drill_cycle_qparam (m_g m)) eqn:E3; [|apply keeps_stop]. apply keeps_seq; [now apply drilling_keeps|now apply keeps_ret].
Qed.

Lemma evaluate_keeps inch : keeps (evaluate_found atan log cabs stale mc inch v) any.
Proof.
  assert (FT : forall t, found_tool v = Some t -> digits1 t).
  { intros t. unfold found_tool. rewrite Forall_forall in tools. intro H. apply tools. destruct (v_m6 v).
    - destruct (v_tools v); [discriminate|]. injection H as ->. now left.
    - apply in_rev. destruct (rev (v_tools v)); [discriminate|]. injection H as ->. now left. }
  unfold evaluate_found. apply keeps_seq; [unfold service_times, exchange_times, add_time; keeps|]. apply keeps_seq.
  { destruct (found_tool v) as [t|] eqn:E; [|apply keeps_ret; exact I]. unfold tool_change, exchange_times, add_time. keeps.
    all: try (apply keeps_upd; [|exact I]; intros c F; try (now apply fit_copy); try exact F; destruct (String.eqb _ _); exact F).
    apply keeps_lift; [|intros; exact I]. intros e H. rewrite (tool_stod t e (FT t eq_refl) H). exact I. }
  apply keeps_seq; [unfold dwell; keeps|]. apply keeps_seq.
  { unfold start_modes. keeps. all: apply keeps_upd; [|exact I]; intros c [F1 F2]; try (now apply fit_copy); split; auto; exact F2. }
  eapply (keeps_bind _ _ (fun m => ok_g (m_g m))).
  { apply keeps_get. intros c [_ F]. cbn. destruct (v_g v) as [n|] eqn:E; [now apply ok_given|exact F]. }
  intros m O. eapply keeps_bind; [now apply motion_keeps|]. intros g Og.
  apply keeps_seq; [apply keeps_upd; [|exact I]; intros c [F _]; split; [exact F|exact Og]|].
  apply keeps_seq; [apply keeps_upd; [|exact I]; intros c F; exact F|].
  apply keeps_seq; [unfold check_feeds; keeps|].
  apply keeps_upd; [|exact I]. intros c F. destruct (to_exchange mc v); [now apply fit_copy|]. destruct (to_base v); now apply fit_copy.
Qed.
End Motion.
