(** The path calculation after a rejected line. *)
From Verif Require Import Model.Base Model.Attr Model.Double Model.Macro Model.Grammar Model.MacroAssign Model.MacroEval Model.Verifiers Model.PathGeom Model.PathCalc Model.Parser.
From Verif Require Import Spec.Text Spec.GrammarSpec Spec.PathSpec Spec.ParserSpec.
From Verif Require Import Proofs.Tactics Proofs.ParserProofs Proofs.ParserUnits Proofs.PathFrame Proofs.PathTotals Proofs.PathTime Proofs.PathRange.

(** ** What the calculation throws *)

Definition path_exn (e : exn) : Prop :=
  match e with EPathCalc _ | EOutOfRange | EInvalidArgument | EUB _ => True | _ => False end.

Definition throws {A} (m : M A) : Prop := forall c c' e, m c = (c', Throw e) -> path_exn e.

Lemma throws_ret {A} (a : A) : throws (ret a). Proof. intros c c' e H; discriminate. Qed.
Lemma throws_stop {A} : throws (@stop A). Proof. intros c c' e H; discriminate. Qed.
Lemma throws_throw {A} m : throws (@throw A m). Proof. intros c c' e H; inv H; exact I. Qed.
Lemma throws_undefined {A} w : throws (@undefined A w). Proof. intros c c' e H; inv H; exact I. Qed.
Lemma throws_get {A} (g : calc -> A) : throws (get g). Proof. intros c c' e H; discriminate. Qed.
Lemma throws_lift {A} (r : res A) : (forall e, r = Exc e -> path_exn e) -> throws (lift r).
Proof. intros K c c' e H. unfold lift in H. destruct r; inv H. auto. Qed.
Lemma throws_need {A} (o : option A) m : throws (need o m). Proof. destruct o; [apply throws_ret|apply throws_throw]. Qed.
Lemma throws_deref {A} (o : option A) : throws (deref o). Proof. destruct o; [apply throws_ret|apply throws_undefined]. Qed.
Lemma throws_bind {A B} (m : M A) (k : A -> M B) : throws m -> (forall a, throws (k a)) -> throws (mbind m k).
Proof.
  intros Hm Hk c c' e. unfold mbind. specialize (Hm c). destruct (m c) as [c1 [a| |e1]]; intro H.
  - eapply Hk; exact H.
  - discriminate.
  - inv H. eapply Hm; reflexivity.
Qed.
Lemma throws_when b m : throws m -> throws (when b m).
Proof. intros H; destruct b; [exact H|apply throws_ret]. Qed.
Lemma throws_upd g : throws (upd g). Proof. intros c c' e H; discriminate. Qed.
Lemma throws_path g : throws (upd_path g). Proof. intros c c' e H; discriminate. Qed.
Lemma throws_time g : throws (upd_time g). Proof. intros c c' e H; discriminate. Qed.

Ltac throws :=
  repeat match goal with
    | |- throws (ret _) => apply throws_ret
    | |- throws stop => apply throws_stop
    | |- throws (throw _) => apply throws_throw
    | |- throws (undefined _) => apply throws_undefined
    | |- throws (get _) => apply throws_get
    | |- throws (lift _) => apply throws_lift
    | |- throws (need _ _) => apply throws_need
    | |- throws (deref _) => apply throws_deref
    | |- throws (upd _) => apply throws_upd
    | |- throws (upd_path _) => apply throws_path
    | |- throws (upd_time _) => apply throws_time
    | |- throws (when _ _) => apply throws_when
    | |- throws (mbind _ _) => apply throws_bind; [|intros]
    | |- throws (match ?x with _ => _ end) => destruct x
    end.

Section Calc.
Variables atan log cabs : dbl -> dbl.
Variable stale : Z.
Variable mc : machine.

Lemma holes_throws n x y : throws (holes n x y).
Proof. induction n as [|n IH]; cbn [holes]; throws. apply IH. Qed.

Lemma int_throws k e : d_to_int k = Exc e -> path_exn e.
Proof. unfold d_to_int. destruct (d_trunc k) as [z|]; [destruct (_ && _)|]; intro H; inv H; exact I. Qed.

Lemma stod_throws s e : stod s = Exc e -> path_exn e.
Proof. intro H. apply stod_fails in H as [-> | ->]; exact I. Qed.

Lemma peck_throws w q a b ret e : peck w q a b ret = Exc e -> path_exn e.
Proof. unfold peck. destruct (d_to_int _) eqn:D; cbn; intro H; [discriminate|]. inv H. eapply int_throws; eauto. Qed.

Lemma motion_throws v m : throws (motion atan log cabs mc v m).
Proof.
  unfold motion, cancel, no_cycle. throws.
  - unfold straight, no_cycle, target, set_motion. throws.
  - unfold circular, no_cycle, helix_block, helix_incremental, helix_absolute, by_centre_or_radius, arc.
    destruct (plane_params (m_plane m)) as [[p1 p2] p3]. destruct (plane_axes (m_plane m)) as [[a1 a2] a3]. throws.
  - unfold drilling, set_both, cycle_distance. destruct (plane_axes (m_plane m)) as [[a1 a2] a3]. throws; try apply holes_throws; try apply int_throws.
    intros e H. unfold drill_q_incr, drill_q in H.
    repeat match type of H with (if ?b then _ else _) = _ => destruct b end; try discriminate; eapply peck_throws; eauto.
Qed.

Lemma evaluate_throws inch v : throws (evaluate_found atan log cabs stale mc inch v).
Proof.
  unfold evaluate_found, service_times, tool_change, exchange_times, add_time, dwell, start_modes, check_feeds. throws; try apply motion_throws.
  all: try (intros e; apply stod_throws).
Qed.

(** ** A block that fails *)

Lemma failing_block inch line b c mv c' mv' e : evaluate atan log cabs stale mc inch line b c mv = (c', mv', Some e) ->
  path_exn e /\ stands c' = stands c.
Proof.
  unfold evaluate. destruct b as [|a b]; [discriminate|]. destruct (foldM (visit_attr mc) found_init (a :: b)) as [v|e1] eqn:V.
  2:{ intro H. inv H. split; [|reflexivity]. apply visit_fails in V as [V|[V|[l V]]]; inv V; exact I. }
  destruct (evaluate_found atan log cabs stale mc inch v (no_motion c)) as [c1 r] eqn:E. intro H. injection H as <- _ R.
  destruct r as [|  |e1]; try discriminate R. cbn in R. injection R as ->. split; [eapply evaluate_throws; exact E|].
  change (stands c) with (stands (no_motion c)). generalize dependent (no_motion c). intros c0 E.
  apply evaluate_cases in E as [[E _]|[c2 [EO E]]].
  { apply opening_stands in E as [E|[R _]]; [exact E|discriminate]. }
  apply opening_stands in EO as [K|[R _]]; [|discriminate].
  assert (B : forall c3 r2, motion atan log cabs mc v (current_modes mc v c2) c2 = (c3, r2) -> stands c3 = stands c0).
  { intros c3 r2 E2. pose proof (motion_books atan log cabs mc v (current_modes mc v c2) c2) as B. rewrite E2 in B. cbn [fst] in B.
    rewrite <- K. apply books_stands, B. }
  destruct E as [[r1 [E _]]|[c3 [g [E EF]]]]; [exact (B _ _ E)|]. specialize (B _ _ E).
  apply finish_spec in EF as [c4 [E4 [[-> _]|[R _]]]]; [|discriminate]. rewrite <- B. subst c4. reflexivity.
Qed.

End Calc.

(** ** A rejected line *)

Lemma phrase_nothing wm dec asg t s s' v : phrase_parse wm dec asg t s = (s', v, PFalse) -> v = [].
Proof.
  unfold phrase_parse. generalize (S (String.length t)) as f. intro f. generalize (@nil attr) at 1 as v0. intro v0. revert t s s' v v0.
  induction f as [|f IH]; intros t s s' v v0 H; cbn [line_attributes] in H; [discriminate|].
  destruct (line_attribute wm dec asg t s) as [x R]. destruct R as [|a r| |]; try discriminate.
  - destruct v0; [inv H; reflexivity|]. destruct (skip t); discriminate.
  - eapply IH; exact H.
Qed.

Definition excused (ex : exn -> Prop) (a : answer) : Prop :=
  match a with Answer false (MExn e) => ex e | Answer false _ => False | _ => True end.

Section Line.
Variable lit : string -> dbl.
Variable libm : string -> dbl -> dbl.
Variables atan log cabs : dbl -> dbl.
Variable stale : Z.
Variable cf : config.
Let PA := parse lit libm atan log cabs stale cf.

Variable rel : calc -> calc -> Prop.
Variable ex : exn -> Prop.
Hypothesis rel_refl : forall c, rel c c.
Hypothesis rel_no_motion : forall c, rel c (no_motion c).
Hypothesis ex_range : ex EOutOfRange.
Hypothesis rel_failing : forall mc inch line b c mv c' mv' e, evaluate atan log cabs stale mc inch line b c mv = (c', mv', Some e) ->
  caught e = Answer false (MExn e) -> ex e \/ rel c c'.

Lemma same_calc p p' : pr_calc p' = pr_calc p -> calculation rel p p'.
Proof. intro E. unfold calculation. rewrite E. destruct (pr_calc p); auto. Qed.

Lemma calc_from p q p' : pr_calc q = pr_calc p -> calculation rel q p' -> calculation rel p p'.
Proof. unfold calculation. intros ->. auto. Qed.

Lemma select_fails b p p' a : select_grammar b p = (p', Some a) -> excused ex a.
Proof.
  revert p. induction b as [|x b IH]; intro p; cbn [select_grammar]; [discriminate|]. destruct (selector_step (pr_metric p) x) as [m|e] eqn:E; [apply IH|].
  intro H. inv H. destruct x as [d| |]; cbn in E; try discriminate. destruct (negb _); [discriminate|]. destruct (d_value d) as [v|]; [|discriminate].
  destruct (stoi v) as [n|e1] eqn:N; [discriminate|]. cbn in E. injection E as <-. apply stoi_fails in N as [-> | ->]; [exact I|exact ex_range].
Qed.

Lemma later_calc st line b p p' o (ret : bool) : ps_zero_point st = false -> later_steps atan log cabs stale cf st line b p = (p', o) ->
  (ret = false -> b = []) -> excused ex (match o with None => Answer ret MNone | Some a => a end) \/ calculation rel p p'.
Proof.
  intros Z H B. rewrite later_parts in H. unfold andthen in H at 1. destruct (verifying cf st line b p) as [q o1] eqn:V.
  pose proof (verifying_leaves cf pr_calc st line b (fun _ _ => eq_refl) (fun _ _ => eq_refl) _ _ _ V) as K1.
  destruct o1 as [a|]; [injection H as <- <-; right; now apply same_calc|].
  unfold andthen in H. destruct (on (ps_calculate_path st) (path_step atan log cabs stale (ps_zero_point st) line b) q) as [q2 o2] eqn:PS.
  assert (K2 : excused ex (match o2 with None => Answer ret MNone | Some a => a end) \/ calculation rel q q2).
  { destruct (ps_calculate_path st); cbn [on] in PS; [|injection PS as <- <-; right; now apply same_calc].
    rewrite Z in PS. unfold path_step in PS. destruct (pr_calc q) as [c|] eqn:C.
    2:{ injection PS as <- <-. right. now apply same_calc. }
    destruct (evaluate atan log cabs stale (cl_machine c) (negb (pr_metric q)) line b (cl_calc c) (pr_macros q)) as [[cl mv] r] eqn:E. destruct r as [e|].
    - injection PS as <- <-. pose proof (failing_block _ _ _ _ _ _ _ _ _ _ _ _ _ E) as [PE _].
      destruct e; cbn in PE; try contradiction; try (left; exact I);
      (destruct (rel_failing _ _ _ _ _ _ _ _ _ E eq_refl) as [X|X]; [left; exact X|right; unfold calculation; rewrite C; exact X]).
    - injection PS as <- <-. destruct ret; [left; exact I|]. right. unfold calculation. rewrite C. cbn. rewrite (B eq_refl) in E. cbn in E. injection E as <- _. apply rel_no_motion. }
  destruct o2 as [a|]; [injection H as <- <-; destruct K2; [left; assumption|right; eapply calc_from; eauto]|].
  pose proof (leaves_select pr_calc b (fun _ _ => eq_refl) _ _ _ H) as K3. destruct o as [a|]; [left; eapply select_fails; exact H|].
  destruct K2 as [K2|K2]; [left; exact K2|right]. eapply calc_from; [exact K1|]. unfold calculation in *. rewrite K3. exact K2.
Qed.

Lemma rejected_calc st line data p p' v a : ps_zero_point st = false -> PA st line data p = (p', v, a) ->
  excused ex a \/ calculation rel p p'.
Proof.
  intros Z H. unfold PA, parse in H. destruct (pr_grammar p) as [lg|] eqn:G; [|injection H as _ _ <-; left; exact I].
  destruct (grammar_parse lg data (pr_gs p)) as [[gs v0] r] eqn:E.
  assert (K : forall ret, (ret = false -> v0 = []) -> (let '(p'0, a) := steps lit libm atan log cabs stale cf st line v0 ret (with_gs gs p) in (p'0, v0, a)) = (p', v, a) ->
     excused ex a \/ calculation rel p p').
  { intros ret B. unfold steps. destruct (unique_code (active_map cf (with_gs gs p)) v0) as [[]|e].
    2:{ intro X. injection X as <- _ _. right. now apply same_calc. }
    destruct (ps_evaluate_macro st); cbn [negb]; [|intro X; injection X as <- _ _; right; now apply same_calc].
    destruct (macro_step lit libm line v0 (with_gs gs p)) as [q o] eqn:MS.
    assert (Kq : pr_calc q = pr_calc p /\ pr_grammar q = pr_grammar p).
    { unfold macro_step in MS. destruct (macro_evaluate lit libm (pr_macros (with_gs gs p)) line v0) as [[mv [e|]]|e]; injection MS as <- _; auto. }
    destruct Kq as [Kq Gq]. destruct o as [x|]; [intro X; injection X as <- _ _; right; now apply same_calc|].
    unfold macro_steps. destruct (evaluated_code (cf_ops cf) (pr_macros q) line v0) as [code|e]; [|intro X; injection X as <- _ _; right; now apply same_calc].
    destruct code as [|c0 code0].
    { destruct (later_steps atan log cabs stale cf st line v0 q) as [q1 o] eqn:LS.
      destruct (later_calc _ _ _ _ _ _ ret Z LS B) as [L|L]; destruct o; intro X; injection X as <- _ <-; auto; right; eapply calc_from; eauto. }
    rewrite Gq, G. destruct (phrase_parse (lg_map lg) (lg_decimal lg) (lg_assignable lg) (String c0 code0) (pr_gs q)) as [[gs2 v2] r2] eqn:PP.
    assert (K2 : forall ret2, (ret2 = false -> v2 = []) ->
      (let '(p'0, a) := match andthen (select_grammar v2) (later_steps atan log cabs stale cf st line v2) (with_gs gs2 q) with (p'1, None) => (p'1, Answer ret2 MNone) | (p'1, Some a) => (p'1, a) end in (p'0, v0, a)) = (p', v, a) ->
       excused ex a \/ calculation rel p p').
    { intros ret2 B2. unfold andthen. destruct (select_grammar v2 (with_gs gs2 q)) as [q1 o1] eqn:S1.
      pose proof (leaves_select pr_calc v2 (fun _ _ => eq_refl) _ _ _ S1) as K3. destruct o1 as [x|].
      { intro X. injection X as _ _ <-. left. eapply select_fails; exact S1. }
      destruct (later_steps atan log cabs stale cf st line v2 q1) as [q2 o] eqn:LS.
      destruct (later_calc _ _ _ _ _ _ ret2 Z LS B2) as [L|L]; destruct o; intro X; injection X as <- _ <-; auto; right; (eapply calc_from; [|exact L]); cbn in K3; congruence. }
    destruct r2 as [| |rest|e].
    - apply (K2 true). discriminate.
    - apply (K2 false). intros _. eapply phrase_nothing; exact PP.
    - intro X. injection X as <- _ _. right. now apply same_calc.
    - intro X. injection X as <- _ _. right. now apply same_calc. }
  destruct r as [| |rest|e].
  - apply (K true); [discriminate|exact H].
  - apply (K false); [|exact H]. intros _. eapply phrase_nothing; exact E.
  - injection H as <- _ _. right. now apply same_calc.
  - injection H as <- _ _. right. now apply same_calc.
Qed.

End Line.

Theorem rejected_positions lit libm atan log cabs stale cf st line data p p' v m : ps_zero_point st = false ->
  parse lit libm atan log cabs stale cf st line data p = (p', v, Answer false m) -> m <> MExn EOutOfRange ->
  calculation same_positions p p'.
Proof.
  intros Z H N. assert (X := rejected_calc lit libm atan log cabs stale cf same_positions (fun e => e = EOutOfRange)).
  destruct X with (st := st) (line := line) (data := data) (p := p) (p' := p') (v := v) (a := Answer false m) as [Y|Y]; auto.
  - intros c w. auto.
  - intros c w. auto.
  - intros mc inch l b c mv c' mv' e E _. right. apply failing_block in E as [_ E]. unfold stands in E. injection E as E1 E2. intro w. unfold position, extremes. now rewrite E1, E2.
  - cbn in Y. destruct m; try contradiction. now subst e.
Qed.

Theorem rejected_sums lit libm atan log cabs stale cf st line data p p' v m : ps_zero_point st = false ->
  parse lit libm atan log cabs stale cf st line data p = (p', v, Answer false m) -> m <> MExn EOutOfRange -> (forall l, m <> MExn (EPathCalc l)) ->
  calculation same_sums p p'.
Proof.
  intros Z H N1 N2. assert (X := rejected_calc lit libm atan log cabs stale cf same_sums (fun e => e = EOutOfRange \/ exists l, e = EPathCalc l)).
  destruct X with (st := st) (line := line) (data := data) (p := p) (p' := p') (v := v) (a := Answer false m) as [Y|Y]; auto.
  - intros c. repeat split.
  - intros c. repeat split.
  - intros mc inch l b c mv c' mv' e E C. left. apply failing_block in E as [E _]. destruct e; cbn in E, C; try contradiction; try discriminate; eauto.
  - cbn in Y. destruct m as [| | |e]; try contradiction. destruct Y as [->|[l ->]]; [now contradiction N1|now contradiction (N2 l)].
Qed.
