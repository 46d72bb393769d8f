(** The messages a parser makes have the values their texts need. *)
From Verif Require Import Model.Base Model.Attr Model.Double Model.Enums Model.Macro Model.Calc Model.Grammar Model.MacroAssign Model.MacroEval Model.Verifiers Model.PathGeom Model.PathCalc.
From Verif Require Import Model.Parser Model.Messages.
From Verif Require Import Spec.PathSpec Spec.ParserSpec Spec.DocumentSpec.
From Verif Require Import Proofs.Tactics Proofs.PathTotals Proofs.PathVisit Proofs.PathTime Proofs.ParserPath Proofs.DocumentProofs.
Local Open Scope string_scope.
Local Open Scope Z_scope.

(** ** Exceptions *)

(** A failing function of numbers. *)
Definition plain_exn (e : exn) : Prop := match e with EInvalidArgument | EOutOfRange | EUB _ | EEval _ => True | _ => False end.

Lemma plain_shown e : plain_exn e -> shown_exn e.
Proof. destruct e; cbn; tauto. Qed.

Lemma stoi_plain s e : stoi s = Exc e -> plain_exn e.
Proof. intros H. apply stoi_fails in H as [-> | ->]; exact I. Qed.

Lemma stod_plain s e : stod s = Exc e -> plain_exn e.
Proof. intros H. apply stod_fails in H as [-> | ->]; exact I. Qed.

Lemma int_plain k e : d_to_int k = Exc e -> plain_exn e.
Proof. unfold d_to_int. destruct (d_trunc k) as [z|]; [destruct (_ && _)|]; intro H; inv H; exact I. Qed.

Lemma u32_plain k e : d_to_u32 k = Exc e -> plain_exn e.
Proof. unfold d_to_u32. destruct (d_trunc k) as [z|]; [destruct (_ && _)|]; intro H; inv H; exact I. Qed.

Lemma u64_plain k e : d_to_u64 k = Exc e -> plain_exn e.
Proof. unfold d_to_u64. destruct (d_trunc k) as [z|]; [destruct (_ && _)|]; intro H; inv H; exact I. Qed.

Lemma foldM_throws {A S} (P : exn -> Prop) (f : S -> A -> res S) : (forall s a e, f s a = Exc e -> P e) ->
  forall l s e, foldM f s l = Exc e -> P e.
Proof.
  intros F. induction l as [|a l IH]; intros s e; cbn [foldM]; [discriminate|]. unfold bind. destruct (f s a) eqn:E; [apply IH|].
  intros H. inv H. eapply F; eauto.
Qed.

Ltac listed := cbn; repeat first [left; reflexivity | reflexivity | right].

Ltac cases H :=
  unfold bind in H;
  repeat first [ discriminate H | match type of H with
    | match stoi ?x with _ => _ end = _ => let E := fresh "E" in destruct (stoi x) eqn:E; [|inv H; apply plain_shown; eapply stoi_plain; exact E]
    | match stod ?x with _ => _ end = _ => let E := fresh "E" in destruct (stod x) eqn:E; [|inv H; apply plain_shown; eapply stod_plain; exact E]
    | match ?x with _ => _ end = _ => destruct x
    | (let '(_, _) := ?x in _) = _ => destruct x
    end ].

Lemma unique_shown wm b e : unique_code wm b = Exc e -> shown_exn e.
Proof.
  unfold unique_code. destruct (foldM _ _ b) eqn:F; [discriminate|]. intros H. inv H.
  eapply (foldM_throws shown_exn); [|exact F]. intros s a e1 H. unfold unique_step in H. cases H. inv H. exact I.
Qed.

Lemma same_shown w b e : same_word w b = Exc e -> shown_exn e.
Proof.
  unfold same_word. destruct (foldM _ _ b) eqn:F; [discriminate|]. intros H. inv H.
  eapply (foldM_throws shown_exn); [|exact F]. intros s a e1 H. unfold same_word_step in H. cases H. inv H. exact I.
Qed.

Lemma range_shown mt k b e : range_verifier mt k b = Exc e -> shown_exn e.
Proof.
  unfold range_verifier. apply foldM_throws. intros s a e1 H. unfold range_step in H. destruct a as [d| |]; try discriminate.
  destruct (d_value d) as [v|]; [|discriminate]. cases H; inv H; now left.
Qed.

Lemma axis_shown k zp m e : axis_verifier k zp m = Exc e -> shown_exn e.
Proof.
  unfold axis_verifier. apply foldM_throws. intros s a e1 H. unfold axis_step in H. cases H. inv H. now right.
Qed.

Lemma rotation_shown op st b st' e : rotation_verifier op st b = (st', Some e) -> shown_exn e.
Proof.
  assert (K : forall b st st' e, rot_visit_all op st b = (st', Some e) -> shown_exn e).
  { clear. induction b as [|a b IH]; intros st st' e; cbn [rot_visit_all]; [discriminate|]. destruct a as [d| |]; try apply IH.
    destruct (rot_visit op st d) as [s1 [e1|]] eqn:R; [|apply IH]. intros H. injection H as <- <-. revert R. unfold rot_visit.
    destruct (String.eqb (d_word d) "S"); [destruct op; intros H; inv H; listed|].
    destruct (d_value d) as [v|]; [|discriminate]. destruct (String.eqb _ "M").
    - destruct (stoi v) as [n|e2] eqn:E.
      + destruct (_ || _); [|discriminate]. destruct op; intros H; inv H. listed.
      + intros H. inv H. apply plain_shown. eapply stoi_plain; eauto.
    - destruct (_ && _); [|discriminate]. destruct (stoi v) as [n|e2] eqn:E.
      + destruct (_ || _); discriminate.
      + intros H. inv H. apply plain_shown. eapply stoi_plain; eauto. }
  unfold rotation_verifier. destruct (rot_visit_all op st b) as [s1 [e1|]] eqn:R.
  - intros H. injection H as <- <-. eapply K; eauto.
  - intros H. repeat match type of H with context [if ?x then _ else _] => destruct x end; inv H; listed.
Qed.

Lemma selector_shown m a e : selector_step m a = Exc e -> shown_exn e.
Proof. unfold selector_step. intros H. destruct a as [d| |]; try discriminate. cases H. Qed.

Lemma groups_shown mv gg mg line r b e : code_groups_verifier mv gg mg line r b = Exc e -> shown_exn e.
Proof.
  assert (K : forall w m, (forall l s e, foldM (groups_step mv line w m r) s l = Exc e -> (w = "G" \/ w = "M") -> shown_exn e)).
  { intros w m l s e0 H Hw. revert l s e0 H. apply foldM_throws. clear - Hw. intros s a e H. unfold groups_step in H. destruct a as [d| |]; try discriminate.
    destruct (word_code mv line w d) as [oc|e1] eqn:W.
    - unfold bind in H. destruct oc as [c|]; [|discriminate]. destruct (find_groups m c) as [gs|].
      + revert s H. induction gs as [|g gs IH]; intros s H; cbn [visit_groups] in H; [discriminate|].
        destruct (assoc g s); [inv H; right; split; [listed|unfold cgv_text; eauto 7]|eapply IH; exact H].
      + destruct r; inv H. right. split; [listed|unfold cgv_text; eauto 7].
    - inv H. unfold word_code in W. destruct (negb _); [discriminate|]. destruct (d_value d) as [v|]; [|discriminate].
      cases W. inv W. left. split; reflexivity. }
  unfold code_groups_verifier, bind. destruct (foldM (groups_step mv line "G" gg r) [] b) eqn:G; [|intros H; inv H; eapply K; eauto].
  destruct (foldM (groups_step mv line "M" mg r) [] b) eqn:M; [discriminate|intros H; inv H; eapply K; eauto].
Qed.

Lemma system_shown line b : forall mv mv' e, system_assign mv line b = (mv', Some e) -> shown_exn e.
Proof.
  induction b as [|a b IH]; intros mv mv' e; cbn [system_assign]; [discriminate|]. destruct (system_ops line a) as [ops|e1] eqn:S; [apply IH|].
  intros H. injection H as <- <-. unfold system_ops in S. destruct a as [d| |]; try discriminate. destruct (assoc _ _); [|discriminate]. cases S.
Qed.

Lemma evaluated_shown ops mv line b e : evaluated_code ops mv line b = Exc e -> shown_exn e.
Proof.
  unfold evaluated_code, bind. destruct (foldM _ _ b) eqn:F; [discriminate|]. intros H. inv H.
  eapply (foldM_throws shown_exn); [|exact F]. intros s a e1 H. unfold ec_step in H. destruct a as [d| |]; try discriminate.
  unfold ec_visit in H. destruct (_ && _); [|discriminate]. destruct (d_value d) as [v|]; [|inv H; exact I]. cases H. inv H. exact I.
Qed.

(** *** Values of macros *)

Section Value.
Variable lit : string -> dbl.
Variable libm : string -> dbl -> dbl.

Lemma int_op_plain f a b e : (forall x y e, f x y = Exc e -> plain_exn e) -> int_op f a b = Exc e -> plain_exn e.
Proof.
  intros F. unfold int_op, bind. destruct (d_to_int a) eqn:A; [|intros H; inv H; eapply int_plain; eauto].
  destruct (d_to_int b) eqn:B; [|intros H; inv H; eapply int_plain; eauto]. destruct (f _ _) eqn:R; [discriminate|]. intros H. inv H. eauto.
Qed.

Lemma binary_plain op a b e : binary op a b = Exc e -> plain_exn e.
Proof.
  unfold binary. repeat match goal with |- context [if ?x then _ else _] => destruct x end; try discriminate;
    try (apply int_op_plain; try discriminate).
  - intros x y e1. unfold int_rem. destruct (y =? 0); [intros H; inv H; exact I|]. destruct (_ && _); intros H; inv H. exact I.
  - intros H. inv H. exact I.
Qed.

Lemma unary_plain mv c a e : unary mv c a = Exc e -> plain_exn e.
Proof.
  unfold unary, bind. destruct (Ascii.eqb c "-"); [discriminate|]. destruct (Ascii.eqb c "+"); [discriminate|].
  destruct (Ascii.eqb c "#"); [|intros H; inv H; exact I]. destruct (d_to_u32 a) eqn:U; [|intros H; inv H; eapply u32_plain; eauto].
  destruct (macro_lookup _ _ _); intros H; inv H. exact I.
Qed.

Lemma call_plain name a e : call libm name a = Exc e -> plain_exn e.
Proof.
  unfold call, bind. repeat match goal with |- context [if ?x then _ else _] => destruct x end; try discriminate.
  - destruct (d_to_u64 a) eqn:U; [|intros H; inv H; eapply u64_plain; eauto]. destruct (bcd_to_ui32 _); intros H; inv H. exact I.
  - destruct (d_to_u32 a) eqn:U; [|intros H; inv H; eapply u32_plain; eauto]. destruct (uint32_to_bcd _); intros H; inv H. exact I.
  - intros H. inv H. exact I.
Qed.

Lemma eval_plain mv : forall o e, eval libm mv o = Exc e -> plain_exn e.
Proof.
  fix IH 1. intros o e. destruct o as [|d|c o1|name o1|o1 rest]; cbn [eval].
  - intros H. inv H. exact I.
  - discriminate.
  - unfold bind. destruct (eval libm mv o1) eqn:E; [apply unary_plain|]. intros H. inv H. eapply IH; exact E.
  - unfold bind. destruct (eval libm mv o1) eqn:E; [apply call_plain|]. intros H. inv H. eapply IH; exact E.
  - unfold bind at 1. destruct (eval libm mv o1) as [v|e1] eqn:E; [|intros H; inv H; eapply IH; exact E].
    clear E. revert v. induction rest as [|[op o2] rest IHr]; intros v; [discriminate|].
    unfold bind at 1. destruct (eval libm mv o2) as [r|e2] eqn:E2; [|intros H; inv H; eapply IH; exact E2].
    unfold bind. destruct (binary op v r) eqn:B; [apply IHr|]. intros H. inv H. eapply binary_plain; eauto.
Qed.

Lemma calculator_plain mv t e : value_calculator lit libm mv t = Exc e -> plain_exn e.
Proof.
  unfold value_calculator. destruct (expression _ _ _) as [o r| |r|]; try discriminate.
  - destruct (eval libm mv o) as [v|e1] eqn:E; [discriminate|]. apply eval_plain in E. destruct e1; intros H; inv H; exact E.
  - intros H. inv H. exact I.
Qed.

Lemma macro_shown mv line b e : macro_evaluate lit libm mv line b = Exc e -> shown_exn e.
Proof.
  unfold macro_evaluate, bind. destruct (foldM _ _ b) as [s|e1] eqn:F.
  - destruct (_ =? _); [discriminate|]. destruct (ma_text s) as [|c t]; [discriminate|].
    destruct (value_calculator _ _ _ _) as [[]|e2] eqn:V; try discriminate. intros H. inv H. apply plain_shown. eapply calculator_plain; eauto.
  - intros H. inv H. eapply (foldM_throws shown_exn); [|exact F]. intros s a e1 H. unfold ma_step in H. destruct a as [d| |]; try discriminate.
    unfold ma_visit in H. cases H.
Qed.
End Value.

(** *** The path *)

Definition shows {A} (m : M A) : Prop := forall c c' e, m c = (c', Throw e) -> shown_exn e.

Lemma shows_ret {A} (a : A) : shows (ret a). Proof. intros c c' e H; discriminate. Qed.
Lemma shows_stop {A} : shows (@stop A). Proof. intros c c' e H; discriminate. Qed.
Lemma shows_throw {A} m : shown m -> shows (@throw A m). Proof. intros S c c' e H; inv H; exact S. Qed.
Lemma shows_undefined {A} w : shows (@undefined A w). Proof. intros c c' e H; inv H; exact I. Qed.
Lemma shows_get {A} (g : calc -> A) : shows (get g). Proof. intros c c' e H; discriminate. Qed.
Lemma shows_lift {A} (r : res A) : (forall e, r = Exc e -> shown_exn e) -> shows (lift r).
Proof. intros K c c' e H. unfold lift in H. destruct r; inv H. auto. Qed.
Lemma shows_need {A} (o : option A) m : shown m -> shows (need o m). Proof. intros S. destruct o; [apply shows_ret|now apply shows_throw]. Qed.
Lemma shows_deref {A} (o : option A) : shows (deref o). Proof. destruct o; [apply shows_ret|apply shows_undefined]. Qed.
Lemma shows_bind {A B} (m : M A) (k : A -> M B) : shows m -> (forall a, shows (k a)) -> shows (mbind m k).
Proof.
  intros Hm Hk c c' e. unfold mbind. specialize (Hm c). destruct (m c) as [c1 [a| |e1]]; intro H.
  - eapply Hk; exact H.
  - discriminate.
  - inv H. eapply Hm; reflexivity.
Qed.
Lemma shows_when b m : shows m -> shows (when b m).
Proof. intros H; destruct b; [exact H|apply shows_ret]. Qed.
Lemma shows_upd g : shows (upd g). Proof. intros c c' e H; discriminate. Qed.
Lemma shows_path g : shows (upd_path g). Proof. intros c c' e H; discriminate. Qed.
Lemma shows_time g : shows (upd_time g). Proof. intros c c' e H; discriminate. Qed.

Ltac shows :=
  repeat match goal with
    | |- shows (ret _) => apply shows_ret
    | |- shows stop => apply shows_stop
    | |- shows (throw _) => apply shows_throw; listed
    | |- shows (undefined _) => apply shows_undefined
    | |- shows (get _) => apply shows_get
    | |- shows (lift _) => apply shows_lift
    | |- shows (need _ _) => apply shows_need; listed
    | |- shows (deref _) => apply shows_deref
    | |- shows (upd _) => apply shows_upd
    | |- shows (upd_path _) => apply shows_path
    | |- shows (upd_time _) => apply shows_time
    | |- shows (when _ _) => apply shows_when
    | |- shows (mbind _ _) => apply shows_bind; [|intros]
    | |- shows (match ?x with _ => _ end) => destruct x
    end.

Section Calc.
Variables atan log cabs : dbl -> dbl.
Variable stale : Z.
Variable mc : machine.

Lemma holes_shows n x y : shows (holes n x y).
Proof. induction n as [|n IH]; cbn [holes]; shows. apply IH. Qed.

Lemma peck_plain w q a b ret e : peck w q a b ret = Exc e -> plain_exn e.
Proof. unfold peck. destruct (d_to_int _) eqn:D; cbn; intro H; [discriminate|]. inv H. eapply int_plain; eauto. Qed.

Lemma motion_shows v m : shows (motion atan log cabs mc v m).
Proof.
  unfold motion, cancel, no_cycle. shows.
  - unfold straight, no_cycle, target, set_motion. shows.
  - unfold circular, no_cycle, helix_block, helix_incremental, helix_absolute, by_centre_or_radius, arc.
    destruct (plane_params (m_plane m)) as [[p1 p2] p3]. destruct (plane_axes (m_plane m)) as [[a1 a2] a3]. shows.
  - unfold drilling, set_both, cycle_distance. destruct (plane_axes (m_plane m)) as [[a1 a2] a3]. shows; try apply holes_shows.
    all: intros e H; apply plain_shown; try (eapply int_plain; exact H). unfold drill_q_incr, drill_q in H.
    repeat match type of H with (if ?b then _ else _) = _ => destruct b end; try discriminate; eapply peck_plain; eauto.
Qed.

Lemma evaluate_shows inch v : shows (evaluate_found atan log cabs stale mc inch v).
Proof.
  unfold evaluate_found, service_times, tool_change, exchange_times, add_time, dwell, start_modes, check_feeds. shows; try apply motion_shows.
  all: intros e H; apply plain_shown; eapply stod_plain; eauto.
Qed.

Lemma path_shown inch line b c mv c' mv' e : evaluate atan log cabs stale mc inch line b c mv = (c', mv', Some e) -> shown_exn e.
Proof.
  unfold evaluate. destruct b as [|a b]; [discriminate|]. destruct (foldM (visit_attr mc) found_init (a :: b)) as [v|e1] eqn:V.
  2:{ intro H. inv H. apply visit_throws in V as [-> | ->]; exact I. }
  destruct (evaluate_found atan log cabs stale mc inch v (no_motion c)) as [c1 r] eqn:E. intro H. injection H as _ _ R.
  destruct r as [|  |e1]; try discriminate R. cbn in R. injection R as ->. eapply evaluate_shows; exact E.
Qed.
End Calc.

(** ** The grammar *)

Definition told (s : gstate) : Prop := Forall (fun m => shown m \/ m = ["stoi"]) (gs_message s).

Lemma told_add m s : told s -> shown m \/ m = ["stoi"] -> told (add_message m s).
Proof. intros T H. unfold told. cbn. apply Forall_app. split; [exact T|]. constructor; [exact H|constructor]. Qed.

Lemma told_status x s : told s -> told (set_status x s).
Proof. exact (fun T => T). Qed.

Definition v_told (x : gstate * vres) : Prop := told (fst x) /\ match snd x with VExc e => plain_exn e | _ => True end.

Lemma verify_told wm d s : told s -> v_told (verify wm d s).
Proof.
  intros T. assert (A : forall m s, told s -> shown m -> v_told (add_message m s, VFalse)).
  { intros m s1 T1 S1. split; [apply told_add; auto|exact I]. }
  assert (B : forall s, told s -> v_told (s, VTrue)) by (intros s1 T1; split; [exact T1|exact I]).
  assert (B' : forall s, told s -> v_told (s, VFalse)) by (intros s1 T1; split; [exact T1|exact I]).
  assert (E : forall s t e, told s -> stoi t = Exc e -> v_told (s, VExc e)) by (intros s1 t e T1 H; split; [exact T1|eapply stoi_plain; eauto]).
  assert (R : forall g s, told s -> v_told (verify_rest g d s)).
  { intros g s1 T1. unfold verify_rest, verify_missing, verify_decimals.
    destruct (_ && _).
    - destruct (negb _); [|auto]. destruct (_ || _); [auto|]. apply A; [assumption|listed].
    - destruct (d_dot d) as [c|]; [|apply A; [assumption|listed]].
      assert (X : v_told (add_message ["DecimalSeparatorMissing"; g_word g] s1, VFalse)) by (apply A; [assumption|listed]).
      destruct c as [[] [] [] [] [] [] [] []]; try exact X.
      destruct (stoi _) eqn:S; [|eapply E; eauto]. destruct (_ || _); [apply A; [assumption|listed]|auto]. }
  unfold verify. pose proof (told_status (mkSt (was_macro (gs_status s)) (was_macro_equal (gs_status s)) (open_cnt (gs_status s) + str_len (d_open d)) (close_cnt (gs_status s))) s T) as T1.
  destruct (assoc (d_word d) wm) as [g|]; [|auto].
  match goal with |- context [set_status ?y (set_status ?x s)] => pose proof (told_status y _ T1) as T2; generalize dependent (set_status y (set_status x s)) end.
  intros s2 T2. destruct (_ && _); [apply A; [assumption|listed]|]. destruct (d_macro d) as [m|].
  { destruct (d_value d) as [v|]; [|apply A; [assumption|listed]]. unfold verify_string, verify_int.
    destruct (stoi v) eqn:S; [|split; [apply told_add; auto|exact I]].
    destruct (assoc m wm) as [gm|]; [|auto]. destruct (_ || _); [apply A; [assumption|listed]|auto]. }
  destruct (_ && _).
  { unfold verify_optional. assert (X : v_told (if is_some (d_sign d) || is_some (d_dot d) || is_some (d_macro d) || is_some (d_value2 d)
      then (add_message ["ForbiddenCharsInOptionalBlock"] s2, VFalse) else (s2, VTrue))) by (destruct (_ || _); [apply A; [assumption|listed]|auto]).
    destruct (d_value d) as [v|]; [|exact X]. destruct (stoi v) as [z|] eqn:S; [|eapply E; eauto]. destruct ((to_u32 z <? 1) || _); [apply A; [assumption|listed]|exact X]. }
  unfold verify_value. destruct (d_value d) as [v|].
  - destruct (stoi v) eqn:S; [|eapply E; eauto]. destruct (_ || _); [apply A; [assumption|listed]|].
    destruct (calc_word (d_word d) && (0 <? open_cnt (gs_status s2))); [apply B, told_status, T2|]. destruct (_ && _); [auto|].
    destruct (_ =? _); [|auto]. destruct (is_some _); [apply A; [assumption|listed]|auto].
  - destruct (_ =? _); [|auto]. unfold verify_missing. destruct (_ || _); [auto|]. apply A; [assumption|listed].
Qed.

Definition r_told (x : gstate * rule_result) : Prop := told (fst x) /\ match snd x with RExc e => plain_exn e | _ => True end.

Lemma checked_told wm d r s : told s -> r_told (checked wm d r s).
Proof.
  intros T. unfold checked. pose proof (verify_told wm d s T) as [A B]. destruct (verify wm d s) as [s1 []]; cbn in *; split; auto; exact I.
Qed.

Lemma orelse_told x f : r_told x -> (forall s, told s -> r_told (f s)) -> r_told (orelse x f).
Proof. intros [A B] F. destruct x as [s [| | |]]; cbn in *; try (split; [exact A|exact B]). now apply F. Qed.

Lemma attribute_told wm dec asg t s : told s -> r_told (line_attribute wm dec asg t s).
Proof.
  intros T. assert (P : forall s r, told s -> (forall e, r <> RExc e) -> r_told (s, r)).
  { intros s1 r T1 N. split; [exact T1|]. destruct r; try exact I. now contradiction (N e). }
  unfold line_attribute. apply orelse_told.
  { apply P; [exact T|]. intros e. unfold char_rule. destruct t as [|c t]; [discriminate|]. destruct c as [[] [] [] [] [] [] [] []]; try discriminate.
    destruct (span is_blank t) as [[|] ?]; discriminate. }
  clear s T. intros s T. apply orelse_told.
  { unfold decimal_rule. destruct (assign_ahead asg (skip t)); [apply P; [exact T|discriminate]|].
    destruct (sym_match dec (skip t)); [|apply P; [exact T|discriminate]]. destruct (number_tail _ _ _ _). now apply checked_told. }
  assert (S : forall o s, told s -> r_told (slash_rule wm o t s)).
  { clear s T. intros o s T. unfold slash_rule. destruct (skip t) as [|c b]; [apply P; [exact T|discriminate]|].
    assert (X : r_told (let '(d, r') := number_tail o "/" None b in checked wm d r' s)) by (destruct (number_tail _ _ _ _); now apply checked_told).
    destruct c as [[] [] [] [] [] [] [] []]; try (apply P; [exact T|discriminate]).
    destruct (skip b) as [|x y]; [exact X|]. destruct x as [[] [] [] [] [] [] [] []]; try exact X. apply P; [exact T|discriminate]. }
  clear s T. intros s T. apply orelse_told; [now apply S|]. clear s T. intros s T. apply orelse_told.
  { unfold assignable_rule. destruct (sym_match asg (skip t)) as [w|]; [|apply P; [exact T|discriminate]].
    destruct (skip (drop (String.length w) (skip t))) as [|q z]; [apply P; [exact T|discriminate]|].
    destruct q as [[] [] [] [] [] [] [] []]; try (apply P; [exact T|discriminate]). destruct (number_tail _ _ _ _). now apply checked_told. }
  clear s T. intros s T. apply orelse_told; [now apply S|]. clear s T. intros s T. apply orelse_told.
  { apply P; [exact T|]. intros e. unfold comment_rule. destruct (skip t) as [|c b]; [discriminate|]. destruct c as [[] [] [] [] [] [] [] []]; try discriminate.
    destruct (span _ b) as [v [|]]; discriminate. }
  clear s T. intros s T. apply orelse_told.
  { apply P; [exact T|]. intros e. unfold start_program_rule. destruct (skip t) as [|c b]; [discriminate|]. destruct c as [[] [] [] [] [] [] [] []]; try discriminate.
    destruct (skip b); discriminate. }
  clear s T. intros s T. apply P; [exact T|]. intros e. unfold program_name_rule. destruct (skip t) as [|c b]; [discriminate|].
  destruct c as [[] [] [] [] [] [] [] []]; try discriminate. destruct (span _ b) as [[|] ?]; discriminate.
Qed.

Lemma phrase_told wm dec asg t s s' v r : told s -> phrase_parse wm dec asg t s = (s', v, r) ->
  told s' /\ match r with PExc e => shown_exn e | _ => True end.
Proof.
  unfold phrase_parse. generalize (S (String.length t)) as f. intro f. generalize (@nil attr) at 1 as v0. intro v0. revert t s s' v v0.
  induction f as [|f IH]; intros t s s' v v0 T H; cbn [line_attributes] in H; [injection H as <- <- <-; split; [exact T|exact I]|].
  pose proof (attribute_told wm dec asg t s T) as [A B]. destruct (line_attribute wm dec asg t s) as [x R]. cbn in A, B. destruct R as [|a q|q|e].
  - destruct v0; [injection H as <- <- <-; split; [exact A|exact I]|]. destruct (skip t); injection H as <- <- <-; split; auto; exact I.
  - eapply IH; [exact A|exact H].
  - injection H as <- <- <-. split; [exact A|exact I].
  - injection H as <- <- <-. split; [exact A|]. now apply plain_shown.
Qed.

(** ** parse *)

Definition a_shown (a : answer) : Prop := match a with Answer _ m => shown_message m | Escapes _ => True end.

Lemma caught_shown e : shown_exn e -> a_shown (caught e).
Proof. intros S. destruct e; try exact I; (split; [exact S|exact I]). Qed.

Definition s_shown (r : parser * option answer) : Prop :=
  told (pr_gs (fst r)) /\ match snd r with Some a => a_shown a | None => True end.

Definition step_shown (f : parser -> parser * option answer) : Prop := forall p, told (pr_gs p) -> s_shown (f p).

Lemma andthen_shown a b : step_shown a -> step_shown b -> step_shown (andthen a b).
Proof.
  intros A B p T. unfold andthen. specialize (A p T). destruct (a p) as [p1 [x|]]; [exact A|]. apply B, A.
Qed.

Lemma on_shown b s : step_shown s -> step_shown (on b s).
Proof. destruct b; [auto|]. intros _ p T. split; [exact T|exact I]. Qed.

Lemma check_shown {A} (r : parser -> res A) : (forall p e, r p = Exc e -> shown_exn e) -> step_shown (check r).
Proof. intros K p T. unfold check. split; [exact T|]. cbn. destruct (r p) eqn:E; [exact I|]. eapply caught_shown, K, E. Qed.

Section Parse.
Variable lit : string -> dbl.
Variable libm : string -> dbl -> dbl.
Variables atan log cabs : dbl -> dbl.
Variable stale : Z.
Variable cf : config.

Lemma select_shown b : step_shown (select_grammar b).
Proof.
  induction b as [|a b IH]; intros p T; cbn [select_grammar]; [split; [exact T|exact I]|].
  destruct (selector_step (pr_metric p) a) eqn:E; [apply IH, T|]. split; [exact T|]. eapply caught_shown, selector_shown, E.
Qed.

Lemma later_shown st line b : step_shown (later_steps atan log cabs stale cf st line b).
Proof.
  unfold later_steps. apply andthen_shown.
  { intros p T. unfold system_step. destruct (system_assign (pr_macros p) line b) as [mv [e|]] eqn:E; (split; [exact T|]); [|exact I].
    eapply caught_shown, system_shown, E. }
  apply andthen_shown.
  { apply on_shown. intros p T. unfold settings_step. destruct (pr_calc p) as [c|]; [|split; [exact T|exact I]].
    destruct (range_verifier _ _ b) eqn:R; [|split; [exact T|eapply caught_shown, range_shown, R]].
    destruct (rotation_verifier _ _ b) as [q [e|]] eqn:O; (split; [exact T|]); [|exact I]. eapply caught_shown, rotation_shown, O. }
  apply andthen_shown; [apply on_shown, check_shown; intros p e; apply groups_shown|].
  apply andthen_shown; [apply on_shown, check_shown; intros p e; apply same_shown|].
  apply andthen_shown; [|apply select_shown].
  apply on_shown. intros p T. unfold path_step. destruct (pr_calc p) as [c|]; [|split; [exact T|exact I]].
  destruct (evaluate _ _ _ _ _ _ _ _ _ _) as [[cl mv] [e|]] eqn:E; [split; [exact T|eapply caught_shown, path_shown, E]|].
  destruct (ps_zero_point st); (split; [exact T|]); [|exact I]. cbn. destruct (axis_verifier _ _ _) eqn:X; [exact I|]. eapply caught_shown, axis_shown, X.
Qed.

Lemma finish_shown ret (r : parser * option answer) : s_shown r ->
  a_shown (snd (match r with (p', None) => (p', Answer ret MNone) | (p', Some a) => (p', a) end)).
Proof. intros [_ H]. destruct r as [p' [a|]]; [exact H|exact I]. Qed.

Lemma steps_shown st line v ret p : told (pr_gs p) -> a_shown (snd (steps lit libm atan log cabs stale cf st line v ret p)).
Proof.
  intros T. unfold steps. destruct (unique_code _ v) eqn:U; [|eapply caught_shown, unique_shown, U]. destruct (negb _); [exact T|].
  unfold macro_step. destruct (macro_evaluate lit libm (pr_macros p) line v) as [[mv [m|]]|e] eqn:E;
    [exact T| |eapply caught_shown, macro_shown, E].
  unfold macro_steps. destruct (evaluated_code _ _ line v) as [t|e] eqn:EC; [|eapply caught_shown, evaluated_shown, EC].
  destruct t as [|ch t]; [apply finish_shown, later_shown, T|]. destruct (pr_grammar _) as [lg|]; [|exact I].
  destruct (phrase_parse _ _ _ _ _) as [[gs v2] r] eqn:P. apply phrase_told in P as [T2 K]; [|exact T].
  destruct r as [| |rest|e]; [| |exact T2|now apply caught_shown].
  - apply finish_shown. apply andthen_shown; [apply select_shown|apply later_shown|exact T2].
  - apply finish_shown. apply andthen_shown; [apply select_shown|apply later_shown|exact T2].
Qed.

Lemma parse_shown st line data p p' v ret m : parse lit libm atan log cabs stale cf st line data p = (p', v, Answer ret m) -> shown_message m.
Proof.
  unfold parse. destruct (pr_grammar p) as [lg|]; [|discriminate]. unfold grammar_parse. destruct (phrase_parse _ _ _ _ _) as [[gs w] r] eqn:P.
  apply phrase_told in P as [T K]; [|constructor]. destruct r as [| |rest|e].
  - pose proof (steps_shown st line w true (with_gs gs p) T) as H. destruct (steps _ _ _ _ _ _ _ _ _ _ _ _) as [q a]. intros E. injection E as _ _ ->. exact H.
  - pose proof (steps_shown st line w false (with_gs gs p) T) as H. destruct (steps _ _ _ _ _ _ _ _ _ _ _ _) as [q a]. intros E. injection E as _ _ ->. exact H.
  - intros E. injection E as _ _ _ <-. exact T.
  - intros E. injection E as _ _ E. pose proof (caught_shown e K) as H. rewrite E in H. exact H.
Qed.
End Parse.

(** ** The text *)

Lemma starts_app a b : starts_with_letter a -> starts_with_letter (a ++ b).
Proof. destruct a; [intros []|exact (fun H => H)]. Qed.

Lemma shown_text l m : shown m -> starts_with_letter (item_text l m).
Proof.
  unfold shown, item_text. destruct m as [|name args]; [intros []|]. intros I.
  assert (T : exists p parts, assoc name (texts l) = Some (p :: parts) /\ starts_with_letter p).
  { cbn in I. repeat (destruct I as [I|I]; [injection I as <- _; destruct l; (eexists _, _; split; [reflexivity|reflexivity])|]). destruct I. }
  destruct T as (p & parts & -> & S). cbn [weave]. now apply starts_app.
Qed.
