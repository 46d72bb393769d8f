(** Same word in a block; unit selection. *)
From Verif Require Import Model.Base Model.Attr Model.Verifiers Spec.VerifierSpec Spec.SelectSpec
  Proofs.Tactics Proofs.StringFacts Proofs.TextProofs.
Open Scope list_scope.

Lemma same_word_fold w b : forall was,
  foldM (same_word_step w) was b =
  let n := ((if was then 1 else 0) + count_occ string_dec (addresses b) w)%nat in
  if (2 <=? n)%nat then Exc (ESameWord w) else Ok (1 <=? n)%nat.
Proof.
  induction b as [|a b IH]; intros was; cbn [foldM addresses flat_map].
  - destruct was; reflexivity.
  - destruct a as [d| |]; cbn [same_word_step app]; try apply IH.
    fold (addresses b). cbn [count_occ]. destruct (String.eqb_spec (d_word d) w) as [->|N].
    + destruct (string_dec w w); [|contradiction]. destruct was.
      * reflexivity.
      * rewrite IH. reflexivity.
    + destruct (string_dec (d_word d) w); [contradiction|]. apply IH.
Qed.

Lemma same_word_accepts w b : same_word w b = Ok tt <-> ~ repeated w (addresses b).
Proof.
  unfold same_word, repeated. rewrite same_word_fold. cbn [Nat.add]. destruct (Nat.leb_spec 2 (count_occ string_dec (addresses b) w)).
  - split; [discriminate|]. intros K. contradiction.
  - split; auto. lia.
Qed.

Lemma same_word_rejects w b e : same_word w b = Exc e <-> repeated w (addresses b) /\ e = ESameWord w.
Proof.
  unfold same_word, repeated. rewrite same_word_fold. cbn [Nat.add]. destruct (Nat.leb_spec 2 (count_occ string_dec (addresses b) w)).
  - split; [intros K; injection K as <-; auto|]. intros [_ ->]. reflexivity.
  - split; [discriminate|]. lia.
Qed.

Lemma g_values_app b1 b2 : g_values (b1 ++ b2) = (g_values b1 ++ g_values b2)%list.
Proof. unfold g_values. apply flat_map_app. Qed.

Lemma selects_fun u0 l u : selects u0 l u -> forall u', selects u0 l u' -> u = u'.
Proof.
  assert (Snoc : forall (A : Type) (l l' : list A) x y, (l ++ [x] = l' ++ [y])%list -> l = l' /\ x = y).
  { intros. now apply app_inj_tail. }
  induction 1 as [|l v u S IH D|l v u S IH D|l v n u S IH D N1 N2]; intros u' K.
  - inversion K as [|l' v' u1 S' D' E|l' v' u1 S' D' E|l' v' n' u1 S' D' M1 M2 E]; auto; destruct l'; discriminate.
  - inversion K as [E|l' v' u1 S' D' E|l' v' u1 S' D' E|l' v' n' u1 S' D' M1 M2 E]; auto.
    + destruct l; discriminate.
    + apply Snoc in E as [-> ->]. pose proof (denotes_fun _ _ _ D D'). lia.
    + apply Snoc in E as [-> ->]. pose proof (denotes_fun _ _ _ D D'). lia.
  - inversion K as [E|l' v' u1 S' D' E|l' v' u1 S' D' E|l' v' n' u1 S' D' M1 M2 E]; auto.
    + destruct l; discriminate.
    + apply Snoc in E as [-> ->]. pose proof (denotes_fun _ _ _ D D'). lia.
    + apply Snoc in E as [-> ->]. pose proof (denotes_fun _ _ _ D D'). lia.
  - inversion K as [E|l' v' u1 S' D' E|l' v' u1 S' D' E|l' v' n' u1 S' D' M1 M2 E]; auto.
    + destruct l; discriminate.
    + apply Snoc in E as [-> ->]. pose proof (denotes_fun _ _ _ D D'). lia.
    + apply Snoc in E as [-> ->]. pose proof (denotes_fun _ _ _ D D'). lia.
    + apply Snoc in E as [-> ->]. auto.
Qed.

(** One block after the blocks before. *)
Lemma selector_selects u0 b : forall l u u', selects u0 l u ->
  Forall (fun v => exists n, denotes v n) (g_values b) ->
  grammar_selector u b = Ok u' -> selects u0 (l ++ g_values b) u'.
Proof.
  induction b as [|a b IH]; intros l u u' S F H.
  - cbn in *. injection H as <-. now rewrite app_nil_r.
  - change (g_values (a :: b)) with (g_values ([a] ++ b)) in *. rewrite g_values_app in *.
    apply Forall_app in F as [F1 F2].
    unfold grammar_selector in H. cbn [foldM] in H. rewrite app_assoc.
    destruct (selector_step u a) as [u1|] eqn:E; [|discriminate].
    apply (IH _ u1); auto. clear IH H F2 b. unfold g_values in *. cbn [flat_map] in *. rewrite app_nil_r in *.
    destruct a as [d| |]; cbn in E; try (injection E as <-; now rewrite app_nil_r).
    destruct (String.eqb_spec (d_word d) "G") as [W|W]; cbn in E; [|injection E as <-; now rewrite app_nil_r].
    destruct (d_value d) as [v|]; [|injection E as <-; now rewrite app_nil_r].
    inversion F1 as [|? ? (n & D) _]; subst. rewrite (stoi_denotes v n D) in E.
    pose proof (denotes_nonneg _ _ D).
    destruct (Z.ltb_spec int_max n); [discriminate|]. cbn in E. rewrite to_u32_id in E by lia. injection E as <-.
    destruct (Z.eqb_spec n 20) as [->|]; [eapply sel_inch; eauto|].
    destruct (Z.eqb_spec n 21) as [->|]; [eapply sel_mm; eauto|]. eapply sel_other; eauto.
Qed.

Lemma program_selects u0 p : forall l u u', selects u0 l u ->
  Forall (fun v => exists n, denotes v n) (flat_map g_values p) ->
  program_unit u p = Ok u' -> selects u0 (l ++ flat_map g_values p) u'.
Proof.
  induction p as [|b p IH]; intros l u u' S F H; cbn in *.
  - injection H as <-. now rewrite app_nil_r.
  - destruct (grammar_selector u b) as [u1|] eqn:E; [|discriminate]. cbn in H.
    apply Forall_app in F as [F1 F2]. rewrite app_assoc. eapply IH; eauto. eapply selector_selects; eauto.
Qed.

Lemma program_ok p : Forall (fun v => exists n, denotes v n /\ n <= int_max) (flat_map g_values p) ->
  forall u, exists u', program_unit u p = Ok u'.
Proof.
  assert (B : forall b, Forall (fun v => exists n, denotes v n /\ n <= int_max) (g_values b) ->
              forall u, exists u', grammar_selector u b = Ok u').
  { induction b as [|a b IH]; intros F u; [now exists u|]. unfold grammar_selector. cbn [foldM].
    change (g_values (a :: b)) with (g_values ([a] ++ b)) in F. rewrite g_values_app in F. apply Forall_app in F as [F1 F2].
    assert (K : exists u1, selector_step u a = Ok u1).
    { unfold g_values in F1. cbn [flat_map] in F1. rewrite app_nil_r in F1. destruct a as [d| |]; cbn; eauto.
      destruct (String.eqb (d_word d) "G"); cbn; eauto. destruct (d_value d) as [v|]; eauto.
      inversion F1 as [|? ? (n & D & L) _]; subst. rewrite (stoi_ok v n D L). cbn. eauto. }
    destruct K as [u1 ->]. now apply IH. }
  induction p as [|b p IH]; intros F u; cbn in *; [eauto|]. apply Forall_app in F as [F1 F2].
  destruct (B b F1 u) as [u1 ->]. cbn. auto.
Qed.
