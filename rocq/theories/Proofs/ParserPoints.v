(** The machine points after the settings are applied. *)
From Verif Require Import Model.Base Model.Attr Model.Double Model.Macro Model.Grammar Model.Verifiers Model.PathGeom Model.PathCalc Model.Parser.
From Verif Require Import Spec.ParserSpec Proofs.Tactics.

Open Scope list_scope.

Lemma values_spec zp m : forall m', point_values zp m = Ok m' ->
  map fst m' = map fst m /\ forall w, point_used zp w (assoc w m) (assoc w m').
Proof.
  induction m as [|[w v] m IH]; cbn [point_values]; intros m' H.
  { inv H. split; [reflexivity|intro w]. exact I. }
  destruct (point_value zp (w, v)) as [[w1 u]|e] eqn:PV; [|discriminate]. cbn in H.
  destruct (point_values zp m) as [r|e]; [|discriminate]. cbn in H. inv H. destruct (IH r eq_refl) as [K L].
  assert (W : w1 = w /\ point_used zp w (Some v) (Some u)).
  { unfold point_value in PV. cbn. unfold coordinate.
    revert PV. unfold zp_offset. destruct (String.eqb w "X"); [|destruct (String.eqb w "Y"); [|destruct (String.eqb w "Z")]]; cbn [is_some];
    match goal with |- (if ?b then _ else _) = _ -> _ => destruct b eqn:D end; intro H; inv H; auto 6. }
  destruct W as [-> W]. cbn [map fst assoc]. split; [now rewrite K|]. intro x. destruct (String.eqb x w) eqn:E; [|apply L].
  apply String.eqb_eq in E as ->. exact W.
Qed.

Lemma applied cf mc kin zp p p' : set_ncsettings cf mc kin zp p = (p', None) ->
  exists c, pr_calc p' = Some c /\
    map fst (mc_exchange_point (cl_machine c)) = map fst (mc_exchange_point mc) /\
    map fst (mc_base_point (cl_machine c)) = map fst (mc_base_point mc) /\
    forall w, point_used zp w (assoc w (mc_exchange_point mc)) (assoc w (mc_exchange_point (cl_machine c))) /\
              point_used zp w (assoc w (mc_base_point mc)) (assoc w (mc_base_point (cl_machine c))).
Proof.
  unfold set_ncsettings. destruct (point_values zp (mc_exchange_point mc)) as [ex|] eqn:E1; [|discriminate].
  destruct (point_values zp (mc_base_point mc)) as [ba|] eqn:E2; [|discriminate]. intro H. injection H as <-.
  destruct (values_spec _ _ _ E1) as [K1 L1]. destruct (values_spec _ _ _ E2) as [K2 L2].
  eexists. split; [reflexivity|]. cbn. auto.
Qed.
