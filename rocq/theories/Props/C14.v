(** C14: axis travel limits relative to the zero point.

    [wrm] lists for every axis its lowest, current and highest position.  The
    code compares the current position with the range moved by the zero point
    in double arithmetic; the statement is about the exact values and supposes
    that this move needs no rounding (for instance whole numbers). *)
From Verif Require Import Model.Base Model.Attr Model.Double Model.Verifiers.
From Verif Require Import Spec.VerifierSpec Proofs.VerifierProofs Proofs.DoubleFacts.

Theorem C14_travel : forall k zp wrm,
  exact_limits k zp -> Forall (fun e => finite (snd (fst (snd e)))) wrm ->
  match axis_verifier k zp wrm with
  | Ok _ => forall w mn cur mx, In (w, (mn, cur, mx)) wrm -> ~ out_of_travel k zp w cur
  | Exc e => exists w mn cur mx l, In (w, (mn, cur, mx)) wrm /\ out_of_travel k zp w cur /\
      e = ERangeVerifier (w :: l)
  end.
Proof. exact axis_exact. Qed.
Print Assumptions C14_travel.

(** Whole numbers never need rounding. *)
Theorem C14_integers_exact : forall x y n m,
  is_int x n -> is_int y m -> Z.abs (n - m) < 2 ^ 53 -> representable (sval x - sval y).
Proof. exact int_difference. Qed.
Print Assumptions C14_integers_exact.

Definition k : kinematics :=
  mkKin [("X", (d_of_Z (-100), d_of_Z 500)); ("A", (d_of_Z 0, d_of_Z 360))] dzero 0 0.
Definition zp : zero_point := mkZP (d_of_Z 50) dzero dzero.

Example C14_ex :
  exact_limits k zp /\
  axis_verifier k zp [("X", (dzero, d_of_Z 450, d_of_Z 450)); ("A", (dzero, d_of_Z 360, dzero))] = Ok tt /\
  axis_verifier k zp [("X", (dzero, d_of_Z 451, d_of_Z 451))]
    = Exc (ERangeVerifier ["X"; "451.000000"; "-150.000000"; "450.000000"]).
Proof.
  split; [|split; vm_compute; reflexivity].
  assert (J : forall n m, Z.abs n < 2 ^ 53 -> Z.abs m < 2 ^ 53 -> Z.abs (n - m) < 2 ^ 53 ->
    representable (sval (d_of_Z n) - sval (d_of_Z m))).
  { intros n m Hn Hm H. apply (int_difference _ _ n m); auto using d_of_Z_int. }
  split; [vm_compute; reflexivity|]. split; [exact I|]. split; [exact I|].
  assert (C : forall w lo hi, assoc w (kin_axes k) = Some (lo, hi) ->
    w = "X" /\ lo = d_of_Z (-100) /\ hi = d_of_Z 500 \/ w = "A" /\ lo = d_of_Z 0 /\ hi = d_of_Z 360).
  { intros w lo hi. unfold k, kin_axes, assoc.
    destruct (String.eqb_spec w "X"); [intro H; left; repeat split; congruence|].
    destruct (String.eqb_spec w "A"); [intro H; right; repeat split; congruence|discriminate]. }
  intros w lo hi H. apply C in H as [(-> & -> & ->)|(-> & -> & ->)];
    (split; [apply d_of_Z_int; reflexivity|]; split; [apply d_of_Z_int; reflexivity|]).
  - split; apply (J _ 50); reflexivity.
  - split; apply (J _ 0); reflexivity.
Qed.
