(** C15: missing spindle start is reported once, at the first block by which a
    cutting code has appeared while S or M3/M4 has not.

    G and M words are read by their integer part (G1.5 counts as G1) and a macro
    mark is ignored (M#3 counts as M3), as in the code. *)
From Verif Require Import Model.Base Model.Attr Model.Verifiers.
From Verif Require Import Spec.RotationVerifierSpec Proofs.RotationVerifierProofs.

Theorem C15_reported_once : forall p i e, Forall readable p ->
  (nth_error (rotation_run false rot_init p) i = Some (Some e) <->
   (i < List.length p)%nat /\ missing p i /\ (forall j, (j < i)%nat -> ~ missing p j) /\
   ((~ by_now speed p i /\ e = ERotation ["ValueNotSet"; "S"]) \/
    (by_now speed p i /\ e = ERotation ["ValueNotSet"; "M3/M4"]))).
Proof. exact rotation_off. Qed.
Print Assumptions C15_reported_once.

Theorem C15_operator : forall p st i b, Forall readable p -> nth_error p i = Some b ->
  exists r, nth_error (rotation_run true st p) i = Some r /\
  match r with
  | Some e => (speed b \/ spindle_on b) /\
      (e = ERotation ["SNotAllowedWhenOperatorTurnsRotation"] \/
       e = ERotation ["M3M4NotAllowedWhenOperatorTurnsRotation"])
  | None => ~ speed b /\ ~ spindle_on b
  end.
Proof. exact rotation_on. Qed.
Print Assumptions C15_operator.

Definition w (a v : string) : attr := ADec (plain a v).

Example C15_ex :
  let p := [[w "G" "0"]; [w "S" "100"]; [w "G" "1"; w "X" "5"]; [w "G" "81"]; [w "M" "3"]] in
  Forall readable p /\ missing p 2 /\
  rotation_run false rot_init p = [None; None; Some (ERotation ["ValueNotSet"; "M3/M4"]); None; None] /\
  rotation_run false rot_init [[w "S" "100"; w "M" "04"]; [w "G" "83"]] = [None; None].
Proof.
  assert (R : forall a v l, denotes v (digits_val v) -> digits_val v <= int_max -> readable l -> readable (w a v :: l)).
  { intros a v l D L H d v' [E|I] W V; [|exact (H d v' I W V)].
    inversion E; subst. inversion V; subst. eauto. }
  assert (N : readable []) by (intros d v []).
  split; [|split; [|split; reflexivity]].
  - repeat constructor;
      repeat (apply R; [repeat split; discriminate|discriminate|]); exact N.
  - split.
    + exists 2%nat, [w "G" "1"; w "X" "5"]. split; [constructor|]. split; [reflexivity|].
      exists (w "G" "1"), 1. split; [now left|]. split; [|now left].
      exists (plain "G" "1"), "1". repeat split; discriminate.
    + right. intros (j & b & L & E & a & n & I & (d & v & -> & W & _) & _).
      destruct j as [|[|[|j]]]; [| | |lia]; inversion E; subst; cbn in I;
        repeat (destruct I as [I|I]; [inversion I; subst; discriminate|]); exact I.
Qed.
