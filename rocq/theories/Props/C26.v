(** C26: a word that has to be converted carries afterwards the original
    number divided (multiplied) by 25.4, rounded to the number of decimals its
    grammar entry allows; the sign is kept.  The rounding is within half a unit
    of the last decimal, up to the relative error 2^-50 of binary64.
    Partial: the entry must allow decimals; for entries without decimals the
    zeros of the integer itself are cut off (C26_refuted). *)
From Verif Require Import Model.Base Model.Attr Model.UnitConv Spec.Text Spec.UnitSpec
  Proofs.UnitProofs Proofs.UnitNumberProofs.

Open Scope list_scope.

Theorem C26_partial : forall dir fg pre d post b' e n k p, Forall readable (pre ++ ADec d :: post) ->
  due (produced dir fg) pre d -> unit_convert dir fg (pre ++ ADec d :: post) = Ok b' ->
  assoc (d_word d) (produced dir fg) = Some e -> allowed_decimals e p -> has_number d n k -> moderate n k ->
  exists pre' d' post' n' k', b' = pre' ++ ADec d' :: post' /\ List.length pre' = List.length pre /\
    other_number d d' /\ has_number d' n' k' /\ k' <= p /\
    rounded (exact_num dir n) (exact_den dir k) p n' k'.
Proof. exact due_rounded. Qed.
Print Assumptions C26_partial.

(** The conversion does not fail on such numbers. *)
Theorem C26_succeeds : forall dir fg b, Forall readable b -> Forall (numeric (produced dir fg)) b ->
  exists b', unit_convert dir fg b = Ok b'.
Proof. exact convert_total. Qed.
Print Assumptions C26_succeeds.

(** 254 mm/min is 10 inch/min, but the result says 1; and zero loses its digit. *)
Theorem C26_refuted : exists fg d d' e,
  due (produced MetricToImperial fg) [] d /\ assoc (d_word d) (produced MetricToImperial fg) = Some e /\ g_dto e = 0 /\
  has_number d 254 0 /\ unit_convert MetricToImperial fg [ADec d] = Ok [ADec d'] /\
  has_number d' 1 0 /\ ~ rounded (exact_num MetricToImperial 254) (exact_den MetricToImperial 0) 0 1 0.
Proof. exact no_decimals_wrong. Qed.
Print Assumptions C26_refuted.

Theorem C26_zero_refuted : exists fg d d',
  has_number d 0 0 /\ unit_convert MetricToImperial fg [ADec d] = Ok [ADec d'] /\ forall n k, ~ has_number d' n k.
Proof. exact zero_lost. Qed.
Print Assumptions C26_zero_refuted.

Example C26_ex :
  let d := mkDec "X" None (Some "-"%char) None None (Some "12") (Some "."%char) (Some "7") None in
  let e := mkWG "X" (-9999) 9999 0 999 true WTlength in
  due mm_grammar [ADec (plain "G" "1")] d /\ has_number d 127 1 /\ moderate 127 1 /\ allowed_decimals e 3 /\
  unit_convert MetricToImperial ex_units [ADec (plain "G" "1"); ADec d] =
    Ok [ADec (plain "G" "1"); ADec (mkDec "X" None (Some "-"%char) None None (Some "0") (Some "."%char) (Some "5") None)] /\
  rounded (exact_num MetricToImperial 127) (exact_den MetricToImperial 1) 3 5 1 /\
  ~ rounded (exact_num MetricToImperial 127) (exact_den MetricToImperial 1) 3 501 3.
Proof.
  cbn zeta. split; [|split; [|split; [|split; [|split; [|split]]]]].
  - split; [eexists; split; [reflexivity|now left]|].
    split; [intros [H|[H|H]]; apply H; reflexivity|]. split; [discriminate|]. split.
    { intros (d & F & W). inversion F; subst. discriminate. }
    split.
    { intros (a & [<-|[]] & (d & E & (_ & v & V & D))). inversion E; subst. inversion V; subst.
      destruct D as (_ & _ & D). vm_compute in D. discriminate. }
    intros [_ H]. cbn in H. intuition discriminate.
  - split; [split; [discriminate|split; reflexivity]|]. split; [reflexivity|]. split; [reflexivity|now left].
  - right. split; vm_compute; discriminate.
  - split; [reflexivity|]. split; vm_compute; [discriminate|reflexivity].
  - vm_compute. reflexivity.
  - vm_compute. discriminate.
  - vm_compute. intro H. now apply H.
Qed.
