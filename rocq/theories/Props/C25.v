(** C25: a unit conversion changes only words of type length or feed and the
    unit selection code, keeps the address, sign, brackets and order of the
    words, leaves optional blocks, everything from a dwell code on, and the
    centre and angle words of a coordinate rotation as they are.
    Partial: words in front of the dwell code are converted (C25_refuted). *)
From Verif Require Import Model.Base Model.Attr Model.UnitConv Spec.Text Spec.UnitSpec
  Proofs.UnitProofs Proofs.UnitNumberProofs.

Open Scope list_scope.

Theorem C25_frame : forall dir fg b b', Forall readable b -> unit_convert dir fg b = Ok b' ->
  Forall2 (allowed dir (produced dir fg)) b b'.
Proof. exact convert_frame. Qed.
Print Assumptions C25_frame.

Theorem C25_optional : forall dir fg b, optional_block b -> unit_convert dir fg b = Ok b.
Proof. exact optional_unchanged. Qed.
Print Assumptions C25_optional.

Theorem C25_dwell_partial : forall dir fg pre a post b', readable a -> is_g a 4 ->
  unit_convert dir fg (pre ++ a :: post) = Ok b' ->
  exists pre', unit_convert dir fg pre = Ok pre' /\ b' = pre' ++ a :: post.
Proof. exact dwell_stops. Qed.
Print Assumptions C25_dwell_partial.

Theorem C25_refuted : exists fg b b', dwell_in b /\ unit_convert MetricToImperial fg b = Ok b' /\ b' <> b.
Proof. exact dwell_block_changed. Qed.
Print Assumptions C25_refuted.

Theorem C25_rotation : forall dir fg pre d post b', Forall readable (pre ++ ADec d :: post) ->
  rotation_in pre -> In (d_word d) ["I"; "J"; "K"; "R"] ->
  unit_convert dir fg (pre ++ ADec d :: post) = Ok b' ->
  exists pre' post', b' = pre' ++ ADec d :: post' /\ List.length pre' = List.length pre.
Proof. exact rotation_kept. Qed.
Print Assumptions C25_rotation.

Theorem C25_unit_code : forall dir fg pre d post b', Forall readable (pre ++ ADec d :: post) ->
  ~ optional_block pre -> ~ dwell_in pre -> ~ bracketed d -> g_code d (unit_code dir) ->
  unit_convert dir fg (pre ++ ADec d :: post) = Ok b' ->
  exists pre' d' post', b' = pre' ++ ADec d' :: post' /\ List.length pre' = List.length pre /\
    other_number d d' /\ d_value d' = Some (new_unit_code dir).
Proof. exact unit_code_exchanged. Qed.
Print Assumptions C25_unit_code.

Example C25_ex :
  let b := [ADec (plain "G" "21"); ADec (plain "G" "68"); ADec (plain "X" "254"); ADec (plain "R" "254");
            ADec (plain "G" "04"); ADec (plain "X" "254")] in
  let g := ("R", mkWG "R" 0 999 0 999 true WTlength) :: mm_grammar in
  Forall readable b /\
  unit_convert MetricToImperial (mkFG g g) b =
    Ok [ADec (plain "G" "20"); ADec (plain "G" "68"); ADec (plain "X" "10"); ADec (plain "R" "254");
        ADec (plain "G" "04"); ADec (plain "X" "254")].
Proof.
  split; [|vm_compute; reflexivity].
  repeat constructor; cbn; try discriminate; intros v E; try discriminate; inversion E; subst;
    eexists; (split; [split; [discriminate|split; [reflexivity|reflexivity]]|vm_compute; discriminate]).
Qed.

Example C25_ex_optional : optional_block [ADec (plain "/" "1"); ADec (plain "X" "254")].
Proof. exists (plain "/" "1"). split; reflexivity. Qed.
