(** C61: every message has its text, with the values it is about. *)
From Verif Require Import Model.Base Model.Attr Model.Enums Model.Grammar Model.Verifiers Model.Parser Model.Messages.
From Verif Require Import Spec.ParserSpec Spec.DocumentSpec Proofs.DocumentProofs Proofs.MessageProofs Proofs.PlacedProofs Proofs.ParserCases.
Local Open Scope string_scope.

(** Both languages have a text for each message, once. *)
Theorem C61_complete : forall l, map fst (texts l) = message_names /\ NoDup (map fst (texts l)).
Proof. intros l. rewrite (names_complete l). exact (conj eq_refl message_names_nodup). Qed.
Print Assumptions C61_complete.

(** No value is left out, in either language. *)
Theorem C61_quoted : forall l name args, In name message_names ->
  quoted args (make_message l name args) /\ quoted args (make_message2 l name args).
Proof. exact values_quoted. Qed.
Print Assumptions C61_quoted.

(** What has no text is shown as nothing. *)
Theorem C61_unknown : forall l name args, ~ In name message_names -> make_message l name args = "" /\ make_message2 l name args = "".
Proof.
  intros l name args N. rewrite <- (names_complete l) in N. assert (A : assoc name (texts l) = None) by (revert N; induction (texts l) as [|[k v] t IH]; intro N; [reflexivity|]; cbn in *;
    destruct (String.eqb_spec name k); [subst; tauto|]; tauto).
  unfold make_message, make_message2. rewrite A. auto.
Qed.
Print Assumptions C61_unknown.

(** Each value is preceded by a text of its own: the number of texts fits the
    number of values in both languages. *)
Theorem C61_places : forall l name n args, In (name, n) values_shown -> List.length args = n ->
  exists parts, assoc name (texts l) = Some parts /\ in_turn parts args (make_message l name args).
Proof. exact texts_in_turn. Qed.
Print Assumptions C61_places.

Theorem C61_places2 : forall l name n args, In (name, n) values_shown2 -> List.length args = n ->
  exists parts, assoc name (texts l) = Some parts /\ in_turn args parts (make_message2 l name args).
Proof. exact texts_in_turn2. Qed.
Print Assumptions C61_places2.

(** The messages the parser makes are of these, each with as many values as its
    text needs. *)
Theorem C61_used : forall lit libm atan log cabs stale cf st line data p p' v ret m,
  parse lit libm atan log cabs stale cf st line data p = (p', v, Answer ret m) -> shown_message m.
Proof. intros lit libm atan log cabs stale cf st line data p p' v ret m. apply parse_shown. Qed.
Print Assumptions C61_used.

(** Where there is a message the user sees a text, in both languages. *)
Theorem C61_text : forall lit libm atan log cabs stale range_what l st line data cf p p' v ret m,
  starts_with_letter range_what -> parse lit libm atan log cabs stale cf st line data p = (p', v, Answer ret m) ->
  message_text range_what l m <> "" <-> has_message m = true.
Proof. intros lit libm atan log cabs stale range_what l st line data cf p p' v ret m. apply parse_has_text. Qed.
Print Assumptions C61_text.

Example C61_used_ex : exists v m, ex_parse ex_all 1 "G1 X5 F100 S99999" ex_parser = (ex_after ex_all 1 "G1 X5 F100 S99999" ex_parser, v, Answer false m) /\
  message_text "range" English m = "Value S [99999] higher than max allowed value 8000".
Proof. eexists _, _. split; [vm_compute; reflexivity|]. vm_compute. reflexivity. Qed.

Example C61_ex :
  In ("ValueNotInRange", 4%nat) values_shown /\
  make_message English "ValueNotInRange" ["7"; "1"; "5"; "X"] = "Value [7] not in range [1, 5] for address [X]" /\
  make_message Polish "ValueNotInRange" ["7"; "1"; "5"; "X"] = "Wartość [7] nie mieści się w zakresie [1, 5] dla adresu [X]" /\
  In ("InSameCodeGroup", 3%nat) values_shown2 /\
  make_message2 English "InSameCodeGroup" ["G0"; "G1"; "motion"] = "G0 and G1 are in the same Code Group = motion" /\
  make_message Polish "ValueNotSetForEither" ["I"; "J"] = "Nie ustawione wartości dla R lub I i J" /\
  make_message English "TNotWithG" ["5"] = "Address T can not appear in the block together with address G5".
Proof. repeat split; try (vm_compute; reflexivity); cbn; tauto. Qed.
