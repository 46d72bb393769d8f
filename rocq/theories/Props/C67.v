(** C67: two numbers of a line are read in the given order. *)
From Verif Require Import Model.Base Model.OrderAttr Spec.OrderSpec Proofs.OrderProofs.

(** The first number is the one behind the first [c1], the second the one behind
    the first [c2] after that; anything else is refused, with a message if a
    letter is there and no number behind it. *)
Theorem C67_order : forall (V : Type) (read : string -> option (V * string)) data c1 c2 a b m o,
  is_graph c1 = true -> is_graph c2 = true ->
  (order_parse read data c1 c2 (a, b) m = o <-> order_says read order_message data c1 c2 a b m o).
Proof. exact @order_parse_says. Qed.
Print Assumptions C67_order.

(** The message shows the line and points at the place. *)
Theorem C67_message : forall a b,
  Forall (fun c => c <> "009"%char) (list_ascii_of_string a) ->
  Forall (fun c => c <> "010"%char /\ c <> "013"%char) (list_ascii_of_string (a ++ b)) ->
  let nl := String "010" EmptyString in
  order_message (a ++ b) b =
  ("Parse error at line 1 column " ++ nat_to_string (Z.of_nat (String.length a) + 1) ++ ":" ++ nl
   ++ "'" ++ a ++ b ++ "'" ++ nl ++ spaces (S (String.length a)) ++ "^- here" ++ nl)%string.
Proof. exact order_message_says. Qed.
Print Assumptions C67_message.

(** The unit test, OrderAttributeParserTest.cpp 35-36, with whole numbers. *)
Definition C67_read (t : string) : option (Z * string) :=
  match span is_digit t with
  | (EmptyString, _) => None
  | (d, r) => Some (digits_val d, r)
  end.
Definition C67_data : string := "N100 G02 G68 X100 V Y200 G72 Z300 M14".

Example C67_ex :
  order_parse C67_read C67_data "N" "G" (0, 0) "" = (true, (100, 2), ""%string) /\
  order_parse C67_read C67_data "G" "N" (0, 0) "" = (false, (2, 0), ""%string) /\
  order_parse C67_read C67_data "N" "V" (0, 0) "" =
    (false, (100, 0), ("Parse error at line 1 column 20:" ++ nl ++ "'" ++ C67_data ++ "'" ++ nl ++ "                    ^- here" ++ nl)%string) /\
  order_says C67_read order_message C67_data "N" "G" 0 0 "" (true, (100, 2), ""%string).
Proof.
  split; [vm_compute; reflexivity|]. split; [vm_compute; reflexivity|]. split; [vm_compute; reflexivity|].
  apply C67_order; vm_compute; reflexivity.
Qed.
