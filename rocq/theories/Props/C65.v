(** C65: what is said about a rejected Heidenhain line. *)
From Verif Require Import Model.Base Model.Attr Model.Heidenhain Spec.Text Spec.NCTextSpec Spec.HeidenhainSpec.
From Verif Require Import Proofs.HeidenhainLines Props.C64.
Local Open Scope string_scope.
Local Open Scope Z_scope.

(** The message names a place in the line and quotes what follows; the words
    handed out stand in front of that place. *)
Theorem C65_place : forall read_id plus_skips was was' data message vs m,
  hh_parse read_id plus_skips (Some was) data message = Ok (was', (false, vs, m)) ->
  exists s b rest, data = (s ++ b ++ rest)%string /\ written_all read_id vs s (b ++ rest) /\
    (forall a, In a vs -> proper a) /\ names_place m (s ++ b) rest.
Proof. exact hh_rejected. Qed.
Print Assumptions C65_place.

(** There is a message if and only if the line is rejected. *)
Theorem C65_message : forall read_id plus_skips was data g ok vs m,
  hh_parse read_id plus_skips (Some was) data "" = Ok (g, (ok, vs, m)) -> (ok = true <-> m = "").
Proof. exact hh_message. Qed.
Print Assumptions C65_message.

(** The lines read before have no influence, and the parser only remembers
    whether there has been a cycle. *)
Theorem C65_history : forall read_id plus_skips was data message, exists ok vs m,
  hh_parse read_id plus_skips (Some was) data message = Ok (Some (was || cycles vs), (ok, vs, m)) /\
  hh_parse read_id plus_skips (Some false) data message = Ok (Some (cycles vs), (ok, vs, m)).
Proof. exact hh_state. Qed.
Print Assumptions C65_history.

(** Callers of the C interface get the verdict and the message. *)
Theorem C65_caller : forall read_id plus_skips was data, exists was' ok vs m,
  hh_parse read_id plus_skips (Some was) data "" = Ok (Some was', (ok, vs, m)) /\
  hh_parse_value read_id plus_skips (Some was) data = Ok (Some was', (ok, if ok then None else Some m)).
Proof.
  intros read_id plus_skips was data. destruct (hh_state read_id plus_skips was data "") as (ok & vs & m & H & _).
  exists (was || cycles vs), ok, vs, m. split; [exact H|]. unfold hh_parse_value. rewrite H. cbn. repeat f_equal.
  pose proof (hh_message _ _ _ _ _ _ _ _ H) as M. destruct (String.eqb_spec m "") as [E|E]; destruct ok; try reflexivity.
  - apply M in E. discriminate.
  - elim E. now apply M.
Qed.
Print Assumptions C65_caller.

(** Without the function that makes the grammar the parser has none. *)
Theorem C65_no_grammar_refuted : forall read_id plus_skips, exists e,
  hh_parse_value read_id plus_skips None "L X1" = Exc (EUB e).
Proof. intros. eexists. reflexivity. Qed.
Print Assumptions C65_no_grammar_refuted.

Example C65_ex :
  hh_parse C64_id true (Some false) "12 L X+10 CYCL DEG 7" "" =
    Ok (Some false, (false, [HNumber 12; HGeneral "L" None None None None None None; HGeneral "X" (Some "+"%char) None (Some "10") None None None], "1:16: DEG 7")) /\
  hh_parse_value C64_id true (Some false) "12 L X+10 CYCL DEG 7" = Ok (Some false, (false, Some "1:16: DEG 7")) /\
  names_place "1:16: DEG 7" "12 L X+10 CYCL " "DEG 7" /\
  hh_parse C64_id true (Some false) "CYCL DEF 7 L @" "" =
    Ok (Some true, (false, [HCycle "CYCL" "DEF" (Some "7") None None; HGeneral "L" None None None None None None], "1:14: @")).
Proof.
  repeat split; try (vm_compute; reflexivity). exists 1, 16. repeat split; auto; try lia.
Qed.
