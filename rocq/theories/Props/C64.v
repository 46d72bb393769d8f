(** C64: the words read from a Heidenhain line are the words written in it. *)
From Verif Require Import Model.Base Model.Attr Model.Grammar Model.Heidenhain Spec.Text Spec.HeidenhainSpec.
From Verif Require Import Proofs.HeidenhainLines.
Local Open Scope string_scope.
Local Open Scope Z_scope.

(** An accepted line is nothing but its words, one after the other, and blanks;
    the words form a line, and there is no message. *)
Theorem C64_sound : forall read_id plus_skips was was' data message vs m,
  hh_parse read_id plus_skips (Some was) data message = Ok (was', (true, vs, m)) ->
  m = message /\ line_words vs /\
  exists s rest, data = (s ++ rest)%string /\ written_all read_id vs s rest /\ blanks rest.
Proof. exact hh_sound. Qed.
Print Assumptions C64_sound.

(** Every list of words that is a line can be written, and is read as those
    words. *)
Theorem C64_complete : forall read_id plus_skips was message vs, line_words vs -> ids_fit read_id vs ->
  exists was', hh_parse read_id plus_skips (Some was) (plain_line vs) message = Ok (Some was', (true, vs, message)).
Proof. exact hh_complete. Qed.
Print Assumptions C64_complete.

(** Writing the words of an accepted line again does not change them. *)
Theorem C64_again : forall read_id plus_skips was was1 was2 data message message' vs m,
  hh_parse read_id plus_skips (Some was) data message = Ok (was1, (true, vs, m)) -> ids_fit read_id vs ->
  exists was3, hh_parse read_id plus_skips (Some was2) (plain_line vs) message' = Ok (Some was3, (true, vs, message')).
Proof.
  intros read_id plus_skips was was1 was2 data message message' vs m H F. apply hh_sound in H as (_ & L & _).
  exact (hh_complete read_id plus_skips was2 message' vs L F).
Qed.
Print Assumptions C64_again.

(** A sign and digits read as a number of at most ten digits. *)
Definition C64_id (sign : option ascii) (ds : string) : option Z :=
  match sign with
  | Some "-"%char => None
  | _ => if digits_val ds <=? 2147483647 then Some (digits_val ds) else None
  end.

Definition C64_line : list hattr :=
  [HNumber 12; HGeneral "L" None None None None None None; HGeneral "X" (Some "+"%char) None (Some "10") (Some "."%char) (Some "5") None;
   HGeneral "R" None (Some "Q"%char) (Some "3") None None None; HParam "Q" 200 "=" (Some "-"%char) "2" None None;
   HCycle "CYCL" "DEF" (Some "7") (Some "."%char) (Some "0"); HComment ";" " end" "~"].

Lemma C64_line_words : line_words C64_line.
Proof.
  exists [HNumber 12], (tl C64_line). split; [reflexivity|]. split; [right; eexists; reflexivity|]. split; [discriminate|].
  assert (E : forall w, w = "L" \/ w = "X" \/ w = "R" -> entry_word w).
  { intros w H. right; left. destruct H as [->|[->| ->]]; (split; [discriminate|split; [reflexivity|]]);
    intros [(x & X)|[(x & X)|[(x & X)|(x & X)]]]; discriminate. }
  split.
  { intros a I. cbn in I. repeat (destruct I as [<-|I]; [cbn; tauto|]). destruct I. }
  split.
  { intros a I. cbn in I. repeat (destruct I as [<-|I]; [cbn; unfold sign_opt, only, fraction, digits_opt, only;
      repeat match goal with |- _ /\ _ => split | |- entry_word _ => apply E; tauto end; try lia; try discriminate; auto|]). destruct I. }
  cbn. intuition discriminate.
Qed.

Example C64_ex :
  let data := "12 L X+10.5 R Q3 Q200 = -2 CYCL  DEF7.0; end~" in
  line_words C64_line /\ ids_fit C64_id C64_line /\
  plain_line C64_line = "12 L  X +10.5 R Q3 Q200 = -2 CYCL DEF 7.0 ; end~" /\
  hh_parse C64_id true (Some false) data "" = Ok (Some true, (true, C64_line, "")) /\
  hh_parse C64_id true (Some true) (plain_line C64_line) "" = Ok (Some true, (true, C64_line, "")).
Proof.
  cbv zeta. split; [exact C64_line_words|]. split.
  { intros q id e sg v d v2 I. cbn in I. repeat (destruct I as [I|I]; [try discriminate I|]); [injection I as <- <- <- <- <- <- <-; split; [lia|reflexivity]|destruct I]. }
  repeat split; vm_compute; reflexivity.
Qed.
