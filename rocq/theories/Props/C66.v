(** C66: which Heidenhain lines are turned down. *)
From Verif Require Import Model.Base Model.Attr Model.Heidenhain Spec.Text Spec.HeidenhainSpec.
From Verif Require Import Proofs.HeidenhainLines Props.C64.
Local Open Scope string_scope.
Local Open Scope Z_scope.

(** A line of blanks, or with nothing but a line number. *)
Theorem C66_bare : forall read_id plus_skips was data message g ok vs m,
  hh_parse read_id plus_skips (Some was) data message = Ok (g, (ok, vs, m)) ->
  all_chars (fun c => is_digit c || is_blank c) data = true -> ok = false.
Proof. exact bare_rejected. Qed.
Print Assumptions C66_bare.

(** A name is turned down if and only if it begins with [CYCL], [Q], [BEGIN] or
    [END]. *)
Theorem C66_name : forall read_id plus_skips was t message g ok vs m, letters t -> t <> "" ->
  hh_parse read_id plus_skips (Some was) t message = Ok (g, (ok, vs, m)) -> (ok = true <-> ~ reserved t).
Proof. exact letters_accepted. Qed.
Print Assumptions C66_name.

(** A comment is turned down if and only if it has a [~] that is not at its
    end. *)
Theorem C66_comment : forall read_id plus_skips was v message g ok vs m,
  hh_parse read_id plus_skips (Some was) (";" ++ v) message = Ok (g, (ok, vs, m)) ->
  (ok = true <-> forall a b, v = (a ++ String "~" b)%string -> b = "").
Proof. exact comment_accepted. Qed.
Print Assumptions C66_comment.

(** What has to follow the words that are reserved. *)
Theorem C66_cycle : forall read_id plus_skips was r g vs m message,
  hh_parse read_id plus_skips (Some was) ("CYCL" ++ r) message = Ok (g, (true, vs, m)) ->
  exists b w x, blanks1 b /\ (w = "DEF" \/ w = "CALL") /\ r = (b ++ w ++ x)%string.
Proof. exact cycle_demands. Qed.
Print Assumptions C66_cycle.

Theorem C66_parameter : forall read_id plus_skips was r g vs m message,
  hh_parse read_id plus_skips (Some was) ("Q" ++ r) message = Ok (g, (true, vs, m)) ->
  exists sg ds b x, sign_opt sg /\ ds <> "" /\ all_chars is_digit ds = true /\ read_id sg ds <> None /\ blanks b /\
    r = (opt_chr sg ++ ds ++ b ++ "=" ++ x)%string.
Proof. exact param_demands. Qed.
Print Assumptions C66_parameter.

Theorem C66_program : forall read_id plus_skips was be r g vs m message,
  hh_parse read_id plus_skips (Some was) (begin_text be ++ r) message = Ok (g, (true, vs, m)) ->
  exists b1 b2 name b3 u x, blanks1 b1 /\ blanks1 b2 /\ all_chars name_char name = true /\ blanks1 b3 /\
    ~ starts name_char x /\ r = (b1 ++ "PGM" ++ b2 ++ name ++ b3 ++ unit_text u ++ x)%string.
Proof. exact program_demands. Qed.
Print Assumptions C66_program.

Definition C66_verdict (t : string) : option bool :=
  match hh_parse C64_id true (Some false) t "" with Ok (_, (ok, _, _)) => Some ok | Exc _ => None end.

(** Names are longer than the word that is reserved. *)
Theorem C66_longer_refuted :
  ~ forall t, letters t -> ~ In t ["CYCL"; "Q"; "BEGIN"; "END"] -> t <> "" -> C66_verdict t = Some true.
Proof. intro H. specialize (H "ENDLESS" eq_refl). vm_compute in H. assert (X : Some false = Some true) by (apply H; [intuition discriminate|discriminate]). discriminate. Qed.
Print Assumptions C66_longer_refuted.

(** A number that begins with a point loses it to the word in front; with a blank
    between them it does not. *)
Theorem C66_point_refuted :
  hh_parse C64_id true (Some false) "X.5" "" = Ok (Some false, (true, [HGeneral "X." None None (Some "5") None None None], "")) /\
  hh_parse C64_id true (Some false) "X .5" "" = Ok (Some false, (true, [HGeneral "X" None None None (Some "."%char) (Some "5") None], "")).
Proof. split; vm_compute; reflexivity. Qed.
Print Assumptions C66_point_refuted.

Example C66_ex :
  map C66_verdict ["12 "; "  "; "TOOL"; "CYCLE"; "QUIT"; "ENDLESS"; "; a~"; "; a~b"; "CYCL CALL"; "CYCLDEF"; "Q1 = 2"; "Q 1 = 2"; "BEGIN PGM A_1 MM"; "BEGIN PGM A_1 MM L"] =
    [Some false; Some false; Some true; Some false; Some false; Some false; Some true; Some false; Some true; Some false; Some true; Some false; Some true; Some false] /\
  letters "TOOL" /\ ~ reserved "TOOL" /\ letters "ENDLESS" /\ reserved "ENDLESS".
Proof.
  split; [vm_compute; reflexivity|]. split; [reflexivity|]. split; [intros [(x & X)|[(x & X)|[(x & X)|(x & X)]]]; discriminate|].
  split; [reflexivity|]. right; right; right. now exists "LESS".
Qed.
