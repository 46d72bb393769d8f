(** A diagnostic as a client receives it. *)
From Verif Require Import Model.Base Model.NCText Model.Server Spec.ServerSpec.

(** An error at one character of a line, counted from 0, with a text. *)
Definition sent_as (d : diagnostic) (j : json) : Prop :=
  at_path j ["severity"] = Some (JInt 1) /\
  at_path j ["range"; "start"; "line"] = Some (JInt (dg_line d)) /\ at_path j ["range"; "start"; "character"] = Some (JInt (dg_char d)) /\
  at_path j ["range"; "end"; "line"] = Some (JInt (dg_line d)) /\ at_path j ["range"; "end"; "character"] = Some (JInt (dg_char d)) /\
  at_path j ["message"] = Some (JStr (dg_text d)).
