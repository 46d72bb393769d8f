(** Framed message streams and what a message handler makes of a sequence of
    messages. *)
From Verif Require Import Model.Base Spec.Text.

Definition line_end : string := String "013" (String "010" "").

(** [s] is the sequence of messages [bs], each with a Content-Length header and
    an empty line before it (LSP base protocol). *)
Inductive framed : list string -> string -> Prop :=
| framed_nil : framed [] ""
| framed_cons b bs n s :
    denotes n (Z.of_nat (String.length b)) -> framed bs s ->
    framed (b :: bs) ("Content-Length: " ++ n ++ line_end ++ line_end ++ b ++ s).

(** Bodies of less than 2^31 characters that do not start with a line end. *)
Definition plain_body (b : string) : Prop :=
  Z.of_nat (String.length b) < 2 ^ 31 /\
  exists c r, b = String c r /\ c <> "013"%char /\ c <> "010"%char.

(** The handler fed with a list of messages: those that reach it, the replies,
    and the state when it still runs at the end. [None]: it asked to exit or
    failed. *)
Fixpoint fed {H} (handle : H -> string -> res (H * list string * bool)) (h : H) (bs : list string)
  : list string * list string * option H :=
  match bs with
  | [] => ([], [], Some h)
  | b :: r =>
      match handle h b with
      | Exc _ => ([b], [], None)
      | Ok (_, out, true) => ([b], out, None)
      | Ok (h', out, false) => let '(d, o, e) := fed handle h' r in (b :: d, (out ++ o)%list, e)
      end
  end.
