(** The read loop of the language server (nclangsrv/nclangsrv.cpp) and the
    framing of its output (nclangsrv/JsonMessageHandler.cpp). *)
From Verif Require Import Model.Base Model.NCText.

Definition cr : ascii := "013".
Definition crlf : string := String cr (String lf "").

Definition header : string := "Content-Length: ".

Definition is_newline (c : ascii) : bool := Ascii.eqb c cr || Ascii.eqb c lf.

(** nclangsrv.cpp 113-127: [str] is what was collected so far; [None] at the
    end of the input. *)
Fixpoint find_header (str s : string) : option string :=
  match s with
  | EmptyString => None
  | String c s' =>
      if String.eqb str "" && negb (Ascii.eqb c "C") then find_header str s'
      else
        let str := str ++ String c EmptyString in
        if String.eqb str header then Some s' else find_header str s'
  end.

(** nclangsrv.cpp 129-136: the text up to the next line end, which is consumed. *)
Definition read_line (s : string) : string * string :=
  let '(a, r) := span (fun c => negb (is_newline c)) s in
  (a, match r with EmptyString => EmptyString | String _ r' => r' end).

(** [std::istream::read]: at most [n] characters. *)
Fixpoint take (n : nat) (s : string) : string * string :=
  match n, s with
  | S n', String c s' => let '(a, r) := take n' s' in (String c a, r)
  | _, _ => (EmptyString, s)
  end.

(** nclangsrv.cpp 147-160: the first character that is no line end, then
    [length - 1] more. At the end of the input the stream has failed and nothing
    more is read. *)
Definition read_body (length : Z) (s : string) : string * string :=
  match snd (span is_newline s) with
  | EmptyString => (EmptyString, EmptyString)
  | String c r => let '(b, r') := take (Z.to_nat (length - 1)) r in (String c b, r')
  end.

(** nclangsrv.cpp 113-160, one turn of the loop: [None] when the input ends
    before a header, otherwise what is handed to the message handler (nothing
    for length 0) and the remaining input. *)
Definition next_message (s : string) : res (option (option string * string)) :=
  match find_header EmptyString s with
  | None => Ok None
  | Some s =>
      let '(str, s) := read_line s in
      do n <- atoi str;
      let length := to_u32 n in
      if length =? 0 then Ok (Some (None, s))
      else let '(b, s) := read_body length s in Ok (Some (Some b, s))
  end.

(** JsonMessageHandler.cpp 359, 485, ... (MSG_ENDL of line 27; on Windows the
    text mode of the stream makes the same of a line feed). *)
Definition frame (body : string) : string :=
  header ++ nat_to_string (Z.of_nat (String.length body)) ++ crlf ++ crlf ++ body.

(** How the server stands after the input: still reading (at the end of the
    input the loop never ends), left on request, or ended by an exception. *)
Inductive ending : Type := Waiting | Exited | Crashed (e : exn).

Section Serve.
Variable H : Type.
(** One message: new state, replies, and whether to exit (JsonMessageHandler). *)
Variable handle : H -> string -> res (H * list string * bool).

Fixpoint write_all (out : list string) : string :=
  match out with [] => EmptyString | b :: r => frame b ++ write_all r end.

(** nclangsrv.cpp 105-175: delivered messages, output, ending. The sleeps, the
    logger and the failure to allocate a large buffer are left out. *)
Fixpoint serve_loop (fuel : nat) (h : H) (s : string) : list string * string * ending :=
  match fuel with
  | O => ([], EmptyString, Waiting)
  | S f =>
      match next_message s with
      | Exc e => ([], EmptyString, Crashed e)
      | Ok None => ([], EmptyString, Waiting)
      | Ok (Some (None, s')) => serve_loop f h s'
      | Ok (Some (Some b, s')) =>
          match handle h b with
          | Exc e => ([b], EmptyString, Crashed e)
          | Ok (h', out, true) => ([b], write_all out, Exited)
          | Ok (h', out, false) =>
              let '(bs, o, e) := serve_loop f h' s' in (b :: bs, write_all out ++ o, e)
          end
      end
  end.

(** Every turn consumes input (proved as [next_shorter]), so the length of the
    input is fuel enough. *)
Definition serve (h : H) (s : string) : list string * string * ending := serve_loop (S (String.length s)) h s.

End Serve.
Arguments serve_loop {H}.
Arguments serve {H}.
