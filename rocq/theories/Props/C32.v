(** C32: message framing. *)
From Verif Require Import Model.Base Model.NCText Model.Framing Spec.Text Spec.FramingSpec Proofs.FramingProofs.

(** Whatever the message handler does: if the input starts with framed messages
    [bs] that do not start with a line end, exactly these reach the handler, in
    order, each once, until it asks to exit or fails; the replies are framed;
    and the server then goes on with the rest of the input. *)
Theorem C32_partial : forall H (handle : H -> string -> res (H * list string * bool)) bs s1,
  framed bs s1 -> Forall plain_body bs -> forall h s2,
  exists o1, framed (snd (fst (fed handle h bs))) o1 /\
  match fed handle h bs with
  | (d, _, None) => exists e, serve handle h (s1 ++ s2) = (d, o1, e) /\ e <> Waiting
  | (d, _, Some h') => let '(d2, o2, e) := serve handle h' s2 in
                       serve handle h (s1 ++ s2) = ((d ++ d2)%list, o1 ++ o2, e)
  end.
Proof. exact @serve_framed. Qed.
Print Assumptions C32_partial.

(** A handler that always goes on gets all messages. *)
Theorem C32_all : forall H (next : H -> string -> H) (reply : H -> string -> list string) bs s h,
  framed bs s -> Forall plain_body bs ->
  fst (fst (serve (fun h m => Ok (next h m, reply h m, false)) h s)) = bs /\
  snd (serve (fun h m => Ok (next h m, reply h m, false)) h s) = Waiting.
Proof.
  intros H next reply bs s h F P.
  set (hd := fun h m => Ok (next h m, reply h m, false)).
  assert (E : forall bs h, exists o h', fed hd h bs = (bs, o, Some h')).
  { clear. induction bs as [|b bs IH]; intros h; cbn; [eauto|]. destruct (IH (next h b)) as (o & h' & ->). eauto. }
  destruct (E bs h) as (o & h' & E1). destruct (serve_framed hd bs s F P h "") as (o1 & _ & K).
  rewrite E1 in K. rewrite StringFacts.string_app_nil in K.
  assert (W : serve hd h' "" = ([], "", Waiting)) by reflexivity. rewrite W, app_nil_r in K. now rewrite K.
Qed.
Print Assumptions C32_all.

(** For any input at all the output is the framed list of the handler's replies
    to the messages that were delivered. *)
Theorem C32_output : forall H (handle : H -> string -> res (H * list string * bool)) h s,
  let '(d, o, e) := serve handle h s in
  fst (fst (fed handle h d)) = d /\ framed (snd (fst (fed handle h d))) o.
Proof. exact @serve_output. Qed.
Print Assumptions C32_output.

(** A framed text has only one list of messages. *)
Theorem C32_unique : forall b1 b2 s, framed b1 s -> framed b2 s -> b1 = b2.
Proof. intros b1 b2 s H1 H2. exact (framed_unique b1 s H1 b2 H2). Qed.
Print Assumptions C32_unique.

Definition listen : unit -> string -> res (unit * list string * bool) := fun _ _ => Ok (tt, [], false).

(** A body that starts with a line end, which JSON allows, loses it, and swallows
    the beginning of the next message, which is lost. *)
Theorem C32_refuted : exists bs s, framed bs s /\ Forall (fun b => Z.of_nat (String.length b) < 100) bs /\
  fst (fst (serve listen tt s)) <> bs /\ List.length (fst (fst (serve listen tt s))) <> List.length bs.
Proof.
  exists [String lf "{}"; "[1]"]. eexists. split.
  - apply framed_cons with (n := "3"); [repeat split; discriminate|].
    apply framed_cons with (n := "3"); [repeat split; discriminate|]. constructor.
  - split; [repeat constructor|]. split; vm_compute; discriminate.
Qed.
Print Assumptions C32_refuted.

(** The other header field of the protocol is not skipped: what is delivered
    then is the header field, not the body. *)
Theorem C32_content_type_refuted :
  fst (fst (serve listen tt ("Content-Length: 2" ++ crlf ++ "Content-Type: text" ++ crlf ++ crlf ++ "{}"))) = ["Co"].
Proof. vm_compute. reflexivity. Qed.
Print Assumptions C32_content_type_refuted.

Example C32_ex :
  let s := frame "{""id"":1}" ++ frame "[]" in
  framed ["{""id"":1}"; "[]"] s /\ Forall plain_body ["{""id"":1}"; "[]"] /\
  serve (fun h m => Ok (S h, [m], Nat.eqb h 5)) 0%nat s = (["{""id"":1}"; "[]"], s, Waiting) /\
  serve (fun h m => Ok (S h, [m], Nat.eqb h 0)) 0%nat s = (["{""id"":1}"], frame "{""id"":1}", Exited).
Proof.
  cbv zeta. split; [exact (write_framed ["{""id"":1}"; "[]"])|]. split; [|split; vm_compute; reflexivity].
  repeat constructor; eexists _, _; (split; [reflexivity|split; discriminate]).
Qed.
