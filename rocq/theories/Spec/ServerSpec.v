(** Protocol messages as a client sees them. *)
From Verif Require Import Model.Base Model.Server.

(** The value under a path of member names; the first member of a name counts. *)
Fixpoint at_path (j : json) (ks : list string) : option json :=
  match ks with
  | [] => Some j
  | k :: ks' =>
      match j with
      | JObj l => match find (fun e => String.eqb k (fst e)) l with Some (_, v) => at_path v ks' | None => None end
      | _ => None
      end
  end.

Definition method (d : json) (m : string) : Prop := at_path d ["method"] = Some (JStr m).

(** Texts without the character zero. *)
Definition no_zero (s : string) : Prop := forall p q, s <> p ++ String "000" q.

(** ** Documents *)

Inductive event : Type := Sent (uri text : string) | Closed (uri : string) | Other.

(** What a message says about documents. A change replaces the whole text, as
    the server announces; its changes are applied in order, so the last counts. *)
Inductive says (d : json) : event -> Prop :=
| says_open u t : method d "textDocument/didOpen" ->
    at_path d ["params"; "textDocument"; "uri"] = Some (JStr u) ->
    at_path d ["params"; "textDocument"; "text"] = Some (JStr t) -> says d (Sent u t)
| says_change u t cs c : method d "textDocument/didChange" ->
    at_path d ["params"; "textDocument"; "uri"] = Some (JStr u) ->
    at_path d ["params"; "contentChanges"] = Some (JArr (cs ++ [c])%list) ->
    at_path c ["text"] = Some (JStr t) -> says d (Sent u t)
| says_close u : method d "textDocument/didClose" ->
    at_path d ["params"; "textDocument"; "uri"] = Some (JStr u) -> says d (Closed u)
| says_other : ~ method d "textDocument/didOpen" -> ~ method d "textDocument/didChange" ->
    ~ method d "textDocument/didClose" -> says d Other.

(** Changes that consist of one text. *)
Definition single_change (d : json) : Prop :=
  method d "textDocument/didChange" -> exists c, at_path d ["params"; "contentChanges"] = Some (JArr [c]).

Definition event_plain (e : event) : Prop :=
  match e with Sent u t => no_zero u /\ no_zero t | Closed u => no_zero u | Other => True end.

(** The text of a document after a history. *)
Fixpoint last_text (es : list event) (u : string) (t : option string) : option string :=
  match es with
  | [] => t
  | Sent u' t' :: r => last_text r u (if String.eqb u' u then Some t' else t)
  | Closed u' :: r => last_text r u (if String.eqb u' u then None else t)
  | Other :: r => last_text r u t
  end.

(** ** Replies *)

Definition request_methods : list string :=
  ["initialize"; "textDocument/completion"; "completionItem/resolve"; "textDocument/hover";
   "textDocument/codeLens"; "codeLens/resolve"; "shutdown"].

Definition is_request (d : json) : Prop := exists m, In m request_methods /\ method d m.

(** A reply to [id], and a message that is no reply. *)
Definition reply_to (id : Z) (r : json) : Prop :=
  at_path r ["jsonrpc"] = Some (JStr "2.0") /\ at_path r ["id"] = Some (JInt id) /\
  at_path r ["result"] <> None /\ at_path r ["method"] = None.
Definition no_reply (r : json) : Prop := at_path r ["id"] = None /\ at_path r ["method"] <> None.

Definition int_at (d : json) (ks : list string) (n : Z) : Prop :=
  at_path d ks = Some (JInt n) /\ - 2 ^ 31 <= n < 2 ^ 31.

(** Labels a completion reply contains. *)
Definition offers (r : json) (label : string) : Prop :=
  exists items i, at_path r ["result"] = Some (JArr items) /\ In i items /\ at_path i ["label"] = Some (JStr label).

(** A text in which every macro number fits an int. *)
Definition small_macros (text : string) : Prop :=
  forall p ds q, text = p ++ "#" ++ ds ++ q -> all_chars is_digit ds = true -> digits_val ds <= int_max.

(** Requests of the form the protocol asks for. [offered] are the labels
    received so far, [doc] the texts of the open documents. *)
Inductive good_request (offered : string -> Prop) (doc : string -> option string) (d : json) : Prop :=
| good_plain m : In m ["initialize"; "textDocument/completion"; "shutdown"] -> method d m -> good_request offered doc d
| good_resolve l : method d "completionItem/resolve" -> at_path d ["params"; "label"] = Some (JStr l) ->
    offered l -> good_request offered doc d
| good_hover u line ch : method d "textDocument/hover" -> at_path d ["params"; "textDocument"; "uri"] = Some (JStr u) ->
    int_at d ["params"; "position"; "line"] line -> int_at d ["params"; "position"; "character"] ch ->
    no_zero u -> (forall t, doc u = Some t -> small_macros t) -> good_request offered doc d
| good_lens u : method d "textDocument/codeLens" -> at_path d ["params"; "textDocument"; "uri"] = Some (JStr u) ->
    good_request offered doc d
| good_lens_resolve line : method d "codeLens/resolve" -> int_at d ["params"; "range"; "start"; "line"] line ->
    good_request offered doc d.
