(** Code lenses and completion lists. *)
From Verif Require Import Model.Base Model.Server Spec.ServerSpec.

(** A request for the code lenses of a document, and one to resolve a lens. *)
Definition asks_lens (d : json) (u : string) : Prop :=
  method d "textDocument/codeLens" /\ at_path d ["params"; "textDocument"; "uri"] = Some (JStr u).
Definition resolves (d : json) (range : json) (line : Z) : Prop :=
  method d "codeLens/resolve" /\ at_path d ["params"; "range"] = Some range /\ at_path range ["start"; "line"] = Some (JInt line).

(** The reply shows [title] at [range]. *)
Definition lens_shown (r range : json) (title : string) : Prop :=
  at_path r ["result"; "range"] = Some range /\ at_path r ["result"; "command"; "title"] = Some (JStr title).

(** The items of a completion reply have the labels [ls], numbered from one. *)
Definition items (r : json) (ls : list string) : Prop :=
  exists js, at_path r ["result"] = Some (JArr js) /\ List.length js = List.length ls /\
    forall i l, nth_error ls i = Some l -> exists j, nth_error js i = Some j /\
      at_path j ["label"] = Some (JStr l) /\ at_path j ["data"] = Some (JInt (Z.of_nat i + 1)).

(** Some document has been sent. *)
Definition some_text (es : list event) : Prop := exists u t, In (Sent u t) es.
