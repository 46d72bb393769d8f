(** What the extension is meant to do with the settings. *)
From Verif Require Import Model.Base Model.Client.
Local Open Scope string_scope.
Local Open Scope list_scope.

(** The value in force: of the workspace, else of the user, else the default. *)
Inductive in_force (c : config) (k : setting) : option sval -> Prop :=
| force_workspace : forall v, c Workspace k = Some v -> in_force c k (Some v)
| force_user : forall v, c Workspace k = None -> c User k = Some v -> in_force c k (Some v)
| force_default : c Workspace k = None -> c User k = None ->
    in_force c k (match k with SMacros => None | SPathTime => Some (SBool true) | _ => Some (SText "") end).

(** Every value has the type of its setting. *)
Definition typed (c : config) : Prop :=
  forall l k v, c l k = Some v -> match k with SPathTime => exists b, v = SBool b | _ => exists s, v = SText s end.

(** The text or truth value in force; a missing text is empty. *)
Definition text_in_force (c : config) (k : setting) (t : string) : Prop :=
  in_force c k (Some (SText t)) \/ (in_force c k None /\ t = "").

(** The server was given the settings. *)
Definition given (c : config) (o : options) : Prop :=
  text_in_force c SNcsetting (op_ncsetting o) /\ text_in_force c SLog (op_log o) /\ text_in_force c SMacros (op_macros o) /\
  in_force c SPathTime (Some (SBool (op_path o))).

(** A text that begins with a dash. *)
Definition dashed (t : string) : Prop := exists r, t = String "-" r.

(** How often something was done. *)
Definition count {A} (f : A -> bool) (l : list A) : nat := List.length (filter f l).

(** A name with its last extension taken off. *)
Inductive without_extension : string -> string -> Prop :=
| we_some : forall b e, b <> "" -> (forall x y, e <> x ++ String "." y)%string -> without_extension (b ++ String "." e) b
| we_none : forall f, (forall x y, x <> "" -> f <> x ++ String "." y)%string -> without_extension f f.

(** No white space at either end. *)
Definition blank (c : ascii) : Prop := c = " "%char \/ exists n, (9 <= n <= 13)%nat /\ c = ascii_of_nat n.
Fixpoint all_blank (s : string) : Prop := match s with EmptyString => True | String c r => blank c /\ all_blank r end.
Definition trimmed (s t : string) : Prop :=
  (exists x y, all_blank x /\ all_blank y /\ s = x ++ t ++ y)%string /\
  (forall c r, t = String c r -> ~ blank c) /\ (forall c r, t = (r ++ String c "")%string -> ~ blank c).
