(** Codes that are both offered and shown. *)
From Verif Require Import Model.Base Model.MacrosDesc Model.Server Spec.Text Spec.DescSpec Spec.ServerSpec Spec.HoverSpec.

(** A name of a code as it is written without superfluous zeros: digits, and
    perhaps a point and one digit. *)
Definition plain_name (n : string) : Prop :=
  exists ds f, n = ds ++ f /\ ds <> "" /\ all_chars is_digit ds = true /\
    (f = "" \/ exists d, is_digit d = true /\ f = String "." (String d "")) /\
    (forall r, n = String "0" r -> r = "").

(** What a description file says about a name, if anything. *)
Definition says_of (f : desc_file) (n : string) (o : option (string * string)) : Prop :=
  match o with Some td => described f n td | None => undescribed f n end.

(** A text of an item, where there is one. *)
Definition item_text (s : string) : json := if String.eqb s "" then JNull else JStr s.

(** The answer [r] about the item [l] shows title and text, or none. *)
Definition item_shown (r : json) (l : string) (o : option (string * string)) : Prop :=
  at_path r ["result"; "label"] = Some (JStr l) /\
  at_path r ["result"; "detail"] = Some (match o with Some td => item_text (fst td) | None => JNull end) /\
  at_path r ["result"; "documentation"] = Some (match o with Some td => item_text (snd td) | None => JNull end).

(** The number of a word ends before [suf]. *)
Definition number_stops (suf : string) : Prop :=
  match suf with String c _ => is_digit c = false /\ c <> "."%char | "" => True end.
