(** What hovering over a word of a line shows. *)
From Verif Require Import Model.Base Model.Server Spec.Text Spec.DescSpec Spec.ServerSpec.

Definition code_letter (c : ascii) : Prop := c = "G"%char \/ c = "g"%char \/ c = "M"%char \/ c = "m"%char.

(** The fraction [f] of a code before [suf]: nothing, a point, or a point and a
    digit, as much as there is. *)
Definition fraction_stop (f suf : string) : Prop :=
  (f = "" /\ match suf with String c _ => is_digit c = false /\ c <> "."%char | "" => True end) \/
  (f = "." /\ no_digit suf) \/
  (exists d, is_digit d = true /\ f = String "." (String d "")).

(** [w], before [suf], is the code with letter [c] and number [num]. *)
Definition code_word (w suf : string) (c : ascii) (num : string) : Prop :=
  exists ds f, w = String c (ds ++ f) /\ num = ds ++ f /\ code_letter c /\ ds <> "" /\ all_chars is_digit ds = true /\ fraction_stop f suf.

(** [w], before [suf], is the macro variable with number [n]. *)
Definition macro_word (w suf : string) (n : Z) : Prop :=
  exists ds, w = "#" ++ ds /\ denotes ds n /\ no_digit suf.

(** [t] is [s] without leading zeros; a single zero stays. *)
Definition stripped (s t : string) : Prop :=
  exists z, s = z ++ t /\ all_chars (fun c => Ascii.eqb c "0") z = true /\ t <> "" /\
    (forall r, t = String "0" r -> r = "").

Definition line_feed : ascii := "010".

(** Every line feed twice. *)
Definition paragraphs (s : string) : string :=
  fold_right (fun c r => if Ascii.eqb c line_feed then String c (String c r) else String c r) "" (list_ascii_of_string s).

Definition break : string := String line_feed (String line_feed "").

(** Title and text below a headline. *)
Definition note (headline : string) (td : string * string) : string :=
  "**" ++ headline ++ ": " ++ fst td ++ "** " ++ break ++ "---" ++ break ++ paragraphs (snd td).

(** The cursor at [ch] is on the part [w] behind [pre]. *)
Definition under (ch : Z) (pre w : string) : Prop :=
  Z.of_nat (String.length pre) <= ch < Z.of_nat (String.length pre + String.length w).

(** The reply shows [text] for the characters [a] to [b] of [line]. *)
Definition shows (r : json) (text : string) (line : Z) (a b : nat) : Prop :=
  at_path r ["result"; "contents"] = Some (JStr text) /\
  at_path r ["result"; "range"; "start"; "line"] = Some (JInt line) /\
  at_path r ["result"; "range"; "start"; "character"] = Some (JInt (Z.of_nat a)) /\
  at_path r ["result"; "range"; "end"; "line"] = Some (JInt line) /\
  at_path r ["result"; "range"; "end"; "character"] = Some (JInt (Z.of_nat b)).

(** A request to hover. *)
Definition hovers (d : json) (u : string) (line ch : Z) : Prop :=
  method d "textDocument/hover" /\ at_path d ["params"; "textDocument"; "uri"] = Some (JStr u) /\
  at_path d ["params"; "position"; "line"] = Some (JInt line) /\
  at_path d ["params"; "position"; "character"] = Some (JInt ch).
