(** Documents, their lines and the place of a diagnostic. *)
From Verif Require Import Model.Base Model.Double Model.NCText Spec.Text Spec.DoubleSpec.

Fixpoint concat_str (l : list string) : string :=
  match l with [] => "" | s :: r => s ++ concat_str r end.

(** [s] does not contain the character [c]. *)
Definition without (c : ascii) (s : string) : Prop := forall a b, s <> a ++ String c b.

(** [s] ends with a white space character. *)
Definition ends_blank (s : string) : Prop := exists a c, s = a ++ String c "" /\ is_space c = true.

(** [t] is [s] without its trailing white space. *)
Definition trimmed (s t : string) : Prop :=
  (exists w, s = t ++ w /\ all_chars is_space w = true) /\ ~ ends_blank t.

(** The text [code] consists of the segments [segs], separated by line feeds;
    a line feed at the very end starts no further segment. *)
Definition segments (code : string) (segs : list string) : Prop :=
  Forall (without lf) segs /\
  (code = concat_str (map (fun s => s ++ String lf "") segs) \/
   exists init last, segs = (init ++ [last])%list /\ last <> "" /\
     code = concat_str (map (fun s => s ++ String lf "") init) ++ last).

(** [x] written with a sign, hours when there are any, minutes, seconds and
    milliseconds stands for [ms] milliseconds. *)
Definition clock (x : string) (ms : Z) : Prop :=
  exists sign fields m s f h, x = sign ++ fields /\
    (ms < 0 /\ sign = "-" \/ 0 <= ms /\ sign = "") /\
    (h = 0 /\ fields = m ++ ":" ++ s ++ "." ++ f /\ (0 < Z.of_nat (String.length m) <= 2) \/
     exists hs, denotes hs h /\ 0 < h /\ fields = hs ++ ":" ++ m ++ ":" ++ s ++ "." ++ f /\ String.length m = 2%nat) /\
    String.length s = 2%nat /\ String.length f = 3%nat /\
    exists mv sv fv, denotes m mv /\ denotes s sv /\ denotes f fv /\
      0 <= mv < 60 /\ 0 <= sv < 60 /\ 0 <= fv < 1000 /\
      Z.abs ms = ((h * 60 + mv) * 60 + sv) * 1000 + fv.

(** A substring. *)
Definition occurs (p s : string) : Prop := exists a b, s = a ++ p ++ b.

(** The verdicts of the line parser on the lines that are not empty: line
    number, text of the line, message when it was rejected.  An exception ends
    them. *)
Fixpoint verdicts (p : line_parser) (st : lp_state p) (n : Z) (lines : list string)
  : list (Z * string * option string) :=
  match lines with
  | [] => []
  | l :: rest =>
      if String.eqb l "" then verdicts p st (n + 1) rest
      else match lp_parse p st n l with
           | Ok (ok, m, st') => (n, l, if ok then None else Some m) :: verdicts p st' (n + 1) rest
           | Exc _ => []
           end
  end.

(** The rejected ones. *)
Fixpoint rejected (v : list (Z * string * option string)) : list (Z * string * string) :=
  match v with
  | [] => []
  | (n, l, Some m) :: r => (n, l, m) :: rejected r
  | (_, _, None) :: r => rejected r
  end.

(** Messages of the parser for line [n] with text [l] that the server places
    correctly, and the zero-based column they are placed at: nothing; "1:c:
    text" with a column; any other text that does not start with white space, a
    digit or a sign.  None may contain "line 1"; and on the first line, where a
    diagnostic without column and text is not published, the text up to the next
    colon must not be blank. *)
Inductive located (n : Z) (l m : string) : Z -> Prop :=
| at_nothing : m = "" -> (1 < n \/ without ":" l) -> located n l m 0
| at_column c cs text rest : m = "1:" ++ cs ++ ":" ++ text ++ rest ->
    denotes cs c -> 1 <= c < 2 ^ 31 ->
    without ":" text -> (rest = "" \/ exists r, rest = ":" ++ r) ->
    (1 < n \/ 1 < c \/ ~ all_chars is_space text = true) -> ~ occurs "line 1" m ->
    text ++ rest <> "" ->
    located n l m (c - 1)
| at_text a r : m = String a r -> is_space a = false -> is_digit a = false -> a <> "+"%char -> a <> "-"%char ->
    (1 < n \/ without ":" m) -> ~ occurs "line 1" m -> located n l m 0.

(** A summary line lists, in this order, the items whose guard holds. *)
Definition listed (items : list (Prop * string)) (s : string) : Prop :=
  exists shown : list string, s = concat_str shown /\
  (fix pick (i : list (Prop * string)) (l : list string) : Prop :=
     match i with
     | [] => l = []
     | (p, t) :: i' => (p /\ exists l', l = t :: l' /\ pick i' l') \/ (~ p /\ pick i' l)
     end) items shown.

(** At least one hundredth (the double nearest to it). *)
Definition noticeable (x : dbl) : Prop := dgeb x tolerance = true.

(** Paths below 10^30 and times below 2^62 milliseconds, either sign. *)
Definition moderate_path (x : dbl) : Prop := finite x /\ Z.abs (sval x) < scaled (10 ^ 30).
Definition moderate_time (x : dbl) : Prop := finite x /\ 1000 * Z.abs (sval x) < scaled (2 ^ 62).
