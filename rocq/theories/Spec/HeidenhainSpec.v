(** Vocabulary for the statements about Heidenhain lines: what the words of a
    line are, how each is written, and which lists of words are lines. *)
From Verif Require Import Model.Base Model.Heidenhain Spec.Text Spec.NCTextSpec.

Definition blanks (s : string) : Prop := all_chars is_blank s = true.
Definition blanks1 (s : string) : Prop := s <> "" /\ blanks s.

Definition letter (c : ascii) : bool :=
  ((65 <=? code c) && (code c <=? 90)) || ((97 <=? code c) && (code c <=? 122)).
Definition name_char (c : ascii) : bool := letter c || is_digit c || Ascii.eqb c "_".
Definition word_char (c : ascii) : bool := letter c || Ascii.eqb c "." || Ascii.eqb c ":" || Ascii.eqb c "/".

Definition begins (w s : string) : Prop := exists r, s = (w ++ r)%string.
Definition starts (p : ascii -> bool) (s : string) : Prop := match s with String c _ => p c = true | EmptyString => False end.

(** ** Words *)

(** The words of an ordinary entry: a name out of a fixed list, letters and
    [.:/] that are not taken for something else, [#], [=], or letters and digits
    in quotes. *)
Definition fixed_names : list string :=
  ["K1X"; "K1Y"; "K1Z"; "K2X"; "K2Y"; "K2Z"; "K3X"; "K3Y"; "K3Z";
   "P01"; "P02"; "P03"; "P04"; "P05"; "P06"; "P07"; "P1X"; "P1Y"].

Definition reserved (w : string) : Prop := begins "CYCL" w \/ begins "Q" w \/ begins "BEGIN" w \/ begins "END" w.

Definition entry_word (w : string) : Prop :=
  In w fixed_names \/
  (w <> "" /\ all_chars word_char w = true /\ ~ reserved w) \/
  w = "#" \/ w = "=" \/
  exists v, v <> "" /\ all_chars (fun c => letter c || is_digit c) v = true /\ w = ("""" ++ v ++ """")%string.

Definition sign_opt (o : option ascii) : Prop := o = None \/ o = Some "-"%char \/ o = Some "+"%char.
Definition only (c : ascii) (o : option ascii) : Prop := o = None \/ o = Some c.
Definition digits_opt (o : option string) : Prop :=
  match o with Some ds => ds <> "" /\ all_chars is_digit ds = true | None => True end.
(** Digits behind a point only. *)
Definition fraction (d : option ascii) (v2 : option string) : Prop :=
  only "." d /\ digits_opt v2 /\ (d = None -> v2 = None).

Definition proper (a : hattr) : Prop :=
  match a with
  | HNumber n => 0 <= n <= 4294967295
  | HComment c v t => c = ";"%char /\ all_chars (fun x => negb (Ascii.eqb x "~")) v = true /\ (t = zero \/ t = "~"%char)
  | HProgram _ name _ => name <> "" /\ all_chars name_char name = true
  | HGeneral w sg nm v d v2 tl =>
      entry_word w /\ sign_opt sg /\ only "Q" nm /\ digits_opt v /\ fraction d v2 /\ only "~" tl
  | HCycle w1 w2 v d v2 => w1 = "CYCL" /\ (w2 = "DEF" \/ w2 = "CALL") /\ digits_opt v /\ fraction d v2
  | HParam q _ e sg v d v2 =>
      q = "Q" /\ e = "="%char /\ sign_opt sg /\ all_chars is_digit v = true /\ fraction d v2
  end.

Definition begin_text (b : begin_end) : string := match b with BEbegin => "BEGIN" | BEend => "END" end.
Definition unit_text (u : program_unit) : string := match u with Umm => "MM" | Uinch => "INCH" end.

(** [s] is one way to write the word [a] in front of [rest]. *)
Definition written (read_id : option ascii -> string -> option Z) (a : hattr) (s rest : string) : Prop :=
  match a with
  | HNumber n => exists ds c, denotes ds n /\ is_blank c = true /\ s = (ds ++ String c "")%string
  | HComment c v t => rest = "" /\ s = (String c v ++ (if Ascii.eqb t zero then "" else String t ""))%string
  | HProgram be name u =>
      exists b1 b2 b3 e, blanks1 b1 /\ blanks1 b2 /\ blanks1 b3 /\
        all_chars is_space e = true /\ (e = "" -> rest = "") /\
        s = (begin_text be ++ b1 ++ "PGM" ++ b2 ++ name ++ b3 ++ unit_text u ++ e)%string
  | HGeneral w sg nm v d v2 tl =>
      exists b, blanks b /\
        s = (w ++ b ++ opt_chr sg ++ opt_chr nm ++ opt_str v ++ opt_chr d ++ opt_str v2 ++ opt_chr tl)%string
  | HCycle w1 w2 v d v2 =>
      exists b1 b2, blanks1 b1 /\ blanks b2 /\
        s = (w1 ++ b1 ++ w2 ++ b2 ++ opt_str v ++ opt_chr d ++ opt_str v2)%string
  | HParam q id e sg v d v2 =>
      exists isg ds b1 b2, sign_opt isg /\ ds <> "" /\ all_chars is_digit ds = true /\ read_id isg ds = Some id /\
        blanks b1 /\ blanks b2 /\
        s = (q ++ opt_chr isg ++ ds ++ b1 ++ String e "" ++ b2 ++ opt_chr sg ++ v ++ opt_chr d ++ opt_str v2)%string
  end.

(** The words [vs] one after the other, with blanks anywhere between them, in
    front of [rest]. *)
Fixpoint written_all (read_id : option ascii -> string -> option Z) (vs : list hattr) (s rest : string) : Prop :=
  match vs with
  | [] => s = ""
  | a :: vs' => exists b s1 s2, blanks b /\ s = (b ++ s1 ++ s2)%string /\
                  written read_id a s1 (s2 ++ rest)%string /\ written_all read_id vs' s2 rest
  end.

(** ** Lines *)

(** What a word begins with. *)
Definition front (a : hattr) : string :=
  match a with
  | HNumber _ => "0"
  | HComment c _ _ => String c ""
  | HProgram be _ _ => begin_text be
  | HGeneral w _ _ _ _ _ _ => w
  | HCycle w1 _ _ _ _ => w1
  | HParam q _ _ _ _ _ _ => q
  end.

(** Neighbours that cannot be told apart: behind an entry without a value a
    parameter or a point belongs to the entry; behind a cycle or a parameter
    without a value a point does; behind a program header no name may follow;
    nothing follows a comment. *)
Definition clash (a b : hattr) : Prop :=
  match a with
  | HGeneral _ None None None None None None => starts (fun c => Ascii.eqb c "Q" || Ascii.eqb c ".") (front b)
  | HCycle _ _ None None None => starts (Ascii.eqb ".") (front b)
  | HParam _ _ _ None "" None None => starts (Ascii.eqb ".") (front b)
  | HProgram _ _ _ => starts name_char (front b)
  | HComment _ _ _ => True
  | _ => False
  end.

Fixpoint no_clash (vs : list hattr) : Prop :=
  match vs with
  | a :: vs' => match vs' with b :: _ => ~ clash a b /\ no_clash vs' | [] => True end
  | [] => True
  end.

Definition is_number (a : hattr) : Prop := match a with HNumber _ => True | _ => False end.

(** The words of a line: perhaps a number, and then at least one word. *)
Definition line_words (vs : list hattr) : Prop :=
  exists num body, vs = (num ++ body)%list /\
    (num = [] \/ exists n, num = [HNumber n]) /\ body <> [] /\
    (forall a, In a body -> ~ is_number a) /\ (forall a, In a vs -> proper a) /\ no_clash body.

(** Numbers of parameters that can be read back. *)
Definition ids_fit (read_id : option ascii -> string -> option Z) (vs : list hattr) : Prop :=
  forall q id e sg v d v2, In (HParam q id e sg v d v2) vs -> 0 <= id /\ read_id None (nat_to_string id) = Some id.

(** One way to write each word and a line. *)
Definition plain (a : hattr) : string :=
  match a with
  | HNumber n => nat_to_string n
  | HComment c v t => String c v ++ (if Ascii.eqb t zero then "" else String t "")
  | HProgram be name u => begin_text be ++ " PGM " ++ name ++ " " ++ unit_text u
  | HGeneral w sg nm v d v2 tl =>
      w ++ " " ++ opt_chr sg ++ opt_chr nm ++ opt_str v ++ opt_chr d ++ opt_str v2 ++ opt_chr tl
  | HCycle w1 w2 v d v2 => w1 ++ " " ++ w2 ++ " " ++ opt_str v ++ opt_chr d ++ opt_str v2
  | HParam q id e sg v d v2 =>
      q ++ nat_to_string id ++ " " ++ String e " " ++ opt_chr sg ++ v ++ opt_chr d ++ opt_str v2
  end%string.

Definition plain_line (vs : list hattr) : string := String.concat " " (map plain vs).

Definition letters (s : string) : Prop := all_chars letter s = true.

(** There is a cycle among the words. *)
Definition cycles (vs : list hattr) : bool := existsb (fun a => match a with HCycle _ _ _ _ _ => true | _ => false end) vs.

(** ** Messages *)

(** The message names the line and the column where [rest] begins and quotes
    [rest]. *)
Definition names_place (m before rest : string) : Prop :=
  exists l c, 1 <= l /\ 1 <= c /\ m = (nat_to_string l ++ ":" ++ nat_to_string c ++ ": " ++ rest)%string /\
    (without "010" before -> without "013" before -> l = 1 /\ (without "009" before -> c = 1 + Z.of_nat (String.length before))).
