(** Vocabulary for the statements about the line grammar. *)
From Verif Require Import Model.Base Model.Attr Spec.Text.

(** ** One numeric word *)

(** The text of a word: the address, a sign, the integer part, and, after a
    point, the digits behind it. *)
Definition word_text (w : string) (sg : option ascii) (ip : string) (fp : option string) : string :=
  w ++ opt_chr sg ++ ip ++ match fp with Some ds => "." ++ ds | None => "" end.

Definition is_sign (sg : option ascii) : Prop := sg = None \/ sg = Some "-"%char \/ sg = Some "+"%char.

Definition signed (sg : option ascii) (n : Z) : Z := match sg with Some "-"%char => - n | _ => n end.

(** The word as the parser reports it. *)
Definition the_word (w : string) (sg : option ascii) (ip : string) (fp : option string) : attr :=
  ADec (mkDec w None sg None None (Some ip) (match fp with Some _ => Some "."%char | None => None end)
              (match fp with Some "" => None | f => f end) None).

(** An address that is not a calculation character, an assignment, or a macro;
    and that is not mistaken for a comment, a block skip, a program start or a
    program name. *)
Definition ordinary (w : string) : Prop :=
  ~ In w ["#"; "="; "+"; "-"; "*"; "/"] /\ contains "=" w = false /\
  exists c r, w = String c r /\ is_blank c = false /\ ~ In c ["("; "/"; "%"; "O"; ","]%char.

(** The address is the longest one the text begins with. *)
Definition longest (w t : string) (ws : list string) : Prop :=
  In w ws /\ forall u, In u ws -> prefix u t = true -> (String.length u <= String.length w)%nat.

(** The integer part in range, and a point only with decimals allowed and the
    digits behind it in range. *)
Definition integer_ok (g : word_grammar) (sg : option ascii) (n : Z) : Prop := g_from g <= signed sg n <= g_to g.

Definition decimals_ok (g : word_grammar) (fp : option string) : Prop :=
  match fp with
  | None => True
  | Some "" => 0 < g_dto g
  | Some ds => 0 < g_dto g /\ exists m, denotes ds m /\ g_dfrom g <= m <= g_dto g
  end.

(** The bounds are numbers an [int] can hold. *)
Definition bounds_fit (g : word_grammar) : Prop :=
  - int_max <= g_from g /\ g_to g <= int_max /\ 0 <= g_dfrom g /\ 0 <= g_dto g <= int_max.

(** ** Lines *)

(** Characters that can stand behind the address of a word. *)
Definition tail_char (c : ascii) : bool := is_digit c || contains (String c "") "+-[#.]".

(** What is asked of the tables of addresses for lines to be written and read
    back: addresses are not empty, hold no blanks, are not ",", do not begin
    like a comment, a block skip, a program start or a bracket; one that begins
    like a program name has no range; none is another one continued by a
    character of a number; "=" is an address of its own only. *)
Record tables_ok (wm : word_map) (dec asg : list string) : Prop := {
  to_chars : forall w, In w dec \/ In w asg -> w <> ""%string /\ w <> ","%string /\ all_chars (fun c => negb (is_blank c)) w = true;
  to_start : forall c r, In (String c r) dec \/ In (String c r) asg -> ~ In c ["("; "/"; "%"; "["]%char;
  to_name : forall r, (In (String "O" r) dec -> assoc (String "O" r) wm = None) /\ ~ In (String "O" r) asg;
  to_tail : forall w c r, In w dec -> In (w ++ String c r) dec -> tail_char c = false;
  to_equal : (forall w, In w dec -> contains "=" w = true -> w = "="%string) /\ (forall w, In w asg -> contains "=" w = false)
}.

Definition begins_with (p : ascii -> bool) (t : string) : Prop := match t with String c _ => p c = true | EmptyString => False end.

Definition is_letter (c : ascii) : bool := ((65 <=? code c) && (code c <=? 90)) || ((97 <=? code c) && (code c <=? 122)).

(** Two neighbours whose texts do not join up when written with a blank between
    them: an address that can be assigned to and "=", and a program name and a
    word. *)
Definition join (asg : list string) (text : attr -> string) (a b : attr) : Prop :=
  (In (text a) asg /\ begins_with (Ascii.eqb "=") (text b)) \/
  ((exists n, a = AStr "O" n) /\ begins_with is_letter (text b)).

(** Every pair of neighbours of a list. *)
Fixpoint neighbours {A} (R : A -> A -> Prop) (l : list A) : Prop :=
  match l with
  | a :: l' => match l' with b :: _ => R a b /\ neighbours R l' | [] => True end
  | _ => True
  end.
