(** Vocabulary for the statements about lines that were edited and are read
    again. *)
From Verif Require Import Model.Base Model.Attr Spec.Text Spec.GrammarSpec.

(** The characters with which a word goes on, blanks in front of them: a closing
    bracket as long as there is none; a digit or a point as long as there is no
    number; then "#", then an opening bracket, then a sign. *)
Definition goes_on (d : decimal) : string :=
  match d_close d with
  | Some _ => ""
  | None => "]" ++
    match d_value d, d_dot d with
    | None, None => "0123456789." ++
        match d_macro d with
        | Some _ => ""
        | None => "#" ++
            match d_open d with
            | Some _ => ""
            | None => "[" ++ match d_sign d with Some _ => "" | None => "+-" end
            end
        end
    | _, _ => ""
    end
  end.

(** Two neighbours that are not read as these two when written with a blank
    between them: besides those of [join], a word that goes on with the first
    character of the next one, two "/" and anything behind "%" or a comma. *)
Definition meets (asg : list string) (text : attr -> string) (a b : attr) : Prop :=
  join asg text a b \/
  (exists d, a = ADec d /\ begins_with (fun c => contains (String c "") (goes_on d)) (text b)) \/
  (text a = "/"%string /\ begins_with (Ascii.eqb "/") (text b)) \/
  (exists w x, a = AChr w x).

(** A word of a line without brackets: taking it out does not change how the
    rest is read. *)
Definition bracketless (a : attr) : Prop :=
  match a with ADec d => d_open d = None /\ d_close d = None /\ d_word d <> "#"%string /\ d_word d <> "="%string | _ => True end.

(** A number in the range of its address.  Without digits in front of the point
    only those behind it are looked at. *)
Definition in_range (g : word_grammar) (d : decimal) : Prop :=
  is_sign (d_sign d) /\
  ((exists ip n fp, d_value d = Some ip /\ denotes ip n /\
    d_dot d = match fp with Some _ => Some "."%char | None => None end /\
    d_value2 d = match fp with Some "" => None | f => f end /\
    match fp with Some ds => all_chars is_digit ds = true | None => True end /\
    integer_ok g (d_sign d) n /\ decimals_ok g fp) \/
   (exists ds m, d_value d = None /\ d_dot d = Some "."%char /\ d_value2 d = Some ds /\ denotes ds m /\ 0 < g_dto g /\ g_dfrom g <= m <= g_dto g)).

(** The word with another address, sign and number, which is in the range of the
    address; or, where it has a macro or no digits, the same ones. *)
Definition reworded (wm : word_map) (dec asg : list string) (d d' : decimal) : Prop :=
  d_assign d' = d_assign d /\ d_open d' = d_open d /\ d_close d' = d_close d /\ d_macro d' = d_macro d /\
  ordinary (d_word d) /\ ordinary (d_word d') /\
  In (d_word d') dec /\ (d_assign d <> None -> In (d_word d') asg) /\ is_sign (d_sign d') /\
  (exists g, assoc (d_word d) wm = Some g /\ bounds_fit g) /\
  exists g, assoc (d_word d') wm = Some g /\ bounds_fit g /\
    ((d_macro d' = None /\ in_range g d') \/
     (d_value d' = d_value d /\ d_dot d' = d_dot d /\ d_value2 d' = d_value2 d /\
      (d_macro d <> None \/ (d_value d = None /\ d_value2 d = None)))).

(** Lines as they are usually written: comments, and words that begin with a
    letter or "/" and have a number. *)
Definition usual (a : attr) : Prop :=
  match a with
  | ADec d => (exists c r, d_value d = Some (String c r)) /\ begins_with (fun c => is_letter c || Ascii.eqb c "/") (d_word d)
  | AStr w _ => w = "("%string
  | AChr _ _ => False
  end.

(** What rotating asks of the tables: the axes may all have the same numbers,
    negative or not and with a point, can all be assigned to or none of them,
    and so the arc centres; the planes and arcs are in the range of G. *)
Definition rotating_words : list (list string) := [["X"; "Y"; "Z"]; ["I"; "J"; "K"]].

Definition rotation_tables (wm : word_map) (dec asg : list string) : Prop :=
  (forall l, In l rotating_words -> exists b f t, 0 < t /\ forall w, In w l -> In w dec /\ (forall u, In u l -> In u asg -> In w asg) /\
     exists g, assoc w wm = Some g /\ bounds_fit g /\ g_from g = - b /\ g_to g = b /\ g_dfrom g = f /\ g_dto g = t) /\
  In "G"%string dec /\ exists g, assoc "G"%string wm = Some g /\ bounds_fit g /\ 0 <= g_from g <= 2 /\ 19 <= g_to g.
