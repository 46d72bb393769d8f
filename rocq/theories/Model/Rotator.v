(** Axes rotation.  Source: parser/fanuc/AxesRotator.cpp. *)
From Verif Require Import Model.Base Model.Attr.

(** GeneralParserDefines.h 309-320. *)
Inductive rot_option : Type :=
| X90 | X180 | X270 | Y90 | Y180 | Y270 | Z90 | Z180 | Z270.

(** AxesRotator.cpp 40-166, axis part: new word and sign (+1 / -1) for the
    words X Y Z I J K. *)
Definition axis_table (o : rot_option) : list (string * (string * Z)) :=
  match o with
  | X90  => [("X", ("X", 1)); ("Y", ("Z", -1)); ("Z", ("Y", 1));
             ("I", ("I", 1)); ("J", ("K", -1)); ("K", ("J", 1))]
  | X180 => [("X", ("X", 1)); ("Y", ("Y", -1)); ("Z", ("Z", -1));
             ("I", ("I", 1)); ("J", ("J", -1)); ("K", ("K", -1))]
  | X270 => [("X", ("X", 1)); ("Y", ("Z", 1)); ("Z", ("Y", -1));
             ("I", ("I", 1)); ("J", ("K", 1)); ("K", ("J", -1))]
  | Y90  => [("X", ("Z", 1)); ("Y", ("Y", 1)); ("Z", ("X", -1));
             ("I", ("K", 1)); ("J", ("J", 1)); ("K", ("I", -1))]
  | Y180 => [("X", ("X", -1)); ("Y", ("Y", 1)); ("Z", ("Z", -1));
             ("I", ("I", -1)); ("J", ("J", 1)); ("K", ("K", -1))]
  | Y270 => [("X", ("Z", -1)); ("Y", ("Y", 1)); ("Z", ("X", 1));
             ("I", ("K", -1)); ("J", ("J", 1)); ("K", ("I", 1))]
  | Z90  => [("X", ("Y", -1)); ("Y", ("X", 1)); ("Z", ("Z", 1));
             ("I", ("J", -1)); ("J", ("I", 1)); ("K", ("K", 1))]
  | Z180 => [("X", ("X", -1)); ("Y", ("Y", -1)); ("Z", ("Z", 1));
             ("I", ("I", -1)); ("J", ("J", -1)); ("K", ("K", 1))]
  | Z270 => [("X", ("Y", 1)); ("Y", ("X", -1)); ("Z", ("Z", 1));
             ("I", ("J", 1)); ("J", ("I", -1)); ("K", ("K", 1))]
  end.

(** AxesRotator.cpp 40-166, G part: new value for G17 G18 G19 G2 G3. *)
Definition g_table (o : rot_option) : list (string * Z) :=
  match o with
  | X90  => [("17", 18); ("18", 17); ("19", 19); ("2", 2); ("3", 3)]
  | X180 => [("17", 17); ("18", 18); ("19", 19); ("2", 3); ("3", 2)]
  | X270 => [("17", 18); ("18", 17); ("19", 19); ("2", 3); ("3", 2)]
  | Y90  => [("17", 19); ("18", 18); ("19", 17); ("2", 3); ("3", 2)]
  | Y180 => [("17", 17); ("18", 18); ("19", 19); ("2", 3); ("3", 2)]
  | Y270 => [("17", 19); ("18", 18); ("19", 17); ("2", 2); ("3", 3)]
  | Z90  => [("17", 17); ("18", 19); ("19", 18); ("2", 2); ("3", 3)]
  | Z180 => [("17", 17); ("18", 18); ("19", 19); ("2", 2); ("3", 3)]
  | Z270 => [("17", 17); ("18", 19); ("19", 18); ("2", 2); ("3", 3)]
  end.

Definition is_axis_word (w : string) : bool :=
  mem_str w ["X"; "Y"; "Z"; "I"; "J"; "K"].

(** AxesRotator.cpp 184-190. *)
Definition flip_sign (s : option ascii) : option ascii :=
  match s with
  | Some c => if Ascii.eqb c "-" then None else Some "-"%char
  | None => Some "-"%char
  end.

Definition set_word_sign (d : decimal) (w : string) (s : option ascii) : decimal :=
  mkDec w (d_assign d) s (d_open d) (d_macro d) (d_value d) (d_dot d) (d_value2 d) (d_close d).

Definition set_value (d : decimal) (v : option string) : decimal :=
  mkDec (d_word d) (d_assign d) (d_sign d) (d_open d) (d_macro d) v (d_dot d) (d_value2 d) (d_close d).

(** AxesRotator.cpp 176-207.  The axis words are all in every table, so the
    dereference of [find_if]'s result at 183 is always valid. *)
Definition rotate_decimal (o : rot_option) (d : decimal) : decimal :=
  if is_axis_word (d_word d) then
    match assoc (d_word d) (axis_table o) with
    | Some (w, s) =>
        set_word_sign d w (if s =? -1 then flip_sign (d_sign d) else d_sign d)
    | None => d
    end
  else if String.eqb (d_word d) "G" then
    match d_value d with
    | None => d
    | Some v =>
        match assoc v (g_table o) with
        | Some n => set_value d (Some (z_to_string n))
        | None => d
        end
    end
  else d.

Definition rotate_attr (o : rot_option) (a : attr) : attr :=
  match a with ADec d => ADec (rotate_decimal o d) | _ => a end.

(** AxesRotator.cpp 218-223. *)
Definition rotate_block (o : rot_option) (b : block) : block := map (rotate_attr o) b.
