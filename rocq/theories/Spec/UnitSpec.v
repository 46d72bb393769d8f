(** What a unit conversion may and must do to a block. *)
From Verif Require Import Model.Base Model.Attr Model.UnitConv Spec.Text.

(** The grammar of the units a conversion produces. *)
Definition produced (dir : unit_dir) (fg : fanuc_grammar) : word_map :=
  match dir with MetricToImperial => imperial fg | ImperialToMetric => metric fg end.

(** Words measured in the unit of length: type length or feed. *)
Definition measured (g : word_map) (w : string) : Prop :=
  exists e, assoc w g = Some e /\ (g_type e = WTlength \/ g_type e = WTfeed).

Definition bracketed (d : decimal) : Prop :=
  d_macro d <> None \/ d_open d <> None \/ d_close d <> None.

(** The code [Gn] (any spelling of the number, e.g. G04). *)
Definition g_code (d : decimal) (n : Z) : Prop :=
  d_word d = "G" /\ exists v, d_value d = Some v /\ denotes v n.

Definition is_g (a : attr) (n : Z) : Prop := exists d, a = ADec d /\ g_code d n.

(** Same word with another number: address, sign, assignment and brackets stay. *)
Definition other_number (d d' : decimal) : Prop :=
  d_word d' = d_word d /\ d_assign d' = d_assign d /\ d_sign d' = d_sign d /\
  d_open d' = d_open d /\ d_macro d' = d_macro d /\ d_close d' = d_close d.

(** The unit selection code that belongs to the source and to the target. *)
Definition unit_code (dir : unit_dir) : Z := match dir with MetricToImperial => 21 | ImperialToMetric => 20 end.
Definition new_unit_code (dir : unit_dir) : string := match dir with MetricToImperial => "20" | ImperialToMetric => "21" end.

(** The allowed effect on one word. *)
Definition allowed (dir : unit_dir) (g : word_map) (a a' : attr) : Prop :=
  a' = a \/
  exists d d', a = ADec d /\ a' = ADec d' /\ ~ bracketed d /\ other_number d d' /\
    (measured g (d_word d) \/
     (g_code d (unit_code dir) /\
      d_value d' = Some (new_unit_code dir) /\ d_dot d' = d_dot d /\ d_value2 d' = d_value2 d)).

(** The first numeric word of the block. *)
Fixpoint first_numeric (b : block) : option decimal :=
  match b with
  | [] => None
  | ADec d :: _ => Some d
  | _ :: b' => first_numeric b'
  end.

(** An optional block: one that starts with the block delete mark. *)
Definition optional_block (b : block) : Prop := exists d, first_numeric b = Some d /\ d_word d = "/".

(** The words before a word that matter: a block delete mark in front or a
    dwell code switch the conversion off, a coordinate rotation code keeps
    I J K R. *)
Definition dwell_in (b : block) : Prop := exists a, In a b /\ is_g a 4.

Definition rotation_code (a : attr) : Prop :=
  exists d, a = ADec d /\ g_code d 68 /\ ~ bracketed d /\
    (d_value2 d = None \/ exists v2 n, d_value2 d = Some v2 /\ denotes v2 n /\ 2 <= n <= 4).

Definition rotation_in (b : block) : Prop := exists a, In a b /\ rotation_code a.

(** The word [d] after the words [pre] has to be converted. *)
Definition due (g : word_map) (pre : block) (d : decimal) : Prop :=
  measured g (d_word d) /\ ~ bracketed d /\ d_word d <> "G" /\
  ~ optional_block (pre ++ [ADec d])%list /\ ~ dwell_in pre /\
  ~ (rotation_in pre /\ In (d_word d) ["I"; "J"; "K"; "R"]).

(** The word carries the (unsigned) decimal number [n / 10^k]: integer digits,
    and, if there are [k] more digits, a point in front of them. *)
Definition has_number (d : decimal) (n k : Z) : Prop :=
  denotes (opt_str (d_value d) ++ opt_str (d_value2 d))%string n /\
  all_chars is_digit (opt_str (d_value d)) = true /\
  k = Z.of_nat (String.length (opt_str (d_value2 d))) /\
  (d_dot d = Some "."%char \/ (d_dot d = None /\ d_value2 d = None)).

(** All code values are decimal numbers small enough to be read. *)
Definition readable (a : attr) : Prop :=
  match a with
  | ADec d => d_word d = "G" ->
      (forall v, d_value d = Some v -> exists n, denotes v n /\ n <= int_max) /\
      (forall v, d_value2 d = Some v -> exists n, denotes v n /\ n <= int_max)
  | _ => True
  end.

(** The number of decimals a grammar entry allows: [decimal_to] is the largest
    number that may follow the point, so 999 allows three. *)
Definition allowed_decimals (e : word_grammar) (p : Z) : Prop :=
  0 < p /\ 10 ^ (p - 1) <= g_dto e < 10 ^ p.

(** Numbers for which binary64 neither overflows nor underflows. *)
Definition moderate (n k : Z) : Prop :=
  n = 0 \/ (10 ^ k <= n * 10 ^ 300 /\ n <= 10 ^ 300 * 10 ^ k).

(** The exact result [num / den] of converting [n / 10^k]; an inch is 25.4 mm. *)
Definition exact_num (dir : unit_dir) (n : Z) : Z :=
  match dir with MetricToImperial => n * 10 | ImperialToMetric => n * 254 end.
Definition exact_den (dir : unit_dir) (k : Z) : Z :=
  match dir with MetricToImperial => 254 * 10 ^ k | ImperialToMetric => 10 * 10 ^ k end.

(** [n' / 10^k'] differs from [num / den] by at most half a unit of the [p]-th
    decimal, up to a relative error of 2^-50 of binary64 arithmetic. *)
Definition rounded (num den p n' k' : Z) : Prop :=
  2 * 2 ^ 50 * 10 ^ p * Z.abs (n' * den - num * 10 ^ k')
    <= 2 ^ 50 * den * 10 ^ k' + 2 * num * 10 ^ p * 10 ^ k'.
