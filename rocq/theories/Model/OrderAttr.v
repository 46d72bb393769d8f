(** Two numbers of a line in a given order.
    Source: parser/fanuc/OrderAttributeParser.cpp.  Only its unit test calls it. *)
From Verif Require Import Model.Base Model.Messages.

(** [boost::spirit::ascii::graph]. *)
Definition is_graph (c : ascii) : bool := (33 <=? code c) && (code c <=? 126).

(** OrderAttributeParser.cpp 41-43: [omit[*(graph - c)]], and the blanks the
    [lexeme] behind it skips. *)
Fixpoint skip_to (c : ascii) (t : string) : string :=
  match t with
  | EmptyString => ""
  | String x t' => if is_blank x || (is_graph x && negb (Ascii.eqb x c)) then skip_to c t' else t
  end.

(** 85-88: no line end is ever passed, so the line is the first one.
    [std::setw] fills with spaces on the left. *)
Fixpoint first_line (t : string) : string :=
  match t with
  | EmptyString => ""
  | String c t' => if is_line_end c then "" else String c (first_line t')
  end.

Fixpoint spaces (n : nat) : string := match n with O => "" | S n' => String " " (spaces n') end.

Definition nl : string := String "010" "".

Definition order_message (data rest : string) : string :=
  let col := columns 1 (String.substring 0 (String.length data - String.length rest) data) in
  "Parse error at line 1 column " ++ nat_to_string col ++ ":" ++ nl
  ++ "'" ++ first_line data ++ "'" ++ nl
  ++ spaces (Z.to_nat (Z.max 1 col)) ++ "^- here" ++ nl.

Section Order.
(** [qi::float_] for the only types the template is made for: the value and the
    rest of the text. *)
Context {V : Type}.
Variable read : string -> option (V * string).

(** [lexeme[lit(c) > attr_rule]] behind the skipping. *)
Inductive found : Type := Missing | NoNumber (rest : string) | Number (v : V) (rest : string).

Definition attribute (c : ascii) (t : string) : found :=
  match skip_to c t with
  | EmptyString => Missing
  | String x t' => if Ascii.eqb x c
                   then match read t' with Some (v, r) => Number v r | None => NoNumber t' end
                   else Missing
  end.

(** OrderAttributeParser.cpp 52-93: the result, [value], [message].  What was
    read before a failure stays in [value]. *)
Definition order_parse (data : string) (c1 c2 : ascii) (value : V * V) (message : string) : bool * (V * V) * string :=
  match attribute c1 data with
  | Missing => (false, value, message)
  | NoNumber rest => (false, value, order_message data rest)
  | Number v1 t =>
      match attribute c2 t with
      | Missing => (false, (v1, snd value), message)
      | NoNumber rest => (false, (v1, snd value), order_message data rest)
      | Number v2 _ => (true, (v1, v2), message)
      end
  end.
End Order.
