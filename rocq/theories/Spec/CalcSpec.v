(** Macro expressions: what a text means, independent of how it is parsed. *)
From Verif Require Import Model.Base Model.Double Model.Macro Model.Calc.
From Verif Require Export Spec.Text.

Inductive binop : Type := Add | Sub | Or | Xor | Mul | Div | And | Mod.

Inductive expr : Type :=
| Lit : string -> expr
| Neg : expr -> expr
| Pos : expr -> expr
| Mac : expr -> expr                 (* value of the macro with this number *)
| Fn : string -> expr -> expr        (* function by its name in the text *)
| Bin : binop -> expr -> expr -> expr.

Definition op_text (o : binop) : string :=
  match o with
  | Add => "+" | Sub => "-" | Or => "OR" | Xor => "XOR"
  | Mul => "*" | Div => "/" | And => "AND" | Mod => "MOD"
  end.

(** Operators of the lower precedence. *)
Definition low (o : binop) : bool :=
  match o with Add | Sub | Or | Xor => true | _ => false end.

Definition blanks (s : string) : Prop := all_chars is_blank s = true.
Definition digits (s : string) : Prop := all_chars is_digit s = true.

(** [s] spells the lower case word [w] in any mixture of cases. *)
Fixpoint any_case (w s : string) : Prop :=
  match w, s with
  | EmptyString, EmptyString => True
  | String a w', String b s' => (code b = code a \/ code b = code a - 32) /\ any_case w' s'
  | _, _ => False
  end.

Definition exponent_part (s : string) : Prop :=
  s = "" \/ exists c sg ds, (c = "e"%char \/ c = "E"%char) /\ (sg = "" \/ sg = "-" \/ sg = "+") /\
    ds <> "" /\ digits ds /\ digits_val ds <= int_max /\ s = String c (sg ++ ds)%string.

(** Unsigned decimal numbers: 12  12.  12.5  .5, each with an optional exponent. *)
Definition numeral (s : string) : Prop :=
  exists ip fp ex, digits ip /\ digits fp /\ exponent_part ex /\
  ((ip <> "" /\ s = (ip ++ ex)%string) \/
   ((ip <> "" \/ fp <> "") /\ s = (ip ++ "." ++ fp ++ ex)%string)).

(** "nan" may carry a remark in round brackets, as in nan(x). *)
Definition nan_text (s : string) : Prop :=
  exists n t, s = (n ++ t)%string /\ any_case "nan" n /\
    (t = "" \/ exists u, t = String "(" (u ++ ")") /\ all_chars (fun c => negb (Ascii.eqb c ")")) u = true).

Definition literal (s : string) : Prop :=
  numeral s \/ nan_text s \/ any_case "inf" s \/ any_case "infinity" s.

Definition opening (c : ascii) : Prop := c = "("%char \/ c = "["%char.
Definition closing (c : ascii) : Prop := c = ")"%char \/ c = "]"%char.

Inductive level : Type := LExpr | LTerm | LFactor.

(** The sum of digit * base^position over the [n] lowest digits of [v] in base
    [from], read again in base [to]. *)
Fixpoint reread (n : nat) (from to v : Z) : Z :=
  match n with
  | O => 0
  | S n' => v mod from + to * reread n' from to (v / from)
  end.

Definition half_turn : dbl := d_of_ratio false 314159265358979323846 (10 ^ 20).

Section Meaning.
Variable lit : string -> dbl.
Variable libm : string -> dbl -> dbl.

(** Angles are given in degrees. *)
Definition angle (f : string) (x : dbl) : res dbl :=
  Ok (libm f (ddiv (dmul x half_turn) (d_of_Z 180))).

(** The functions, by their names in NC programs.  SINH has a name but no
    value: asking for it is an error. *)
Definition functions : list (string * (dbl -> res dbl)) :=
  [("ABS", fun x => Ok (dabs x)); ("SQRT", fun x => Ok (dsqrt x));
   ("FIX", fun x => Ok (d_floor x)); ("FUP", fun x => Ok (d_ceil x)); ("ROUND", fun x => Ok (d_round x));
   ("SIN", angle "sin"); ("COS", angle "cos"); ("TAN", angle "tan");
   ("ASIN", angle "asin"); ("ACOS", angle "acos"); ("ATAN", angle "atan");
   ("COSH", angle "cosh"); ("TANH", angle "tanh");
   ("SINH", fun _ => Exc (EEval ["UnsupportedFunction"; "sinh"]));
   ("EXP", fun x => Ok (libm "exp" x)); ("LOG", fun x => Ok (libm "log" x));
   ("LOG10", fun x => Ok (libm "log10" x));
   (* decimal digits as nibbles, and back *)
   ("BIN", fun x => do n <- d_to_u32 x; Ok (d_of_Z (reread 10 10 16 n)));
   ("BCD", fun x => do n <- d_to_u64 x; Ok (d_of_Z (reread 16 16 10 n mod 2 ^ 32)))].

(** [spells l e t]: the text [t] is a spelling of the expression [e].  Blanks
    may stand before every token, brackets are round or square, redundant
    brackets are allowed.  A sum is a sum and a term, a product is a product
    and a factor: operators of one level associate to the left and products
    bind tighter. *)
Inductive spells : level -> expr -> string -> Prop :=
| sp_lit b s : blanks b -> literal s -> spells LFactor (Lit s) (b ++ s)
| sp_neg b e t : blanks b -> spells LFactor e t -> spells LFactor (Neg e) (b ++ String "-" t)
| sp_pos b e t : blanks b -> spells LFactor e t -> spells LFactor (Pos e) (b ++ String "+" t)
| sp_mac b e t : blanks b -> spells LFactor e t -> spells LFactor (Mac e) (b ++ String "#" t)
| sp_fn b k b1 o e t b2 c : blanks b -> In k (map fst functions) -> blanks b1 -> opening o ->
    spells LExpr e t -> blanks b2 -> closing c ->
    spells LFactor (Fn k e) (b ++ k ++ b1 ++ String o (t ++ b2 ++ String c ""))
| sp_bracket b o e t b2 c : blanks b -> opening o -> spells LExpr e t -> blanks b2 -> closing c ->
    spells LFactor e (b ++ String o (t ++ b2 ++ String c ""))
| sp_factor e t : spells LFactor e t -> spells LTerm e t
| sp_mul op e1 t1 b e2 t2 : low op = false -> spells LTerm e1 t1 -> blanks b -> spells LFactor e2 t2 ->
    spells LTerm (Bin op e1 e2) (t1 ++ b ++ op_text op ++ t2)
| sp_term e t : spells LTerm e t -> spells LExpr e t
| sp_add op e1 t1 b e2 t2 : low op = true -> spells LExpr e1 t1 -> blanks b -> spells LTerm e2 t2 ->
    spells LExpr (Bin op e1 e2) (t1 ++ b ++ op_text op ++ t2).

(** Value of a literal text. *)
Definition literal_value (s : string) : dbl :=
  match s with
  | String "n" _ | String "N" _ => S754_nan
  | String "i" _ | String "I" _ => S754_infinity false
  | _ => lit s
  end.

(** Bitwise operations and remainder work on the integer parts; an argument
    that does not fit an int, or a remainder by zero, has no defined result. *)
Definition bin_value (o : binop) (x y : dbl) : res dbl :=
  let ints (f : Z -> Z -> res Z) := do a <- d_to_int x; do b <- d_to_int y; do r <- f a b; Ok (d_of_Z r) in
  match o with
  | Add => Ok (dadd x y) | Sub => Ok (dsub x y) | Mul => Ok (dmul x y) | Div => Ok (ddiv x y)
  | And => ints (fun a b => Ok (Z.land a b))
  | Or => ints (fun a b => Ok (Z.lor a b))
  | Xor => ints (fun a b => Ok (Z.lxor a b))
  | Mod => ints (fun a b => if b =? 0 then Exc (EUB "remainder by zero")
                            else if (a =? - 2 ^ 31) && (b =? -1) then Exc (EUB "remainder overflow")
                            else Ok (Z.rem a b))
  end.

(** Operands are evaluated from left to right; the first failure decides. *)
Fixpoint value (mv : macro_map dbl) (e : expr) : res dbl :=
  match e with
  | Lit s => Ok (literal_value s)
  | Neg e1 => do x <- value mv e1; Ok (dopp x)
  | Pos e1 => value mv e1
  | Mac e1 =>
      do x <- value mv e1; do id <- d_to_u32 x;
      match macro_lookup mv id int_max with
      | Some v => Ok v
      | None => Exc (EEval ["ValueMissing"; z_to_string id])
      end
  | Fn k e1 =>
      do x <- value mv e1;
      match assoc k functions with Some f => f x | None => Exc (EEval ["UnsupportedFunction"; k]) end
  | Bin o e1 e2 => do x <- value mv e1; do y <- value mv e2; bin_value o x y
  end.

End Meaning.
