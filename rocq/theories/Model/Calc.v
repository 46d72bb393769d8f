(** Macro expressions.  Source: parser/fanuc/ValueCalculator.cpp. *)
From Verif Require Import Model.Base Model.Double Model.Macro.

(** ** BCD conversion *)

(** ValueCalculator.cpp 182-186.  [None]: more rounds than the fuel allows. *)
Fixpoint to_bcd_loop (fuel : nat) (usi shift result : Z) : option Z :=
  match fuel with
  | O => None
  | S f =>
      let usi' := usi / 10 in
      if usi' =? 0 then Some result
      else to_bcd_loop f usi' (shift * 16) (result + (usi' mod 10) * shift)
  end.

(** ValueCalculator.cpp 177-188.  A 32-bit number has at most ten decimal
    digits, so [shift] and [result] stay far below 2^64. *)
Definition uint32_to_bcd (usi : Z) : option Z := to_bcd_loop 10 usi 16 (usi mod 10).

(** ValueCalculator.cpp 196-200. *)
Fixpoint of_bcd_loop (fuel : nat) (bcd pwr i : Z) : option Z :=
  match fuel with
  | O => None
  | S f =>
      let bcd' := Z.shiftr bcd 4 in
      if bcd' =? 0 then Some i
      else of_bcd_loop f bcd' (pwr * 10) (i + Z.land bcd' 15 * (pwr * 10))
  end.

(** ValueCalculator.cpp 190-202.  A 64-bit number has sixteen nibbles; the sum
    stays below 2^64 and is truncated to 32 bits by the final cast. *)
Definition bcd_to_ui32 (bcd : Z) : option Z :=
  match of_bcd_loop 16 bcd 1 (Z.land bcd 15) with Some i => Some (to_u32 i) | None => None end.

(** ** Rounding to integers ([std::ceil], [std::floor], [std::round]) *)

Definition d_signed_int (s : bool) (a : Z) : dbl :=
  if a =? 0 then S754_zero s else d_of_Z (if s then - a else a).

Definition d_floor (x : dbl) : dbl :=
  match x with
  | S754_finite s m e =>
      if 0 <=? e then x
      else let q := Zpos m / 2 ^ (- e) in
           d_signed_int s (if s && negb (Zpos m mod 2 ^ (- e) =? 0) then q + 1 else q)
  | _ => x
  end.

Definition d_ceil (x : dbl) : dbl := dopp (d_floor (dopp x)).

Definition d_round (x : dbl) : dbl :=
  match x with
  | S754_finite s m e =>
      if 0 <=? e then x
      else d_signed_int s ((Zpos m + 2 ^ (- e - 1)) / 2 ^ (- e))
  | _ => x
  end.

(** ** The expression tree (ValueCalculator.cpp 43-75) *)

Inductive operand : Type :=
| ONil : operand
| ONum : dbl -> operand
| OSigned : ascii -> operand -> operand
| OFun : string -> operand -> operand
| OProg : operand -> list (string * operand) -> operand.

(** ** Parsing *)

(** Outcome of a boost::spirit parser: matched, not matched, or
    [qi::expectation_failure] with the text at the failing position. *)
Inductive pr (A : Type) : Type :=
| POk : A -> string -> pr A
| PFail : pr A
| PThrow : string -> pr A
| PFuel : pr A.
Arguments POk {A}.
Arguments PFail {A}.
Arguments PThrow {A}.
Arguments PFuel {A}.

(** [qi::blank] as skipper. *)
Definition skip (s : string) : string := snd (span is_blank s).

(** [s] without the prefix [p]. *)
Fixpoint strip (p s : string) : option string :=
  match p, s with
  | EmptyString, _ => Some s
  | String a p', String b s' => if Ascii.eqb a b then strip p' s' else None
  | _, _ => None
  end.

(** The same, for [p] in lower case and either case in [s]. *)
Definition lower (c : ascii) : ascii :=
  if (65 <=? code c) && (code c <=? 90) then ascii_of_nat (Z.to_nat (code c + 32)) else c.
Fixpoint strip_nocase (p s : string) : option string :=
  match p, s with
  | EmptyString, _ => Some s
  | String a p', String b s' => if Ascii.eqb a (lower b) then strip_nocase p' s' else None
  | _, _ => None
  end.

(** [qi::symbols] 371-392: name in the text, name of the function. *)
Definition function_names : list (string * string) :=
  [("ABS", "abs"); ("ACOS", "acos"); ("ASIN", "asin"); ("ATAN", "atan"); ("FUP", "ceil");
   ("COS", "cos"); ("COSH", "cosh"); ("EXP", "exp"); ("FIX", "floor"); ("LOG10", "log10");
   ("LOG", "log"); ("SIN", "sin"); ("SINH", "sinh"); ("SQRT", "sqrt"); ("TAN", "tan");
   ("TANH", "tanh"); ("ROUND", "round"); ("BCD", "bcd"); ("BIN", "bin")].

(** Longest matching symbol. *)
Fixpoint longest {A} (l : list (string * A)) (s : string) : option (string * A * string) :=
  match l with
  | [] => None
  | (k, a) :: l' =>
      let best := longest l' s in
      match strip k s with
      | None => best
      | Some r =>
          match best with
          | Some (k', _, _) => if (String.length k <? String.length k')%nat then best else Some (k, a, r)
          | None => Some (k, a, r)
          end
      end
  end.

Section Calc.
(** Oracles: the value [qi::double_] gives to an unsigned decimal literal (it
    need not be correctly rounded), and the functions of libm. *)
Variable lit : string -> dbl.
Variable libm : string -> dbl -> dbl.

(** Exponent part of a literal: text and rest.  Without digits (or with an
    exponent outside int) the exponent is not part of the literal. *)
Definition exponent (s : string) : string * string :=
  match s with
  | String c r =>
      if Ascii.eqb c "e" || Ascii.eqb c "E" then
        let '(sg, r1) := match r with
                         | String d r' => if Ascii.eqb d "-" || Ascii.eqb d "+"
                                          then (String d "", r') else ("", r)
                         | EmptyString => ("", r)
                         end in
        let '(ds, r2) := span is_digit r1 in
        match ds with
        | EmptyString => ("", s)
        | _ => if digits_val ds <=? int_max then (String c (sg ++ ds), r2) else ("", s)
        end
      else ("", s)
  | EmptyString => ("", s)
  end.

(** [qi::double_] after skipping (boost real_impl.hpp with the default
    policies): sign, digits, point, digits, exponent; or nan / inf / infinity
    in any case, with an optional round bracketed tail for nan (without the
    closing bracket the nan does not match, and nothing else can). *)
Definition nan_tail (s : string) : option string :=
  match s with
  | String c r =>
      if Ascii.eqb c "(" then
        match snd (span (fun d => negb (Ascii.eqb d ")")) r) with
        | String _ r' => Some r'
        | EmptyString => None
        end
      else Some s
  | EmptyString => Some s
  end.

Definition real (s : string) : option (dbl * string) :=
  let '(neg, s1) := match s with
                    | String c r => if Ascii.eqb c "-" then (true, r)
                                    else if Ascii.eqb c "+" then (false, r) else (false, s)
                    | EmptyString => (false, s)
                    end in
  let sgn x := if neg then dopp x else x in
  let '(ip, s2) := span is_digit s1 in
  match ip, strip_nocase "nan" s1, strip_nocase "inf" s1 with
  | EmptyString, Some r, _ => match nan_tail r with Some r' => Some (S754_nan, r') | None => None end
  | EmptyString, None, Some r =>
      Some (sgn (S754_infinity false), match strip_nocase "inity" r with Some r' => r' | None => r end)
  | _, _, _ =>
      match s2 with
      | String c r =>
          if Ascii.eqb c "." then
            let '(fp, s3) := span is_digit r in
            match ip, fp with
            | EmptyString, EmptyString => None
            | _, _ => let '(ex, s4) := exponent s3 in Some (sgn (lit (ip ++ "." ++ fp ++ ex)), s4)
            end
          else
            match ip with
            | EmptyString => None
            | _ => let '(ex, s4) := exponent s2 in Some (sgn (lit (ip ++ ex)), s4)
            end
      | EmptyString =>
          match ip with EmptyString => None | _ => Some (sgn (lit ip), "") end
      end
  end.

Definition is_open (c : ascii) : bool := Ascii.eqb c "(" || Ascii.eqb c "[".
Definition is_close (c : ascii) : bool := Ascii.eqb c ")" || Ascii.eqb c "]".

(** The operators of the two levels, 347-351, in the order they are tried. *)
Fixpoint operator (ops : list string) (s : string) : option (string * string) :=
  match ops with
  | [] => None
  | o :: ops' => match strip o (skip s) with Some r => Some (o, r) | None => operator ops' s end
  end.
Definition add_ops : list string := ["+"; "-"; "OR"; "XOR"].
Definition mul_ops : list string := ["*"; "/"; "AND"; "MOD"].

(** What follows an expectation operator must match. *)
Definition expected {A} (at_ : string) (r : pr A) : pr A :=
  match r with PFail => PThrow at_ | _ => r end.

Definition pbind {A B} (r : pr A) (f : A -> string -> pr B) : pr B :=
  match r with POk a s => f a s | PFail => PFail | PThrow s => PThrow s | PFuel => PFuel end.

(** ValueCalculator.cpp 345-354: [factor] with [function_call], [term],
    [expression]. *)
Fixpoint factor (fuel : nat) (s : string) : pr operand :=
  match fuel with
  | O => PFuel
  | S f =>
      match real (skip s) with
      | Some (v, r) => POk (ONum v) r
      | None =>
          match skip s with
          | String c r =>
              if is_open c then
                pbind (expected r (expression f r)) (fun e r1 =>
                  match skip r1 with
                  | String c2 r2 => if is_close c2 then POk e r2 else PThrow (skip r1)
                  | EmptyString => PThrow ""
                  end)
              else if Ascii.eqb c "-" || Ascii.eqb c "+" || Ascii.eqb c "#" then
                pbind (expected r (factor f r)) (fun o r1 => POk (OSigned c o) r1)
              else
                match longest function_names (skip s) with
                | None => PFail
                | Some (_, name, r1) =>
                    match skip r1 with
                    | String c2 r2 =>
                        if is_open c2 then
                          pbind (expected r2 (expression f r2)) (fun e r3 =>
                            match skip r3 with
                            | String c4 r4 => if is_close c4 then POk (OFun name e) r4 else PThrow (skip r3)
                            | EmptyString => PThrow ""
                            end)
                        else PThrow (skip r1)
                    | EmptyString => PThrow ""
                    end
                end
          | EmptyString => PFail
          end
      end
  end
with term (fuel : nat) (s : string) : pr operand :=
  match fuel with
  | O => PFuel
  | S f => pbind (factor f s) (fun o r => term_rest f o [] r)
  end
(** the Kleene star of 350-351; [acc] holds the operations in reverse *)
with term_rest (fuel : nat) (o : operand) (acc : list (string * operand)) (s : string) : pr operand :=
  match fuel with
  | O => PFuel
  | S f =>
      match operator mul_ops s with
      | None => POk (OProg o (rev acc)) s
      | Some (op, r) => pbind (expected r (factor f r)) (fun o2 r1 => term_rest f o ((op, o2) :: acc) r1)
      end
  end
with expression (fuel : nat) (s : string) : pr operand :=
  match fuel with
  | O => PFuel
  | S f => pbind (term f s) (fun o r => expression_rest f o [] r)
  end
with expression_rest (fuel : nat) (o : operand) (acc : list (string * operand)) (s : string) : pr operand :=
  match fuel with
  | O => PFuel
  | S f =>
      match operator add_ops s with
      | None => POk (OProg o (rev acc)) s
      | Some (op, r) => pbind (expected r (term f r)) (fun o2 r1 => expression_rest f o ((op, o2) :: acc) r1)
      end
  end.

(** ** Evaluation (ValueCalculator.cpp 204-336) *)

(** M_PI, 3.14159265358979323846 as a double. *)
Definition d_pi : dbl := S754_finite false 7074237752028440 (-51).

(** [rhs * M_PI / 180] *)
Definition radians (x : dbl) : dbl := ddiv (dmul x d_pi) (d_of_Z 180).

(** [static_cast<int>(lhs) % static_cast<int>(rhs)]: undefined for a zero
    divisor and for the one overflowing case. *)
Definition int_rem (a b : Z) : res Z :=
  if b =? 0 then Exc (EUB "remainder by zero")
  else if (a =? int_min) && (b =? -1) then Exc (EUB "remainder overflow")
  else Ok (Z.rem a b).

Definition int_op (f : Z -> Z -> res Z) (lhs rhs : dbl) : res dbl :=
  do a <- d_to_int lhs; do b <- d_to_int rhs; do r <- f a b; Ok (d_of_Z r).

(** 225-248 *)
Definition binary (op : string) (lhs rhs : dbl) : res dbl :=
  if String.eqb op "+" then Ok (dadd lhs rhs)
  else if String.eqb op "-" then Ok (dsub lhs rhs)
  else if String.eqb op "*" then Ok (dmul lhs rhs)
  else if String.eqb op "/" then Ok (ddiv lhs rhs)
  else if String.eqb op "AND" then int_op (fun a b => Ok (Z.land a b)) lhs rhs
  else if String.eqb op "OR" then int_op (fun a b => Ok (Z.lor a b)) lhs rhs
  else if String.eqb op "XOR" then int_op (fun a b => Ok (Z.lxor a b)) lhs rhs
  else if String.eqb op "MOD" then int_op int_rem lhs rhs
  else Exc (EEval ["UnsupportedBinaryOperation"; op]).

(** 250-276; the lookup asks for the last line there can be *)
Definition unary (mv : macro_map dbl) (c : ascii) (rhs : dbl) : res dbl :=
  if Ascii.eqb c "-" then Ok (dopp rhs)
  else if Ascii.eqb c "+" then Ok rhs
  else if Ascii.eqb c "#" then
    do id <- d_to_u32 rhs;
    match macro_lookup mv id int_max with
    | Some v => Ok v
    | None => Exc (EEval ["ValueMissing"; z_to_string id])
    end
  else Exc (EEval ["UnsupportedUnaryOperation"; String c ""]).

(** 278-321 *)
Definition call (name : string) (rhs : dbl) : res dbl :=
  if String.eqb name "abs" then Ok (dabs rhs)
  else if mem_str name ["acos"; "asin"; "atan"; "cos"; "cosh"; "sin"; "tan"; "tanh"]
  then Ok (libm name (radians rhs))
  else if String.eqb name "ceil" then Ok (d_ceil rhs)
  else if mem_str name ["exp"; "log10"; "log"] then Ok (libm name rhs)
  else if String.eqb name "floor" then Ok (d_floor rhs)
  else if String.eqb name "sqrt" then Ok (dsqrt rhs)
  else if String.eqb name "round" then Ok (d_round rhs)
  else if String.eqb name "bcd" then
    do n <- d_to_u64 rhs;
    match bcd_to_ui32 n with Some i => Ok (d_of_Z i) | None => Exc (EUB "fuel") end
  else if String.eqb name "bin" then
    do n <- d_to_u32 rhs;
    match uint32_to_bcd n with Some i => Ok (d_of_Z i) | None => Exc (EUB "fuel") end
  else Exc (EEval ["UnsupportedFunction"; name]).

Fixpoint eval (mv : macro_map dbl) (o : operand) : res dbl :=
  match o with
  | ONil => Exc (EEval ["UnsupportedOperation"; "nil"])
  | ONum d => Ok d
  | OSigned c o1 => do r <- eval mv o1; unary mv c r
  | OFun name o1 => do r <- eval mv o1; call name r
  | OProg o1 rest =>
      do v <- eval mv o1;
      (fix ops (v : dbl) (l : list (string * operand)) : res dbl :=
         match l with
         | [] => Ok v
         | (op, o2) :: l' => do r <- eval mv o2; do v' <- binary op v r; ops v' l'
         end) v rest
  end.

(** Answer of [ValueCalculator::parse]: [true] with the value, or [false] with
    the parts of the message. *)
Inductive calc_answer : Type :=
| CValue : dbl -> calc_answer
| CRefused : list string -> calc_answer.

(** ValueCalculator.cpp 394-433.  When the grammar does not match, [p] keeps its
    nil operand and [eval] throws.  Text after the expression is not looked at. *)
Definition value_calculator (mv : macro_map dbl) (data : string) : res calc_answer :=
  let fuel := (4 * String.length data + 4)%nat in
  let answer (o : operand) :=
    match eval mv o with
    | Ok v => Ok (CValue v)
    | Exc (EEval m) => Ok (CRefused m)
    | Exc e => Exc e
    end in
  match expression fuel data with
  | POk o _ => answer o
  | PFail => answer ONil
  | PThrow rest => Ok (CRefused ["syntax"; rest])
  | PFuel => Exc (EUB "fuel")
  end.

End Calc.
