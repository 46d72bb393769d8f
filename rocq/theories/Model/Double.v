(** [double] as IEEE-754 binary64, using the bit-exact functions of
    [Coq.Floats.SpecFloat] (no axioms, no primitive floats).

    Trusted reading: the C++ implementation uses binary64 with
    round-to-nearest-even for + - * / and sqrt; [stod] is correctly rounded;
    [printf("%.pf")] is exact decimal expansion rounded half to even.
    NaN has no payload and no sign in this model. *)
From Coq Require Export Floats.SpecFloat.
From Verif Require Import Model.Base.

Definition dbl := spec_float.

Definition dadd : dbl -> dbl -> dbl := SFadd 53 1024.
Definition dsub : dbl -> dbl -> dbl := SFsub 53 1024.
Definition dmul : dbl -> dbl -> dbl := SFmul 53 1024.
Definition ddiv : dbl -> dbl -> dbl := SFdiv 53 1024.
Definition dsqrt : dbl -> dbl := SFsqrt 53 1024.
Definition dopp : dbl -> dbl := SFopp.
Definition dabs : dbl -> dbl := SFabs.
Definition dltb : dbl -> dbl -> bool := SFltb.
Definition dleb : dbl -> dbl -> bool := SFleb.
Definition dgtb (x y : dbl) : bool := SFltb y x.
Definition dgeb (x y : dbl) : bool := SFleb y x.
Definition deqb : dbl -> dbl -> bool := SFeqb.

Definition dzero : dbl := S754_zero false.

(** Conversion of an integer to double (exact below 2^53, else rounded). *)
Definition d_of_Z (z : Z) : dbl := binary_normalize 53 1024 z 0 false.

(** The double nearest to [num/den] ([den] positive). *)
Definition d_of_ratio (s : bool) (num den : Z) : dbl :=
  if num =? 0 then S754_zero s
  else let '(mz, ez, lz) := SFdiv_core_binary 53 1024 num 0 den 0 in
       binary_round_aux 53 1024 s mz ez lz.

(** [std::stod] on the strings this code base builds: optional white space,
    optional sign, digits, optional point and digits.  Exponents, hexadecimal,
    "inf" and "nan" spellings are not modelled (no caller produces them).
    Overflow raises out_of_range; so does underflow to zero of a non-zero
    literal (glibc also reports inexact subnormals, which is not modelled). *)
Definition stod (s : string) : res dbl :=
  let '(_, s1) := span is_space s in
  let '(neg, s2) :=
    match s1 with
    | String c r => if Ascii.eqb c "-" then (true, r)
                    else if Ascii.eqb c "+" then (false, r) else (false, s1)
    | EmptyString => (false, s1)
    end in
  let '(ip, s3) := span is_digit s2 in
  let '(fp, _) :=
    match s3 with
    | String c r => if Ascii.eqb c "." then span is_digit r else (EmptyString, s3)
    | EmptyString => (EmptyString, s3)
    end in
  if (String.length ip + String.length fp =? 0)%nat then Exc EInvalidArgument
  else
    let num := digits_val (ip ++ fp)%string in
    let v := d_of_ratio neg num (10 ^ Z.of_nat (String.length fp)) in
    match v with
    | S754_infinity _ => Exc EOutOfRange
    | S754_zero _ => if num =? 0 then Ok v else Exc EOutOfRange
    | _ => Ok v
    end.

(** Round [n / d] (n >= 0, d > 0) to the nearest integer, ties to even. *)
Definition round_div_even (n d : Z) : Z :=
  let q := n / d in
  let r := n mod d in
  match Z.compare (2 * r) d with
  | Lt => q
  | Gt => q + 1
  | Eq => if Z.even q then q else q + 1
  end.

(** [m * 2^e * 10^p] rounded to an integer, ties to even. *)
Definition scaled_round (m e p : Z) : Z :=
  if 0 <=? e then m * 2 ^ e * 10 ^ p
  else round_div_even (m * 10 ^ p) (2 ^ (- e)).

Fixpoint zero_pad (n : nat) : string :=
  match n with O => "" | S n' => String "0" (zero_pad n') end.

(** Decimal text of [n] / 10^p with exactly [p] digits after the point. *)
Definition fixed_string (n p : Z) : string :=
  let ip := nat_to_string (n / 10 ^ p) in
  if p =? 0 then ip
  else
    let fp := nat_to_string (n mod 10 ^ p) in
    (ip ++ "." ++ zero_pad (Z.to_nat p - String.length fp) ++ fp)%string.

(** [printf("%.pf", x)] / [ostr << std::fixed << std::setprecision(p) << x]. *)
Definition d_to_fixed (p : Z) (x : dbl) : string :=
  match x with
  | S754_nan => "nan"
  | S754_infinity s => if s then "-inf" else "inf"
  | S754_zero s => ((if s then "-" else "") ++ fixed_string 0 p)%string
  | S754_finite s m e =>
      ((if s then "-" else "") ++ fixed_string (scaled_round (Zpos m) e p) p)%string
  end.

(** [std::to_string(double)]. *)
Definition d_to_string (x : dbl) : string := d_to_fixed 6 x.

(** Truncation toward zero; [None] for NaN and infinities. *)
Definition d_trunc (x : dbl) : option Z :=
  match x with
  | S754_nan | S754_infinity _ => None
  | S754_zero _ => Some 0
  | S754_finite s m e =>
      let a := if 0 <=? e then Zpos m * 2 ^ e else Zpos m / 2 ^ (- e) in
      Some (if s then - a else a)
  end.

(** [static_cast<int>(x)]: undefined outside the range of int. *)
Definition d_to_int (x : dbl) : res Z :=
  match d_trunc x with
  | Some z => if (int_min <=? z) && (z <=? int_max) then Ok z
              else Exc (EUB "double to int out of range")
  | None => Exc (EUB "double to int out of range")
  end.

(** [static_cast<unsigned int>(x)] / [static_cast<uint32_t>(x)]: undefined
    outside the range of the target type. *)
Definition d_to_u32 (x : dbl) : res Z :=
  match d_trunc x with
  | Some z => if (0 <=? z) && (z <? 4294967296) then Ok z
              else Exc (EUB "double to unsigned out of range")
  | None => Exc (EUB "double to unsigned out of range")
  end.

Definition d_to_u64 (x : dbl) : res Z :=
  match d_trunc x with
  | Some z => if (0 <=? z) && (z <? 18446744073709551616) then Ok z
              else Exc (EUB "double to uint64 out of range")
  | None => Exc (EUB "double to uint64 out of range")
  end.

(** Remove trailing characters equal to [c]. *)
Fixpoint trim_right (c : ascii) (s : string) : string :=
  match s with
  | EmptyString => EmptyString
  | String a s' =>
      match trim_right c s' with
      | EmptyString => if Ascii.eqb a c then EmptyString else String a EmptyString
      | t => String a t
      end
  end.

(** Drop one trailing point. *)
Fixpoint drop_point (s : string) : string :=
  match s with
  | EmptyString => EmptyString
  | String a EmptyString => if Ascii.eqb a "." then EmptyString else s
  | String a s' => String a (drop_point s')
  end.

(** parser/util.h 10-21: [to_string_trunc].  The text of "%f" always has
    exactly one point followed by six digits, so erasing after the last
    non-zero character (and that character too when it is the point) is
    trimming zeros and then one point; "inf"/"nan" are unchanged. *)
Definition to_string_trunc (x : dbl) : string :=
  match x with
  | S754_nan | S754_infinity _ => d_to_string x
  | _ => drop_point (trim_right "0" (d_to_string x))
  end.
