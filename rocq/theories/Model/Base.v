(** Shared vocabulary of the model: strings, decimal numbers, outcomes.

    [std::string] is Coq's [string] (8-bit characters).  [int]/[unsigned] are
    [Z]; where wrap-around matters it is written explicitly.  C++ exceptions
    and undefined behaviour are explicit outcomes of type [exn]. *)
From Coq Require Export List Bool ZArith Lia Ascii String.
From Coq Require Import ZifyBool.
Export ListNotations.

Open Scope list_scope.
Open Scope string_scope.
Open Scope Z_scope.

(** ** Outcomes *)

(** The exceptions the modelled code can raise.  [EInvalidArgument] and
    [EOutOfRange] are the two exceptions of [std::stoi]/[std::stod]/[.at];
    [EFilesystem] is [std::filesystem::filesystem_error] with the path;
    [EUB] marks behaviour the C++ standard leaves undefined. *)
Inductive exn : Type :=
| EInvalidArgument : exn
| EOutOfRange : exn
| EUniqueCode : string -> exn
| ECodeGroups : list string -> exn
| EMacroEvaluatedCode : string -> exn
| EPathCalc : list string -> exn
| ERangeVerifier : list string -> exn
| ESameWord : string -> exn
| ERotation : list string -> exn
| EFileSplitter : list string -> exn
| EExpectation : Z -> exn
| EEval : list string -> exn
| EFilesystem : string -> exn
| EUB : string -> exn.

Inductive res (A : Type) : Type :=
| Ok : A -> res A
| Exc : exn -> res A.
Arguments Ok {A} _.
Arguments Exc {A} _.

Definition bind {A B} (x : res A) (f : A -> res B) : res B :=
  match x with Ok a => f a | Exc e => Exc e end.

Notation "'do' x <- e1 ; e2" := (bind e1 (fun x => e2))
  (at level 200, x name, e1 at level 100, e2 at level 200).

Definition is_ok {A} (x : res A) : bool :=
  match x with Ok _ => true | Exc _ => false end.

(** Sequential visiting of a vector with an exception-raising visitor: the
    [for (size_t x = 0; ...) boost::apply_visitor(v, value[x])] loop that every
    verifier of parser/fanuc uses. *)
Fixpoint foldM {S A} (f : S -> A -> res S) (s : S) (l : list A) : res S :=
  match l with
  | [] => Ok s
  | a :: l' => match f s a with Ok s' => foldM f s' l' | Exc e => Exc e end
  end.

(** ** Characters and decimal strings *)

Definition code (c : ascii) : Z := Z.of_nat (nat_of_ascii c).

Definition is_digit (c : ascii) : bool := (48 <=? code c) && (code c <=? 57).

(** [std::isspace] in the "C" locale. *)
Definition is_space (c : ascii) : bool :=
  (code c =? 32) || ((9 <=? code c) && (code c <=? 13)).

(** [qi::blank]: space or horizontal tab. *)
Definition is_blank (c : ascii) : bool := (code c =? 32) || (code c =? 9).

Definition digit_val (c : ascii) : Z := code c - 48.

Definition digit_char (d : Z) : ascii := ascii_of_nat (Z.to_nat (d + 48)).

(** The longest prefix satisfying [p], and the rest. *)
Fixpoint span (p : ascii -> bool) (s : string) : string * string :=
  match s with
  | EmptyString => (EmptyString, EmptyString)
  | String c s' =>
      if p c then let '(a, b) := span p s' in (String c a, b)
      else (EmptyString, s)
  end.

Fixpoint all_chars (p : ascii -> bool) (s : string) : bool :=
  match s with
  | EmptyString => true
  | String c s' => p c && all_chars p s'
  end.

(** Value of a digit string read left to right. *)
Fixpoint digits_acc (acc : Z) (s : string) : Z :=
  match s with
  | EmptyString => acc
  | String c s' => digits_acc (acc * 10 + digit_val c) s'
  end.

Definition digits_val (s : string) : Z := digits_acc 0 s.

(** [std::to_string] of a non-negative integer. *)
Fixpoint to_digits (fuel : nat) (n : Z) (acc : string) : string :=
  let acc' := String (digit_char (n mod 10)) acc in
  if n / 10 =? 0 then acc'
  else match fuel with
       | O => acc'
       | S f => to_digits f (n / 10) acc'
       end.

Definition nat_to_string (n : Z) : string := to_digits (Z.to_nat (Z.log2 n)) n "".

(** [std::to_string] of an [int]/[unsigned int]. *)
Definition z_to_string (n : Z) : string :=
  if n <? 0 then String "-" (nat_to_string (- n)) else nat_to_string n.

Definition int_min : Z := - 2147483648.
Definition int_max : Z := 2147483647.

(** [std::stoi(s)] (base 10): skip white space, optional sign, at least one
    digit, stop at the first non-digit; [EInvalidArgument] without digits,
    [EOutOfRange] outside [int]. *)
Definition stoi (s : string) : res Z :=
  let '(_, s1) := span is_space s in
  let '(neg, s2) :=
    match s1 with
    | String c r => if Ascii.eqb c "-" then (true, r)
                    else if Ascii.eqb c "+" then (false, r) else (false, s1)
    | EmptyString => (false, s1)
    end in
  let '(ds, _) := span is_digit s2 in
  match ds with
  | EmptyString => Exc EInvalidArgument
  | _ => let v := if neg then - digits_val ds else digits_val ds in
         if (v <? int_min) || (int_max <? v) then Exc EOutOfRange else Ok v
  end.

(** Conversion of an [int] to [unsigned int] (as in [unsigned int val = std::stoi(...)]). *)
Definition to_u32 (n : Z) : Z := n mod 4294967296.

(** ** Association lists keyed by strings *)

Fixpoint assoc {A} (k : string) (m : list (string * A)) : option A :=
  match m with
  | [] => None
  | (k', v) :: m' => if String.eqb k k' then Some v else assoc k m'
  end.

Definition mem_str (k : string) (l : list string) : bool := existsb (String.eqb k) l.

Definition opt_str (o : option string) : string := match o with Some s => s | None => "" end.
Definition opt_chr (o : option ascii) : string := match o with Some c => String c "" | None => "" end.

Definition is_some {A} (o : option A) : bool := match o with Some _ => true | None => false end.

(** [sub] occurs in [s] ([s.find(sub) != npos]). *)
Fixpoint contains (sub s : string) : bool :=
  String.prefix sub s ||
  match s with
  | EmptyString => false
  | String _ s' => contains sub s'
  end.
