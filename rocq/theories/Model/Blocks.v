(** Files of the .NET library: the text of a code (parser_net/CodeGroups.cs) and
    predefined blocks (parser_net/PredefinedBlocks.cs).  Reading and writing of
    JSON is not modelled: a file is the group it describes, or it is empty, or not
    what is expected.  [EInvalidArgument] stands for any exception of .NET, except
    that a number out of range is [EOutOfRange]. *)
From Verif Require Import Model.Base.
Local Open Scope string_scope.
Local Open Scope list_scope.
Local Open Scope Z_scope.

(** ** The text of a code *)

Record code_value : Type := mkCode { cv_code : Z; cv_rest : Z }.

(** CodeGroups.cs 15-18. *)
Definition code_text (c : code_value) : string :=
  if cv_rest c =? 0 then nat_to_string (cv_code c) else (nat_to_string (cv_code c) ++ String "." (nat_to_string (cv_rest c)))%string.

(** [uint.Parse] (CodeGroups.cs 23, 26): white space, a sign and digits. *)
Definition uint_parse (s : string) : res Z :=
  let s := snd (span is_space s) in
  let '(neg, s) := match s with
                   | String c r => if Ascii.eqb c "-" then (true, r) else if Ascii.eqb c "+" then (false, r) else (false, s)
                   | EmptyString => (false, s)
                   end in
  let '(d, r) := span is_digit s in
  if negb (String.eqb d "") && all_chars is_space r then
    let v := digits_val d in
    if (neg && negb (v =? 0)) || (4294967295 <? v) then Exc EOutOfRange else Ok v
  else Exc EInvalidArgument.

(** [IndexOf('.')] and the two [Substring]s (CodeGroups.cs 22, 23, 26). *)
Fixpoint at_dot (s : string) : string * option string :=
  match s with
  | EmptyString => (EmptyString, None)
  | String c r => if Ascii.eqb c "." then (EmptyString, Some r) else let '(a, b) := at_dot r in (String c a, b)
  end.

(** CodeGroups.cs 20-28. *)
Definition code_parse (s : string) : res code_value :=
  let '(a, b) := at_dot s in
  do c <- uint_parse a;
  do r <- match b with Some b => uint_parse b | None => Ok 0 end;
  Ok (mkCode c r).

(** ** [string.Format] with one argument *)

Inductive fstate : Type :=
| FText                              (* outside of a hole *)
| FOpened                            (* behind an opening brace *)
| FClosed                            (* behind a closing brace *)
| FIndex (n : Z)                     (* in the number of the argument *)
| FSpaces (n : Z)                    (* behind it *)
| FComma (n : Z)                     (* behind the comma *)
| FMinus (n : Z)                     (* behind the minus *)
| FWidth (n : Z) (left_ : bool) (w : Z)
| FEnd (n : Z) (left_ : bool) (w : Z)     (* spaces behind the width *)
| FFormat (n : Z) (left_ : bool) (w : Z). (* behind the colon *)

Fixpoint spaces (n : nat) : string := match n with O => EmptyString | S n' => String " " (spaces n') end.

Definition padded (arg : string) (left_ : bool) (w : Z) : string :=
  let p := spaces (Z.to_nat w - String.length arg) in if left_ then (arg ++ p)%string else (p ++ arg)%string.

(** [string.Format] (PredefinedBlocks.cs 53), after its documentation.  The format of an argument that is a text does nothing; braces in it are taken
    as an error, and the limit of 1000000 for a width is left out. *)
Fixpoint format_from (arg : string) (st : fstate) (s : string) : res string :=
  match s with
  | EmptyString => match st with FText => Ok EmptyString | _ => Exc EInvalidArgument end
  | String c r =>
      let emit n l w := if n =? 0 then do t <- format_from arg FText r; Ok (padded arg l w ++ t)%string else Exc EInvalidArgument in
      let keep := do t <- format_from arg FText r; Ok (String c t) in
      let go st' := format_from arg st' r in
      let d := digit_val c in
      match st with
      | FText => if Ascii.eqb c "{" then go FOpened else if Ascii.eqb c "}" then go FClosed else keep
      | FOpened => if Ascii.eqb c "{" then keep else if is_digit c then go (FIndex d) else Exc EInvalidArgument
      | FClosed => if Ascii.eqb c "}" then keep else Exc EInvalidArgument
      | FIndex n =>
          if is_digit c then go (FIndex (10 * n + d)) else if Ascii.eqb c " " then go (FSpaces n)
          else if Ascii.eqb c "," then go (FComma n) else if Ascii.eqb c ":" then go (FFormat n false 0)
          else if Ascii.eqb c "}" then emit n false 0 else Exc EInvalidArgument
      | FSpaces n =>
          if Ascii.eqb c " " then go (FSpaces n)
          else if Ascii.eqb c "," then go (FComma n) else if Ascii.eqb c ":" then go (FFormat n false 0)
          else if Ascii.eqb c "}" then emit n false 0 else Exc EInvalidArgument
      | FComma n =>
          if Ascii.eqb c " " then go (FComma n) else if Ascii.eqb c "-" then go (FMinus n)
          else if is_digit c then go (FWidth n false d) else Exc EInvalidArgument
      | FMinus n => if is_digit c then go (FWidth n true d) else Exc EInvalidArgument
      | FWidth n l w =>
          if is_digit c then go (FWidth n l (10 * w + d)) else if Ascii.eqb c " " then go (FEnd n l w)
          else if Ascii.eqb c ":" then go (FFormat n l w) else if Ascii.eqb c "}" then emit n l w else Exc EInvalidArgument
      | FEnd n l w =>
          if Ascii.eqb c " " then go (FEnd n l w)
          else if Ascii.eqb c ":" then go (FFormat n l w) else if Ascii.eqb c "}" then emit n l w else Exc EInvalidArgument
      | FFormat n l w => if Ascii.eqb c "}" then emit n l w else if Ascii.eqb c "{" then Exc EInvalidArgument else go (FFormat n l w)
      end
  end.

Definition string_format (s arg : string) : res string := format_from arg FText s.

(** ** Groups of blocks *)

(** PredefinedBlocks.cs 15-31.  The members that only pass through are one text.
    A list that the file does not have is null; a file with a null for a block or a
    line is taken as [Strange], as reading fails for both. *)
Record block : Type := mkBlock { bl_about : string; bl_code : option (list string) }.
Record group : Type := mkGroup { gr_about : string; gr_blocks : option (list block) }.
Inductive content : Type := Empty_ | Strange | Group_ (g : group).
Inductive access : Type := ReadOnly | ReadWrite.

(** A path is a directory and a name. *)
Definition path : Type := string * string.
Definition path_eqb (p q : path) : bool := String.eqb (fst p) (fst q) && String.eqb (snd p) (snd q).
Definition files : Type := list (path * content).

Definition lower_case (c : ascii) : ascii :=
  let n := nat_of_ascii c in if (Nat.leb 65 n && Nat.leb n 90)%bool then ascii_of_nat (n + 32) else c.
Fixpoint lower_text (s : string) : string := match s with EmptyString => EmptyString | String c r => String (lower_case c) (lower_text r) end.
(** Names match in any case, as on Windows. *)
Definition is_json (name : string) : bool :=
  let n := String.length name in
  (Nat.leb 5 n && String.eqb (lower_text (substring (n - 5) 5 name)) ".json")%bool.

Section Directory.
(** The full name of a directory. *)
Variable full : string -> string.

(** [GetFiles("*.json")], without the directory (PredefinedBlocks.cs 43). *)
Definition json_files (dir : string) (fs : files) : list (string * content) :=
  map (fun e => (snd (fst e), snd e)) (filter (fun e => String.eqb (fst (fst e)) (full dir) && is_json (snd (fst e))) fs).

Fixpoint mapm {A B} (f : A -> res B) (l : list A) : res (list B) :=
  match l with [] => Ok [] | a :: l' => do b <- f a; do bs <- mapm f l'; Ok (b :: bs) end.

Definition format_block (dot : string) (b : block) : res block :=
  match bl_code b with
  | None => Exc EInvalidArgument
  | Some l => do l' <- mapm (fun s => string_format s dot) l; Ok (mkBlock (bl_about b) (Some l'))
  end.

Definition format_group (dot : string) (g : group) : res group :=
  match gr_blocks g with
  | None => Exc EInvalidArgument
  | Some l => do l' <- mapm (format_block dot) l; Ok (mkGroup (gr_about g) (Some l'))
  end.

(** PredefinedBlocks.cs 35-63.  A directory that does not exist has no files. *)
Definition read_groups (dir dot : string) (a : access) (fs : files) : res (list (path * (group * access))) :=
  do gs <- mapm (fun e => match snd e with Group_ g => Ok ((full dir, fst e), g) | _ => Exc EInvalidArgument end) (json_files dir fs);
  mapm (fun e => do g <- format_group dot (snd e); Ok (fst e, (g, a))) gs.

Definition put_file (p : path) (c : content) (fs : files) : files :=
  if existsb (fun e => path_eqb p (fst e)) fs then map (fun e => if path_eqb p (fst e) then (p, c) else e) fs else fs ++ [(p, c)].

(** PredefinedBlocks.cs 71-86.  What [EnumerateFiles] returns begins with the
    directory as it was given.  The directory exists. *)
Definition write_groups (gs : list (path * (group * access))) (dir : string) (fs : files) : files :=
  let gone e := String.eqb (fst (fst e)) (full dir) && is_json (snd (fst e)) &&
                negb (existsb (fun g => path_eqb (dir, snd (fst e)) (fst g)) gs) in
  fold_left (fun fs g => match snd g with (v, ReadWrite) => put_file (fst g) (Group_ v) fs | (_, ReadOnly) => fs end) gs
    (filter (fun e => negb (gone e)) fs).
End Directory.
