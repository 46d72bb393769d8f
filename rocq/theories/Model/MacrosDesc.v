(** Descriptions of macro variables (nclangsrv/MacrosDescReader.cpp) and of
    codes (nclangsrv/CodesReader.cpp). The JSON reader of boost is not modelled:
    a file is the list of its "descriptions" in order, each a code with its
    (title, text) pairs. *)
From Verif Require Import Model.Base.

Definition desc_file := list (string * list (string * string)).
Definition desc_data := list (string * (string * string)).

(** [emplace] into a map: the first value of a key stays. New keys are put in
    front; the order of the C++ containers plays a role in [readRanges] only. *)
Definition desc_emplace (m : desc_data) (code : string) (td : string * string) : desc_data :=
  if is_some (assoc code m) then m else (code, td) :: m.

(** MacrosDescReader.cpp 51-57, [mData]. *)
Fixpoint read_json (m : desc_data) (f : desc_file) : desc_data :=
  match f with
  | [] => m
  | (code, tds) :: f' => read_json (fold_left (fun m td => desc_emplace m code td) tds m) f'
  end.

(** MacrosDescReader.cpp 26-43: the user file is read first, when there is one. *)
Definition read_data (user : option desc_file) (builtin : desc_file) : desc_data :=
  read_json (match user with Some f => read_json [] f | None => [] end) builtin.

(** Literal text at the beginning, and what follows. *)
Fixpoint after_prefix (p s : string) : option string :=
  match p, s with
  | EmptyString, _ => Some s
  | String c p', String d s' => if Ascii.eqb c d then after_prefix p' s' else None
  | String _ _, EmptyString => None
  end.

(** Regular expression "\d+", greedy. No expression below can profit from
    giving digits back, since none continues with a digit. *)
Definition some_digits (s : string) : option (string * string) :=
  match span is_digit s with
  | (EmptyString, _) => None
  | r => Some r
  end.

(** "#(\d+)-#(\d+)" at the beginning. *)
Definition match_pair (s : string) : option ((string * string) * string) :=
  match after_prefix "#" s with
  | None => None
  | Some s =>
      match some_digits s with
      | None => None
      | Some (b, s) =>
          match after_prefix "-#" s with
          | None => None
          | Some s => match some_digits s with None => None | Some (e, s) => Some ((b, e), s) end
          end
      end
  end.

(** MacrosDescReader.cpp 79 (r1) and 80 (r2) at the beginning of [s]. *)
Definition match_r1 (s : string) : option (list (string * string)) :=
  match after_prefix "Range: " s with
  | None => None
  | Some s => option_map (fun r => [fst r]) (match_pair s)
  end.
Definition match_r2 (s : string) : option (list (string * string)) :=
  match after_prefix "Range: " s with
  | None => None
  | Some s =>
      match match_pair s with
      | None => None
      | Some (p, s) =>
          match after_prefix " - " s with
          | None => None
          | Some s => option_map (fun r => [p; fst r]) (match_pair s)
          end
      end
  end.

(** [std::regex_search]: the leftmost match. *)
Fixpoint regex_search {A} (m : string -> option A) (s : string) : option A :=
  match m s with
  | Some r => Some r
  | None => match s with EmptyString => None | String _ s' => regex_search m s' end
  end.

(** MacrosDescReader.cpp 87: the ranges a text mentions. *)
Definition text_ranges (text : string) : list (string * string) :=
  match regex_search match_r2 text with
  | Some l => l
  | None => match regex_search match_r1 text with Some l => l | None => [] end
  end.

(** A call of the logger; without one it dereferences a null pointer. *)
Definition log_or_crash {A} (logger : bool) (r : A) : res A :=
  if logger then Ok r else Exc (EUB "logger is null").

(** MacrosDescReader.cpp 92-115, one pair: a number that is out of range is
    logged and skipped. *)
Definition range_of (logger : bool) (code : string) (p : string * string) : res (list (Z * Z * string)) :=
  match stoi (fst p) with
  | Exc _ => log_or_crash logger []
  | Ok b => match stoi (snd p) with
            | Exc _ => log_or_crash logger []
            | Ok e => Ok [(b, e, code)]
            end
  end.

Fixpoint ranges_of (logger : bool) (code : string) (ps : list (string * string)) : res (list (Z * Z * string)) :=
  match ps with
  | [] => Ok []
  | p :: r => do a <- range_of logger code p; do b <- ranges_of logger code r; Ok (a ++ b)%list
  end.

(** MacrosDescReader.cpp 77-117. [order] is [mData] in the order the unordered
    map is walked, which is not specified. *)
Fixpoint read_ranges (logger : bool) (order : desc_data) : res (list (Z * Z * string)) :=
  match order with
  | [] => Ok []
  | (code, (_, text)) :: r =>
      do a <- ranges_of logger code (text_ranges text);
      do b <- read_ranges logger r;
      Ok (a ++ b)%list
  end.

Record macros_desc : Type := mkMD { md_data : desc_data; md_ranges : list (Z * Z * string) }.

(** MacrosDescReader.cpp 119-157. *)
Definition get_desc (logger : bool) (d : macros_desc) (code : string) : res (string * string) :=
  match assoc code (md_data d) with
  | Some td => Ok td
  | None =>
      match stoi code with
      | Exc _ => log_or_crash logger ("", "")
      | Ok n =>
          match find (fun r => let '(b, e, _) := r in (b <? n) && (n <? e)) (md_ranges d) with
          | None => Ok ("", "")
          | Some (_, _, c) => match assoc c (md_data d) with Some td => Ok td | None => Ok ("", "") end
          end
      end
  end.

(** CodesReader.cpp 41-56: [mData] and [mCodes]. A one-digit code gets a synonym
    with a leading zero. *)
Record codes : Type := mkCodes { co_data : desc_data; co_codes : list string }.

Definition add_synonym (code : string) : bool :=
  (String.length code =? 1)%nat ||
  ((String.length code =? 3)%nat && match String.get 1 code with Some c => Ascii.eqb c "." | None => false end).

Definition codes_title (syn : bool) (code : string) (m : desc_data) (td : string * string) : desc_data :=
  let m := desc_emplace m code td in
  if syn then
    match assoc code m with
    | Some td => desc_emplace m ("0" ++ code) td
    | None => m
    end
  else m.

Definition codes_entry (c : codes) (e : string * list (string * string)) : codes :=
  let '(code, tds) := e in
  let syn := add_synonym code in
  mkCodes (fold_left (codes_title syn code) tds (co_data c))
          (co_codes c ++ [code] ++ (if syn then [("0" ++ code)%string] else []))%list.

Definition codes_read (f : desc_file) : codes := fold_left codes_entry f (mkCodes [] []).
