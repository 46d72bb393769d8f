(** Conversion of a block between millimetres and inches.
    Source: parser/fanuc/UnitConverter.cpp. *)
From Verif Require Import Model.Base Model.Attr Model.Double.

(** parser/GeneralParserDefines.h: UnitConversionType. *)
Inductive unit_dir : Type := MetricToImperial | ImperialToMetric.

(** UnitConverter.cpp 157-158. *)
Definition g68_ignored : list string := ["I"; "J"; "K"; "R"].

(** UnitConverter.cpp 154-156. *)
Record uc_state : Type := mkUC { uc_first : bool; uc_ignore : bool; uc_g68 : bool }.

Definition uc_init : uc_state := mkUC false false false.

(** The literal 25.4 (UnitConverter.cpp 107, 110). *)
Definition inch_mm : dbl := d_of_ratio false 254 10.

(** UnitConverter.cpp 163-177: the words of the target grammar that are
    converted, with their entries. *)
Definition conv_entry (g : word_map) (w : string) : option word_grammar :=
  match assoc w g with
  | Some e => if word_type_eqb (g_type e) WTlength || word_type_eqb (g_type e) WTfeed
              then Some e else None
  | None => None
  end.

(** UnitConverter.cpp 114-120. *)
Definition uc_precision (e : word_grammar) : Z :=
  if 0 <? g_dto e then Z.of_nat (String.length (z_to_string (g_dto e))) else 0.

(** UnitConverter.cpp 129-136: text before and after the first point. *)
Fixpoint split_point (s : string) : option (string * string) :=
  match s with
  | EmptyString => None
  | String c r =>
      if Ascii.eqb c "." then Some (EmptyString, r)
      else match split_point r with
           | Some (a, b) => Some (String c a, b)
           | None => None
           end
  end.

(** UnitConverter.cpp 103-112. *)
Definition uc_scale (dir : unit_dir) (x : dbl) : dbl :=
  match dir with
  | MetricToImperial => ddiv x inch_mm
  | ImperialToMetric => dmul x inch_mm
  end.

(** UnitConverter.cpp 94-145: the new value, point and decimals of a word.
    The sign is not part of the number; when the text after the point is empty
    [value2] keeps its old content (134-135). *)
Definition uc_number (dir : unit_dir) (e : word_grammar) (d : decimal) : res decimal :=
  let text := (opt_str (d_value d) ++ opt_chr (d_dot d) ++ opt_str (d_value2 d))%string in
  do x <- stod text;
  let out := trim_right "." (trim_right "0" (d_to_fixed (uc_precision e) (uc_scale dir x))) in
  match split_point out with
  | Some (ip, fp) =>
      Ok (mkDec (d_word d) (d_assign d) (d_sign d) (d_open d) (d_macro d) (Some ip) (Some "."%char)
            (match fp with EmptyString => d_value2 d | _ => Some fp end) (d_close d))
  | None =>
      Ok (mkDec (d_word d) (d_assign d) (d_sign d) (d_open d) (d_macro d) (Some out) None None (d_close d))
  end.

Definition uc_set_value (d : decimal) (v : string) : decimal :=
  mkDec (d_word d) (d_assign d) (d_sign d) (d_open d) (d_macro d) (Some v) (d_dot d) (d_value2 d) (d_close d).

(** What the G tests of UnitConverter.cpp 54-83 decide. *)
Inductive uc_g : Type := GSwap (v : string) | GRotation | GOther.

Definition uc_g_code (dir : unit_dir) (d : decimal) : res uc_g :=
  match d_value d with
  | Some v =>
      if String.eqb (d_word d) "G" then
        do n <- stoi v;
        if (n =? 20) && match dir with ImperialToMetric => true | _ => false end then Ok (GSwap "21")
        else if (n =? 21) && match dir with MetricToImperial => true | _ => false end then Ok (GSwap "20")
        else if n =? 68 then
          match d_value2 d with
          | Some v2 => do n2 <- stoi v2;
                       if (n2 =? 2) || (n2 =? 3) || (n2 =? 4) then Ok GRotation else Ok GOther
          | None => Ok GRotation
          end
        else Ok GOther
      else Ok GOther
  | None => Ok GOther
  end.

(** UnitConverter.cpp 45-49: dwell. *)
Definition uc_dwell (d : decimal) : res bool :=
  match d_value d with
  | Some v => if String.eqb (d_word d) "G" then do n <- stoi v; Ok (n =? 4) else Ok false
  | None => Ok false
  end.

(** UnitConverter.cpp 31-146. *)
Definition uc_visit (dir : unit_dir) (g : word_map) (s : uc_state) (d : decimal) : res (uc_state * decimal) :=
  if uc_ignore s then Ok (s, d)
  else if negb (uc_first s) && String.eqb (d_word d) "/" then Ok (mkUC (uc_first s) true (uc_g68 s), d)
  else
    do dwell <- uc_dwell d;
    if (dwell : bool) then Ok (mkUC true true (uc_g68 s), d)
    else if is_some (d_macro d) || is_some (d_open d) || is_some (d_close d) then Ok (mkUC true false (uc_g68 s), d)
    else
      do k <- uc_g_code dir d;
      match k with
      | GSwap v => Ok (mkUC true false (uc_g68 s), uc_set_value d v)
      | GRotation => Ok (mkUC true false true, d)
      | GOther =>
          let s' := mkUC true false (uc_g68 s) in
          if uc_g68 s && mem_str (d_word d) g68_ignored then Ok (s', d)
          else match conv_entry g (d_word d) with
               | None => Ok (s', d)
               | Some e => do d' <- uc_number dir e d; Ok (s', d')
               end
      end.

(** String and char words are left alone (148-151). *)
Definition uc_step (dir : unit_dir) (g : word_map) (s : uc_state) (a : attr) : res (uc_state * attr) :=
  match a with
  | ADec d => do r <- uc_visit dir g s d; Ok (fst r, ADec (snd r))
  | _ => Ok (s, a)
  end.

Fixpoint uc_block (dir : unit_dir) (g : word_map) (s : uc_state) (b : block) : res block :=
  match b with
  | [] => Ok []
  | a :: b' => do r <- uc_step dir g s a; do b'' <- uc_block dir g (fst r) b'; Ok (snd r :: b'')
  end.

(** UnitConverter.cpp 179-200: millimetres to inches reads the imperial
    grammar, inches to millimetres the metric one. *)
Definition target_grammar (dir : unit_dir) (fg : fanuc_grammar) : word_map :=
  match dir with MetricToImperial => imperial fg | ImperialToMetric => metric fg end.

Definition unit_convert (dir : unit_dir) (fg : fanuc_grammar) (b : block) : res block :=
  uc_block dir (target_grammar dir fg) uc_init b.
