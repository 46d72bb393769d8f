(** Substitution of macros into a block, and publication of system macros.
    Source: parser/fanuc/MacroEvaluatedCodeVerifier.cpp and SystemMacroAssigner.cpp. *)
From Verif Require Import Model.Base Model.Attr Model.Double Model.Macro.

(** ** MacroEvaluatedCodeVerifier.cpp *)

(** MacroEvaluatedCodeVerifier.cpp 17. *)
Definition macro_plain_words : list string := ["#"; "="; "+"; "-"; "*"; "/"; ":"; "N"; "GOTO"].

(** MacroEvaluatedCodeVerifier.cpp 91-93. *)
Record ec_state : Type := mkEC { ec_modified : bool; ec_interesting : bool; ec_text : string }.

Definition ec_init : ec_state := mkEC false false "".

(** MacroEvaluatedCodeVerifier.cpp 31-69.  [*data.value] at 49 is read without a
    check: a macro mark without number is undefined behaviour there.
    [data.assign] is not copied to the text; neither is [data.macro] when it is
    not substituted (57-66). *)
Definition ec_visit (ops : list string) (mv : macro_map dbl) (line : Z) (s : ec_state) (d : decimal)
  : res ec_state :=
  let interesting :=
    ec_interesting s
    || (negb (mem_str (d_word d) macro_plain_words) && negb (mem_str (d_word d) ops)) in
  let t1 := (ec_text s ++ d_word d ++ opt_chr (d_sign d) ++ opt_str (d_open d))%string in
  if interesting && is_some (d_macro d) then
    match d_value d with
    | None => Exc (EUB "empty optional dereferenced")
    | Some v =>
        do n <- stoi v;
        match macro_lookup mv (to_u32 n) line with
        | None => Exc (EMacroEvaluatedCode ("#" ++ v)%string)
        | Some x =>
            Ok (mkEC true interesting (t1 ++ to_string_trunc x ++ opt_str (d_close d))%string)
        end
    end
  else
    Ok (mkEC (ec_modified s) interesting
          (t1 ++ opt_str (d_value d) ++ opt_chr (d_dot d) ++ opt_str (d_value2 d)
              ++ opt_str (d_close d))%string).

(** String and char words are ignored (71-74). *)
Definition ec_step (ops : list string) (mv : macro_map dbl) (line : Z) (s : ec_state) (a : attr)
  : res ec_state :=
  match a with ADec d => ec_visit ops mv line s d | _ => Ok s end.

(** MacroEvaluatedCodeVerifier.cpp 96-108. *)
Definition evaluated_code (ops : list string) (mv : macro_map dbl) (line : Z) (b : block) : res string :=
  do s <- foldM (ec_step ops mv line) ec_init b;
  Ok (if ec_modified s then ec_text s else ""%string).

(** ** SystemMacroAssigner.cpp *)

(** SystemMacroAssigner.cpp 11-15. *)
Definition word_macros : list (string * list Z) :=
  [("B", [4102; 4302; 4502]); ("D", [4107; 4307; 4507]); ("E", [4108; 4308; 4508]);
   ("F", [4109; 4309; 4509]); ("H", [4111; 4311; 4511]); ("M", [4113; 4313; 4513]);
   ("N", [4114; 4314; 4514]); ("O", [4115; 4315; 4515]); ("S", [4119; 4319; 4519])].

(** SystemMacroAssigner.cpp 34-47. *)
Definition value_text (d : decimal) : string :=
  (opt_chr (d_sign d) ++ opt_str (d_value d) ++
   match d_dot d with
   | Some c => String c (opt_str (d_value2 d))
   | None => ""
   end)%string.

(** The table operations one word causes (SystemMacroAssigner.cpp 49-57). *)
Definition system_ops (line : Z) (a : attr) : res (list (mop dbl)) :=
  match a with
  | ADec d =>
      match assoc (d_word d) word_macros with
      | None => Ok []
      | Some ids =>
          do x <- stod (value_text d);
          Ok (map (fun id => MSystem id line x) ids)
      end
  | _ => Ok []
  end.

(** SystemMacroAssigner.cpp 69-74.  The map is updated word by word, so the
    words before one that throws have already been published: the result pairs
    the map with the exception, if any. *)
Fixpoint system_assign (mv : macro_map dbl) (line : Z) (b : block) : macro_map dbl * option exn :=
  match b with
  | [] => (mv, None)
  | a :: b' =>
      match system_ops line a with
      | Exc e => (mv, Some e)
      | Ok ops => system_assign (fold_left mstep ops mv) line b'
      end
  end.
