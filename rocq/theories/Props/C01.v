(** C01: a macro read returns the latest definition at or before the line. *)
From Verif Require Import Model.Base Model.Attr Model.Double Model.Macro Model.MacroEval
  Spec.MacroSpec Proofs.MacroProofs Proofs.MacroEvalProofs.

(** The lookup returns [v] exactly when the history of assignments makes [v]
    visible at the line. *)
Theorem C01_lookup_is_latest : forall V (ops : list (mop V)) id L v,
  macro_lookup (mrun ops) id L = Some v <-> visible ops id L v.
Proof. exact macro_lookup_visible. Qed.
Print Assumptions C01_lookup_is_latest.

(** It finds nothing exactly when nothing was given at or before the line. *)
Theorem C01_lookup_missing : forall V (ops : list (mop V)) id L,
  macro_lookup (mrun ops) id L = None <-> nothing_visible ops id L.
Proof. exact macro_lookup_nothing. Qed.
Print Assumptions C01_lookup_missing.

(** A word such as X#n (address neither an operator nor an operation name) is
    replaced by the visible value, or the block is rejected for a missing
    value naming #n. *)
Theorem C01_use_in_block : forall ops allowed L d v n,
  is_some (d_macro d) = true -> d_value d = Some v -> stoi v = Ok n -> 0 <= n ->
  mem_str (d_word d) macro_plain_words = false -> mem_str (d_word d) allowed = false ->
  (forall x, visible ops n L x ->
     evaluated_code allowed (mrun ops) L [ADec d]
     = Ok (d_word d ++ opt_chr (d_sign d) ++ opt_str (d_open d) ++ to_string_trunc x
           ++ opt_str (d_close d))%string) /\
  (nothing_visible ops n L ->
     evaluated_code allowed (mrun ops) L [ADec d] = Exc (EMacroEvaluatedCode ("#" ++ v))).
Proof. exact macro_use_value. Qed.
Print Assumptions C01_use_in_block.

(** #100 is given 1.5 on line 2 and 7 on line 5; #101 is given 9 on line 3. *)
Definition ex_ops : list (mop dbl) :=
  [MUser 100 2 (d_of_ratio false 3 2); MUser 101 3 (d_of_Z 9); MUser 100 5 (d_of_Z 7)].
Definition ex_word : decimal := mkDec "X" None None None (Some "#") (Some "100") None None None.

Example C01_ex_latest : visible ex_ops 100 4 (d_of_ratio false 3 2).
Proof. apply C01_lookup_is_latest. vm_compute. reflexivity. Qed.

Example C01_ex_missing : nothing_visible ex_ops 100 1.
Proof. apply C01_lookup_missing. vm_compute. reflexivity. Qed.

Example C01_ex_use : evaluated_code ["SIN"] (mrun ex_ops) 4 [ADec ex_word] = Ok "X1.5"
  /\ evaluated_code ["SIN"] (mrun ex_ops) 9 [ADec ex_word] = Ok "X7"
  /\ evaluated_code ["SIN"] (mrun ex_ops) 1 [ADec ex_word] = Exc (EMacroEvaluatedCode "#100").
Proof. vm_compute. auto. Qed.
