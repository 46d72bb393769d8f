(** C57: macros, path and time handed out. *)
From Verif Require Import Model.Base Model.Attr Model.Double Model.Macro Model.PathCalc Model.Wrapper Spec.WrapperSpec.
From Verif Require Import Proofs.MacroProofs Proofs.WrapperProofs Proofs.WrapperTables.

(** The three arrays hold number, line and value of every entry of the table, in
    its order; the numbers are handed out as signed ints. *)
Theorem C57_macros : forall mv o h o' h', get_macro_values mv o h = (o', h') ->
  extends h h' /\ mo_length o' = Z.of_nat (List.length mv) /\
  (mv = [] -> mo_ids o' = mo_ids o /\ mo_lines o' = mo_lines o /\ mo_values o' = mo_values o) /\
  (mv <> [] -> Forall (fun e => k_id (fst e) <= int_max /\ 0 <= k_id (fst e)) mv ->
   ints_at h' (mo_ids o') (map (fun e => k_id (fst e)) mv) /\ ints_at h' (mo_lines o') (map (fun e => k_line (fst e)) mv) /\
   dbls_at h' (mo_values o') (map snd mv)).
Proof. exact macros_exported. Qed.
Print Assumptions C57_macros.

(** The entries of one line: exactly those assigned there, each number once. *)
Theorem C57_line : forall (ops : list (mop dbl)) line o h o' h', get_line_macro_values (mrun ops) line o h = (o', h') ->
  let here := filter (fun e => k_line (fst e) =? line) (mrun ops) in
  extends h h' /\ mo_length o' = Z.of_nat (List.length here) /\ mo_lines o' = mo_lines o /\
  NoDup (map (fun e => k_id (fst e)) here) /\
  (here = [] -> mo_ids o' = mo_ids o /\ mo_values o' = mo_values o) /\
  (here <> [] -> Forall (fun e => k_id (fst e) <= int_max /\ 0 <= k_id (fst e)) (mrun ops) ->
   ints_at h' (mo_ids o') (map (fun e => k_id (fst e)) here) /\ dbls_at h' (mo_values o') (map snd here)).
Proof. exact line_values. Qed.
Print Assumptions C57_line.

(** A number above the largest int comes out negative. *)
Theorem C57_large_refuted : exists mv h' o', get_macro_values mv (mkMO PNull PNull PNull 0) [] = (o', h') /\
  map (fun e => k_id (fst e)) mv = [2147483648] /\ at_cell h' (mo_ids o') (CInts [Some (-2147483648)]).
Proof. exact large_macro. Qed.
Print Assumptions C57_large_refuted.

(** Path, time and the ranges of the axes. *)
Theorem C57_path : forall metric c h o h', get_path_values metric c h = (o, h') ->
  zero_free (p_tool_id (c_path c)) -> zero_free (t_tool_id (c_time c)) -> Forall (fun e => zero_free (fst e)) (c_range c) ->
  extends h h' /\
  (exists t, at_cell h' (po_path o) (CResult (p_total (c_path c)) (p_work (c_path c)) (p_fast (c_path c)) (p_tool_total (c_path c)) t) /\
     text_at h' t (p_tool_id (c_path c))) /\
  (exists t, at_cell h' (po_time o) (CResult (t_total (c_time c)) (t_work (c_time c)) (t_fast (c_time c)) (t_tool_total (c_time c)) t) /\
     text_at h' t (t_tool_id (c_time c))) /\
  po_length o = Z.of_nat (List.length (c_range c)) /\
  (exists rs, at_cell h' (po_ranges o) (CRanges rs) /\
     Forall2 (fun r e => text_at h' (fst r) (fst e) /\ snd r = snd e) rs (c_range c)).
Proof. exact path_exported. Qed.
Print Assumptions C57_path.

(** Everything is released once. *)
Theorem C57_released :
  (forall mv h o' h', get_macro_values mv (mkMO PNull PNull PNull 0) h = (o', h') ->
     exists h1, dispose_macros o' h' = Ok h1 /\ all_released h h1) /\
  (forall mv line h o' h', get_line_macro_values mv line (mkMO PNull PNull PNull 0) h = (o', h') ->
     exists h1, dispose_macros o' h' = Ok h1 /\ all_released h h1) /\
  (forall metric c h o h', get_path_values metric c h = (o, h') -> exists h1, dispose_path_values o h' = Ok h1 /\ all_released h h1).
Proof. split; [exact macros_released|]. split; [exact line_macros_released|exact path_released]. Qed.
Print Assumptions C57_released.

Example C57_ex : let mv := mrun [MUser 1 2 (d_of_Z 5); MUser 7 3 (d_of_Z 6); MSystem 1 3 (d_of_Z 8)] in
  exists o' h', get_line_macro_values mv 3 (mkMO PNull PNull PNull 0) [] = (o', h') /\
  filter (fun e => k_line (fst e) =? 3) mv = [(mkKey 7 3, d_of_Z 6); (mkKey 1 3, d_of_Z 8)] /\
  Forall (fun e => k_id (fst e) <= int_max /\ 0 <= k_id (fst e)) mv /\
  at_cell h' (mo_ids o') (CInts [Some 7; Some 1; None]).
Proof.
  eexists _, _. split; [vm_compute; reflexivity|]. split; [vm_compute; reflexivity|]. split.
  - repeat constructor; vm_compute; discriminate.
  - eexists. split; [reflexivity|]. vm_compute. reflexivity.
Qed.
