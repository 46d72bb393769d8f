(** C71: what a .NET program gets from the parser.  Partial: splitting leaves
    memory behind when there is no piece, and cannot read an empty piece. *)
From Verif Require Import Model.Base Model.Attr Model.Double Model.Macro Model.Verifiers Model.PathCalc Model.Parser Model.Wrapper Model.Net.
From Verif Require Import Spec.WrapperSpec Spec.NetSpec Spec.VerifierSpec.
From Verif Require Import Proofs.WrapperProofs Proofs.WrapperTables Proofs.WrapperCalls Proofs.NetProofs Proofs.NetMacros Proofs.NetCases Proofs.ParserCases.
Local Open Scope string_scope.
Local Open Scope list_scope.
Local Open Scope Z_scope.

(** The words, the message and, with a clean register, the answer are those of
    the parser, and every allocation of the call is released. *)
Theorem C71_words : forall text junk op p h p' v r m, op p = (p', v, Answer r m) ->
  exists h', net_words text junk op p h = (p', h', Ok (orb r junk, map seen v, upto_zero (text m))) /\ all_released h h'.
Proof. exact net_words_eq. Qed.
Print Assumptions C71_words.

Theorem C71_message : forall text junk op p h p' v r m, op p = (p', v, Answer r m) ->
  exists h', net_parse text junk op p h = (p', h', Ok (orb r junk, upto_zero (text m))) /\ all_released h h'.
Proof. exact net_parse_eq. Qed.
Print Assumptions C71_message.

(** An exception of the parser leaves nothing behind. *)
Theorem C71_exception : forall text junk op p h p' v e, op p = (p', v, Escapes e) -> net_words text junk op p h = (p', h, Exc e).
Proof. exact net_words_throws. Qed.
Print Assumptions C71_exception.

(** The pieces of a split file; memory stays exactly when there is none. *)
Theorem C71_split_partial : forall text junk op p h p' ps r m, op p = (p', ps, Answer r m) ->
  exists h', net_split text junk op p h = (p', h', Ok (orb r junk, map (map (map seen)) ps, upto_zero (text m))) /\
    (ps <> [] -> all_released h h') /\
    (ps = [] -> all_released (h ++ [Some (CWords []); Some (CInts []); Some (CInts [])]) h').
Proof. exact net_split_eq. Qed.
Print Assumptions C71_split_partial.

(** The texts of a split file without empty pieces; an empty piece is a read
    through a pointer that was never set. *)
Theorem C71_texts_partial : forall text junk op p h p' ps r m, op p = (p', ps, Answer r m) ->
  (Forall (fun c => c <> []) ps ->
   exists h', net_texts text junk op p h = (p', h', Ok (orb r junk, map (fun c => upto_zero (piece_lines c)) ps, upto_zero (text m))) /\ all_released h h') /\
  (In [] ps -> exists h' w, net_texts text junk op p h = (p', h', Exc (EUB w))).
Proof. exact net_texts_eq. Qed.
Print Assumptions C71_texts_partial.

(** The table of macro values, in order, and the values of a line put into a
    table; ids up to 2147483647 (see C57 for larger ones). *)
Theorem C71_macros : forall ops h, Forall (fun e => 0 <= k_id (fst e) <= 2147483647) (mrun ops) ->
  exists h', net_macros (mrun ops) h = Ok (map (fun e => ((k_id (fst e), k_line (fst e)), snd e)) (mrun ops), h') /\ all_released h h'.
Proof. intros ops h. exact (net_macros_eq (mrun ops) h (MacroProofs.mrun_sorted dbl ops)). Qed.
Print Assumptions C71_macros.

Theorem C71_line_macros : forall ops line d h, Forall (fun e => 0 <= k_id (fst e) <= 2147483647) (mrun ops) ->
  let here := filter (fun e => k_line (fst e) =? line) (mrun ops) in
  exists d' h', net_line_macros (mrun ops) line d h = Ok (Z.of_nat (List.length here), d', h') /\ all_released h h' /\
    forall k, value_of k d' =
      match value_of k (map (fun e => ((k_id (fst e), k_line (fst e)), snd e)) here) with Some v => Some v | None => value_of k d end.
Proof. intros ops line d h. exact (net_line_macros_eq (mrun ops) line d h (MacroProofs.mrun_sorted dbl ops)). Qed.
Print Assumptions C71_line_macros.

Theorem C71_path : forall metric c h,
  exists h', net_path metric c h =
    Ok (mkNR (p_total (c_path c)) (p_work (c_path c)) (p_fast (c_path c)) (p_tool_total (c_path c)) (upto_zero (p_tool_id (c_path c))),
        mkNR (t_total (c_time c)) (t_work (c_time c)) (t_fast (c_time c)) (t_tool_total (c_time c)) (upto_zero (t_tool_id (c_time c))),
        map (fun e => (upto_zero (fst e), snd e)) (c_range c), if metric then 0 else 1, h') /\ all_released h h'.
Proof. exact net_path_eq. Qed.
Print Assumptions C71_path.

(** The tables a parser is made with are those of the dictionaries. *)
Theorem C71_groups : forall d, exists m, net_groups d = Ok m /\ groups_ok m /\
  forall c g, in_group m c g <-> exists codes, In (g, codes) d /\ In c codes.
Proof. exact net_groups_ok. Qed.
Print Assumptions C71_groups.

Theorem C71_grammar : forall d, NoDup (map fst d) -> exists wm, net_grammar d = Ok wm /\ NoDup (map fst wm) /\
  forall k v, assoc k wm = Some v <-> In (k, v) d.
Proof. exact net_grammar_ok. Qed.
Print Assumptions C71_grammar.

(** Texts without a zero come whole. *)
Theorem C71_whole : forall s, zero_free s -> upto_zero s = s.
Proof. exact upto_free. Qed.
Print Assumptions C71_whole.

(** [number_split]: splitting every two lines, with the shipped tables.  A line
    with a mistake leaves three arrays behind. *)
Theorem C71_leak_refuted : forall text, exists p' h' msg,
  net_split text false (number_split ["G1 X5"; "G1 Y$"]) ex_parser [] = (p', h', Ok (false, [], msg)) /\
  nth_error h' 0 = Some (Some (CWords [])) /\ nth_error h' 1 = Some (Some (CInts [])) /\ nth_error h' 2 = Some (Some (CInts [])) /\ ~ all_released [] h'.
Proof. exact split_leaks. Qed.
Print Assumptions C71_leak_refuted.

(** A mistake is reported as success when the other bytes of the register with
    the answer are not zero. *)
Theorem C71_answer_refuted : forall text, exists p' h' ws msg,
  net_words text true (ex_parse ex_none 0 "G1 Y$") ex_parser [] = (p', h', Ok (true, ws, msg)) /\
  exists v m, ex_parse ex_none 0 "G1 Y$" ex_parser = (p', v, Answer false m).
Proof. exact bool_junk. Qed.
Print Assumptions C71_answer_refuted.

(** A program that starts with the text it is split at. *)
Theorem C71_texts_refuted : forall text junk, exists p' h' w, net_texts text junk (text_split "T1" ["T1 M6"; "G1 X5"]) ex_parser [] = (p', h', Exc (EUB w)).
Proof. exact texts_wild_read. Qed.
Print Assumptions C71_texts_refuted.

Example C71_ex :
  (exists p' h', net_words (fun _ => "bad") false (fun p => (p, [ADec (plain "G" "1"); AStr "(" "hi"], Answer false MNone)) ex_parser []
     = (p', h', Ok (false, [("G", "1"); ("(", "hi)")], "bad")) /\ List.length h' = 6%nat) /\
  (exists p' h', net_split (fun _ => "") false (number_split ["G1"; "G2"; "G3"]) ex_parser []
     = (p', h', Ok (true, [[[("N", "1"); ("G", "1")]; [("N", "1"); ("G", "2")]]; [[("N", "1"); ("G", "3")]]], "")) /\ all_released [] h') /\
  net_groups [("a", [mkCgv 0 0; mkCgv 1 0]); ("b", [mkCgv 1 0])] = Ok [(mkCgv 0 0, ["a"]); (mkCgv 1 0, ["a"; "b"])] /\
  net_line_macros [(mkKey 100 1, dzero); (mkKey 101 1, dzero); (mkKey 101 2, dzero)] 1 [((101, 1), (d_of_Z 1))] []
    = Ok (2, [((101, 1), dzero); ((100, 1), dzero)], [None; None]).
Proof.
  split; [|split; [|split]].
  - do 2 eexists. split; [vm_compute; reflexivity|reflexivity].
  - do 2 eexists. split; [vm_compute; reflexivity|]. exists 15%nat. reflexivity.
  - reflexivity.
  - reflexivity.
Qed.
