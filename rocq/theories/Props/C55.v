(** C55: what a call hands out can be read, and giving it back releases it. *)
From Verif Require Import Model.Base Model.Attr Model.Double Model.Parser Model.Wrapper Spec.WrapperSpec Proofs.WrapperProofs Proofs.WrapperTables Proofs.WrapperCalls.

(** The variables of the caller after a call that returned: the words and the
    message are those of the parser; without words or message the variables are
    left alone. *)
Theorem C55_words : forall text op o p h p' h' o' r, words_call text op o p h = (p', h', o', Ok r) ->
  exists v m, op p = (p', v, Answer r m) /\ extends h h' /\
    (v = [] -> o_value o' = o_value o /\ o_length o' = o_length o) /\
    (v <> [] -> o_length o' = Z.of_nat (List.length v) /\
       exists ws, at_cell h' (o_value o') (CWords ws) /\ List.length ws = List.length v /\
         (Forall word_zero_free v -> Forall2 (word_at h') ws (map shown v))) /\
    (text m = ""%string -> o_message o' = o_message o) /\
    (text m <> ""%string -> zero_free (text m) -> text_at h' (o_message o') (text m)).
Proof. exact words_call_reads. Qed.
Print Assumptions C55_words.

(** A call that throws hands out nothing. *)
Theorem C55_exception : forall text op o p h p' h' o' e, words_call text op o p h = (p', h', o', Exc e) -> h' = h /\ o' = o.
Proof. exact words_call_throws. Qed.
Print Assumptions C55_exception.

(** Starting from null pointers, the two functions for giving back release every
    allocation of the call exactly once. *)
Theorem C55_released : forall text op p h p' h' o' r, words_call text op (mkOuts PNull 0 PNull) p h = (p', h', o', Ok r) ->
  exists h1 h2, dispose_words (o_value o') (o_length o') h' = Ok h1 /\ dispose_chars (o_message o') h1 = Ok h2 /\ all_released h h2.
Proof. exact words_call_released. Qed.
Print Assumptions C55_released.

(** With pointers of an earlier call still in the variables the words are
    released twice when the second line has none. *)
Theorem C55_reuse_refuted : exists text op1 op2 p p1 h1 o1 p2 h2 o2 h3 w,
  words_call text op1 (mkOuts PNull 0 PNull) p [] = (p1, h1, o1, Ok true) /\
  dispose_words (o_value o1) (o_length o1) h1 = Ok h2 /\
  words_call text op2 o1 p1 h2 = (p2, h3, o2, Ok true) /\
  dispose_words (o_value o2) (o_length o2) h3 = Exc (EUB w).
Proof. exact words_reuse. Qed.
Print Assumptions C55_reuse_refuted.

Example C55_ex : exists p' h' o', words_call (fun _ => "bad"%string) (fun p => (p, [ADec (plain "G" "1"); ADec (plain "X" "5")], Answer false MNone))
    (mkOuts PNull 0 PNull) (parser_new (mkConfig (mkFG [] []) [] [] [] false) false) [] = (p', h', o', Ok false) /\
  o_length o' = 2 /\ List.length h' = 6%nat /\ Forall word_zero_free [ADec (plain "G" "1"); ADec (plain "X" "5")].
Proof. eexists _, _, _. split; [vm_compute; reflexivity|]. split; [reflexivity|]. split; [reflexivity|]. repeat constructor. Qed.
