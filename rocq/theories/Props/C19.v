(** C19: a word is accepted exactly when its value is in the configured range. *)
From Verif Require Import Model.Base Model.Attr Model.Grammar Model.Shipped Spec.Text Spec.GrammarSpec.
From Verif Require Import Proofs.Tactics Proofs.TextProofs Proofs.StringFacts Proofs.GrammarLex Proofs.GrammarTail Proofs.GrammarProofs.

(** The line is one word: the address [w], the longest one the line begins
    with, and a number. *)
Record one_word (lg : line_grammar) (w : string) (g : word_grammar) (sg : option ascii) (ip : string) (n : Z) (fp : option string) : Prop := {
  ow_longest : longest w (word_text w sg ip fp) (lg_decimal lg);
  ow_symbols : ~ In ""%string (lg_decimal lg) /\ ~ In ""%string (lg_assignable lg);
  ow_grammar : assoc w (lg_map lg) = Some g;
  ow_bounds : bounds_fit g;
  ow_ordinary : ordinary w;
  ow_sign : is_sign sg;
  ow_integer : denotes ip n;
  ow_decimals : match fp with Some ds => all_chars is_digit ds = true | None => True end
}.

Lemma verdict_true lg w g sg ip n fp : one_word lg w g sg ip n fp ->
  (snd (word_verdict g sg n fp) = VTrue <-> integer_ok g sg n /\ decimals_ok g fp).
Proof.
  intros [_ _ _ (B1 & B2 & B3 & B4) _ S I D]. pose proof (denotes_nonneg _ _ I) as N0. unfold word_verdict, integer_ok, decimals_ok.
  assert (M : int_max <? n = true -> ~ (g_from g <= signed sg n <= g_to g)).
  { unfold signed, int_max, int_min in *. intro. destruct S as [->|[->| ->]]; cbn in *; lia. }
  destruct (int_max <? n) eqn:E1; [cbn; split; [discriminate|tauto]|]. clear M.
  destruct ((signed sg n <? g_from g) || (g_to g <? signed sg n)) eqn:E2; [cbn; split; [discriminate|lia]|].
  destruct fp as [ds|]; [|cbn; split; [intros _; split; [lia|exact Logic.I]|auto]].
  destruct (g_dto g =? 0) eqn:E3; [cbn; split; [discriminate|destruct ds; lia]|].
  destruct ds as [|c ds]; [cbn; split; [lia|auto]|]. cbn [String.eqb]. set (x := String c ds) in *.
  assert (DX : denotes x (digits_val x)) by (split; [discriminate|split; [exact D|reflexivity]]).
  destruct (int_max <? digits_val x) eqn:E4.
  { cbn. split; [discriminate|]. intros (_ & _ & m & Dm & Hm). rewrite <- (denotes_fun _ _ _ DX Dm) in Hm. lia. }
  destruct ((digits_val x <? g_dfrom g) || (g_dto g <? digits_val x)) eqn:E5; cbn.
  - split; [discriminate|]. intros (_ & _ & m & Dm & Hm). rewrite <- (denotes_fun _ _ _ DX Dm) in Hm. lia.
  - split; [|auto]. intros _. split; [lia|]. split; [lia|]. exists (digits_val x). split; [exact DX|lia].
Qed.

(** Accepted, and read as that word, exactly when the value is in range;
    whatever the parser has read before.  Missing: words without a digit in
    front of the point, where the claim fails (below). *)
Theorem C19_accepted_partial : forall lg w g sg ip n fp s, one_word lg w g sg ip n fp ->
  ((exists s', grammar_parse lg (word_text w sg ip fp) s = (s', [the_word w sg ip fp], PTrue)) <->
   integer_ok g sg n /\ decimals_ok g fp).
Proof.
  intros lg w g sg ip n fp s H. rewrite <- (verdict_true _ _ _ _ _ _ _ H). destruct H as [L E A (B1 & B2 & B3 & B4 & B5) O S D F].
  destruct (parse_word lg w g sg ip fp n s L E A B4 O S D F) as (r & P & R & _). rewrite P. split.
  - intros (s' & X). destruct (snd (word_verdict g sg n fp)); [reflexivity|discriminate X|discriminate X].
  - intro V. rewrite V. eexists. reflexivity.
Qed.

(** The message that belongs to a value out of range. *)
Inductive complaint (g : word_grammar) (sg : option ascii) (n : Z) (fp : option string) : list string -> Prop :=
| complain_integer : ~ integer_ok g sg n ->
    complaint g sg n fp ["ValueNotInRange"; z_to_string (signed sg n); z_to_string (g_from g); z_to_string (g_to g); g_word g]
| complain_point : integer_ok g sg n -> fp <> None -> g_dto g = 0 -> complaint g sg n fp ["ExpectedInteger"; g_word g]
| complain_decimals : forall ds m, integer_ok g sg n -> fp = Some ds -> g_dto g <> 0 -> denotes ds m -> ~ (g_dfrom g <= m <= g_dto g) ->
    complaint g sg n fp ["ValueAfterDecimalSeparatorNotInRange"; ds; z_to_string (g_dfrom g); z_to_string (g_dto g); g_word g].

(** A value out of range is rejected with that message and nothing is read.
    Missing: numbers too big for an [int], see [C19_too_big]. *)
Theorem C19_rejected_partial : forall lg w g sg ip n fp s, one_word lg w g sg ip n fp ->
  n <= int_max -> (forall ds m, fp = Some ds -> denotes ds m -> m <= int_max) ->
  ~ (integer_ok g sg n /\ decimals_ok g fp) ->
  exists s' r m, grammar_parse lg (word_text w sg ip fp) s = (s', [], r) /\ gs_message s' = [m] /\ complaint g sg n fp m /\
    (r = PFalse \/ exists rest, r = PThrow rest) /\
    ((forall u, In u (lg_assignable lg) -> prefix u (word_text w sg ip fp) = false) -> r = PFalse).
Proof.
  intros lg w g sg ip n fp s H N1 N2 V. pose proof H as [L E A (B1 & B2 & B3 & B4 & B5) O S D F].
  rewrite <- (verdict_true _ _ _ _ _ _ _ H) in V.
  destruct (parse_word lg w g sg ip fp n s L E A B4 O S D F) as (r & P & R & RF). rewrite P. clear P.
  assert (X : snd (word_verdict g sg n fp) = VFalse /\ exists m, fst (word_verdict g sg n fp) = [m] /\ complaint g sg n fp m).
  { revert V. unfold word_verdict. destruct (int_max <? n) eqn:E1; [lia|].
    destruct ((signed sg n <? g_from g) || (g_to g <? signed sg n)) eqn:E2.
    { intros _. split; [reflexivity|]. eexists. split; [reflexivity|]. apply complain_integer. unfold integer_ok. lia. }
    assert (IO : integer_ok g sg n) by (unfold integer_ok; lia).
    destruct fp as [ds|]; [|intro V; now contradiction V].
    destruct (g_dto g =? 0) eqn:E3.
    { intros _. split; [reflexivity|]. eexists. split; [reflexivity|]. apply complain_point; [exact IO|discriminate|lia]. }
    destruct ds as [|c ds]; [intro V; now contradiction V|]. cbn [String.eqb]. set (x := String c ds) in *.
    assert (DX : denotes x (digits_val x)) by (split; [discriminate|split; [exact F|reflexivity]]).
    pose proof (N2 x _ eq_refl DX). destruct (int_max <? digits_val x) eqn:E4; [lia|].
    destruct ((digits_val x <? g_dfrom g) || (g_dto g <? digits_val x)) eqn:E5; [|intro V; now contradiction V].
    intros _. split; [reflexivity|]. eexists. split; [reflexivity|]. eapply complain_decimals; eauto; lia. }
  destruct X as (XV & m & XM & C). rewrite XV, XM. exists (mkGS (gs_status s) [m]), r, m. split; [reflexivity|]. split; [reflexivity|].
  split; [exact C|]. split; [exact R|exact RF].
Qed.

(** A number an [int] cannot hold ends the check with an exception. *)
Theorem C19_too_big : forall lg w g sg ip n fp s, one_word lg w g sg ip n fp -> int_max < n ->
  exists s', grammar_parse lg (word_text w sg ip fp) s = (s', [], PExc EOutOfRange).
Proof.
  intros lg w g sg ip n fp s [L E A (B1 & B2 & B3 & B4 & B5) O S D F] H.
  destruct (parse_word lg w g sg ip fp n s L E A B4 O S D F) as (r & P & _). rewrite P. unfold word_verdict.
  replace (int_max <? n) with true by lia. eexists. reflexivity.
Qed.

(** A word with digits only behind the point: its integer part, zero, is not
    compared with the range. *)
Definition no_zero_map : word_map := [("Q", mkWG "Q" 1 99 0 9 false WTmisc)].
Definition no_zero_grammar : line_grammar := make_grammar (mkFG no_zero_map no_zero_map) [] no_zero_map.

Theorem C19_no_integer_part_refuted : exists s d g,
  grammar_parse no_zero_grammar "Q.5" gstate_init = (s, [ADec d], PTrue) /\ d_value d = None /\
  assoc "Q" (lg_map no_zero_grammar) = Some g /\ ~ integer_ok g None 0.
Proof.
  eexists _, _, _. split; [vm_compute; reflexivity|]. split; [reflexivity|]. split; [reflexivity|].
  unfold integer_ok. cbn. lia.
Qed.

(** The shipped mill grammar and the word X-12.034. *)
Definition mill : line_grammar := make_grammar (mkFG fanuc_mill_metric fanuc_mill_imperial) shipped_ops fanuc_mill_metric.

Example C19_ex : exists g, one_word mill "X" g (Some "-"%char) "12" 12 (Some "034") /\
  integer_ok g (Some "-"%char) 12 /\ decimals_ok g (Some "034") /\
  one_word mill "X" g None "123456" 123456 None /\ ~ integer_ok g None 123456.
Proof.
  assert (OX : ordinary "X").
  { split; [cbn; intuition discriminate|]. split; [reflexivity|]. exists "X"%char, ""%string. split; [reflexivity|]. split; [reflexivity|].
    cbn. intuition discriminate. }
  assert (LG : forall sg ip fp, (forall u, In u (lg_decimal mill) -> prefix u (word_text "X" sg ip fp) = true -> (String.length u <= 1)%nat) -> longest "X" (word_text "X" sg ip fp) (lg_decimal mill)).
  { intros. split; [|auto]. vm_compute. tauto. }
  eexists. split; [|split; [|split; [|split]]].
  - split.
    + apply LG. intros u I P. vm_compute in I. repeat (destruct I as [<-|I]; [vm_compute in P |- *; try discriminate P; lia|]). destruct I.
    + split; vm_compute; intuition discriminate.
    + reflexivity.
    + vm_compute. intuition discriminate.
    + exact OX.
    + right. left. reflexivity.
    + split; [discriminate|]. split; reflexivity.
    + reflexivity.
  - vm_compute. split; discriminate.
  - split; [reflexivity|]. exists 34. split; [split; [discriminate|split; reflexivity]|]. vm_compute. split; discriminate.
  - split.
    + apply LG. intros u I P. vm_compute in I. repeat (destruct I as [<-|I]; [vm_compute in P |- *; try discriminate P; lia|]). destruct I.
    + split; vm_compute; intuition discriminate.
    + reflexivity.
    + vm_compute. intuition discriminate.
    + exact OX.
    + left. reflexivity.
    + split; [discriminate|]. split; reflexivity.
    + exact I.
  - vm_compute. intros [_ H]. now apply H.
Qed.

Print Assumptions C19_accepted_partial.
Print Assumptions C19_rejected_partial.
Print Assumptions C19_too_big.
Print Assumptions C19_no_integer_part_refuted.
