(** Calls of the C interface. *)
From Verif Require Import Model.Base Model.Attr Model.Double Model.Macro Model.Verifiers Model.Grammar.
From Verif Require Import Model.PathCalc Model.Parser Model.Wrapper.
From Verif Require Import Spec.WrapperSpec Proofs.Tactics Proofs.WrapperProofs Proofs.WrapperTables Proofs.SplitCall.

Local Open Scope list_scope.

Lemma words_call_reads text op o p h p' h' o' r : words_call text op o p h = (p', h', o', Ok r) ->
  exists v m, op p = (p', v, Answer r m) /\ extends h h' /\
    (v = [] -> o_value o' = o_value o /\ o_length o' = o_length o) /\
    (v <> [] -> o_length o' = Z.of_nat (List.length v) /\
       exists ws, at_cell h' (o_value o') (CWords ws) /\ List.length ws = List.length v /\
         (Forall word_zero_free v -> Forall2 (word_at h') ws (map shown v))) /\
    (text m = ""%string -> o_message o' = o_message o) /\
    (text m <> ""%string -> zero_free (text m) -> text_at h' (o_message o') (text m)).
Proof.
  unfold words_call. destruct (op p) as [[p1 v] [b m|e]]; [|discriminate].
  destruct (fill_parsed (text m) v o h) as [o1 h1] eqn:F. intros E. inv E. exists v, m. split; [reflexivity|]. now apply block_exported.
Qed.

Lemma words_call_throws text op o p h p' h' o' e : words_call text op o p h = (p', h', o', Exc e) -> h' = h /\ o' = o.
Proof.
  unfold words_call. destruct (op p) as [[p1 v] [b m|x]]; [destruct (fill_parsed (text m) v o h); discriminate|]. intros E. inv E. auto.
Qed.

Lemma words_call_released text op p h p' h' o' r : words_call text op (mkOuts PNull 0 PNull) p h = (p', h', o', Ok r) ->
  exists h1 h2, dispose_words (o_value o') (o_length o') h' = Ok h1 /\ dispose_chars (o_message o') h1 = Ok h2 /\ all_released h h2.
Proof.
  unfold words_call. destruct (op p) as [[p1 v] [b m|e]]; [|discriminate].
  destruct (fill_parsed (text m) v (mkOuts PNull 0 PNull) h) as [o1 h1] eqn:F. intros E. inv E. eapply block_released. exact F.
Qed.

Definition reuse_parser : parser := parser_new (mkConfig (mkFG [] []) [] [] [] false) false.

Lemma words_reuse : exists text op1 op2 p p1 h1 o1 p2 h2 o2 h3 w,
  words_call text op1 (mkOuts PNull 0 PNull) p [] = (p1, h1, o1, Ok true) /\
  dispose_words (o_value o1) (o_length o1) h1 = Ok h2 /\
  words_call text op2 o1 p1 h2 = (p2, h3, o2, Ok true) /\
  dispose_words (o_value o2) (o_length o2) h3 = Exc (EUB w).
Proof.
  exists (fun _ => ""%string), (fun p => (p, [AChr "%" zero], Answer true MNone)), (fun p => (p, [], Answer true MNone)), reuse_parser.
  do 8 eexists. repeat (split; [vm_compute; reflexivity|]). vm_compute. reflexivity.
Qed.

Lemma split_call_pieces text op o p h p' h' o' r : split_call text op o p h = (p', h', o', Ok r) ->
  exists ps m, op p = (p', ps, Answer r m) /\ export_split ps (text m) o h = (o', h').
Proof.
  unfold split_call. destruct (op p) as [[p1 v] [b m|e]]; [|discriminate].
  destruct (export_split v (text m) o h) as [o1 h1] eqn:F. intros E. inv E. exists v, m. split; [reflexivity|exact F].
Qed.

Lemma split_texts_pieces text op o p h p' h' o' r : split_texts_call text op o p h = (p', h', o', Ok r) ->
  exists ps m, op p = (p', ps, Answer r m) /\ export_texts ps (text m) o h = (o', h').
Proof.
  unfold split_texts_call. destruct (op p) as [[p1 v] [b m|e]]; [|discriminate].
  destruct (export_texts v (text m) o h) as [o1 h1] eqn:F. intros E. inv E. exists v, m. split; [reflexivity|exact F].
Qed.

Lemma split_texts_reads text op o p h p' h' o' r : split_texts_call text op o p h = (p', h', o', Ok r) ->
  exists ps m, op p = (p', ps, Answer r m) /\ extends h h' /\ o_length o' = Z.of_nat (List.length ps) /\
    exists ts, at_cell h' (o_value o') (CPtrs ts) /\ List.length ts = List.length ps /\
      (forall x, nth_error ps x = Some [] -> nth_error ts x = Some PWild) /\
      (Forall (Forall (Forall word_zero_free)) ps -> Forall (fun c => c <> []) ps -> Forall2 (text_at h') ts (map piece_lines ps)).
Proof.
  intros E. apply split_texts_pieces in E. destruct E as (ps & m & O & E). exists ps, m. split; [exact O|].
  apply texts_exported in E. destruct E as (A & B & C & _). auto.
Qed.

Lemma split_texts_released text op p h p' h' o' r : split_texts_call text op (mkOuts PNull 0 PNull) p h = (p', h', o', Ok r) ->
  exists ps m, op p = (p', ps, Answer r m) /\
  (Forall (fun c => c <> []) ps ->
   exists h1 h2, dispose_texts (o_value o') (o_length o') h' = Ok h1 /\ dispose_chars (o_message o') h1 = Ok h2 /\ all_released h h2) /\
  (In [] ps -> exists w, dispose_texts (o_value o') (o_length o') h' = Exc (EUB w)).
Proof.
  intros E. apply split_texts_pieces in E. destruct E as (ps & m & O & E). exists ps, m. split; [exact O|]. now apply texts_released in E.
Qed.

(** Through [split_file] the first piece decides. *)
Lemma split_texts_first text lit libm atan log cabs stale cf fs data p h p' h' o' :
  split_texts_call text (split_file lit libm atan log cabs stale cf fs data) (mkOuts PNull 0 PNull) p h = (p', h', o', Ok true) ->
  exists first rest m, split_file lit libm atan log cabs stale cf fs data p = (p', first :: rest, Answer true m) /\
  (first <> [] ->
   exists h1 h2, dispose_texts (o_value o') (o_length o') h' = Ok h1 /\ dispose_chars (o_message o') h1 = Ok h2 /\ all_released h h2) /\
  (first = [] -> exists w, dispose_texts (o_value o') (o_length o') h' = Exc (EUB w)).
Proof.
  intros E. apply split_texts_released in E. destruct E as (ps & m & O & A & B).
  destruct (split_file_nonempty _ _ _ _ _ _ _ _ _ _ _ _ _ O) as [N T]. destruct ps as [|first rest]; [contradiction|].
  exists first, rest, m. split; [exact O|]. split.
  - intros F. apply A. now constructor.
  - intros ->. apply B. now left.
Qed.

From Verif Require Import Proofs.ParserCases.

Definition text_split (text : string) : list string -> parser -> split_result :=
  split_file ex_lit (fun _ => ex_id) ex_id ex_id ex_id 90 ex_cf (mkSplit STText 0 0 0 text false "").

Lemma split_first_empty text data p' m ps : text_split "T1" data ex_parser = (p', [] :: ps, Answer true m) ->
  exists h o w p',
  split_texts_call text (text_split "T1" data) (mkOuts PNull 0 PNull) ex_parser [] = (p', h, o, Ok true) /\
  dispose_texts (o_value o) (o_length o) h = Exc (EUB w).
Proof.
  intros E. destruct (split_texts_call text (text_split "T1" data) (mkOuts PNull 0 PNull) ex_parser []) as [[[q h] o] r] eqn:C.
  assert (r = Ok true). { unfold split_texts_call in C. rewrite E in C. destruct (export_texts _ _ _ _). now inv C. }
  subst r. pose proof C as C'. apply split_texts_first in C'. destruct C' as (first & rest & m' & E' & _ & B).
  change (text_split "T1" data ex_parser = (q, first :: rest, Answer true m')) in E'. rewrite E in E'. inv E'.
  destruct (B eq_refl) as [w W]. exists h, o, w, q. split; [reflexivity|exact W].
Qed.

Lemma split_at_first_line text : exists h o w p',
  split_texts_call text (text_split "T1" ["T1 M6"; "G1 X5"]%string) (mkOuts PNull 0 PNull) ex_parser [] = (p', h, o, Ok true) /\
  dispose_texts (o_value o) (o_length o) h = Exc (EUB w).
Proof. eapply split_first_empty. vm_compute. reflexivity. Qed.

Lemma split_empty_program text : exists h o w p',
  split_texts_call text (text_split "T1" []) (mkOuts PNull 0 PNull) ex_parser [] = (p', h, o, Ok true) /\
  dispose_texts (o_value o) (o_length o) h = Exc (EUB w).
Proof. eapply split_first_empty. vm_compute. reflexivity. Qed.

Lemma split_texts_ex : exists h o p' first rest m,
  split_texts_call (fun _ => ""%string) (text_split "T1" ["G1 X5"; "T1 M6"]%string) (mkOuts PNull 0 PNull) ex_parser [] = (p', h, o, Ok true) /\
  text_split "T1" ["G1 X5"; "T1 M6"]%string ex_parser = (p', first :: rest, Answer true m) /\ first <> [] /\
  text_at h (PAt 0) ("N1 G1 X5" ++ String "013" (String "010" "")).
Proof.
  do 6 eexists. split; [vm_compute; reflexivity|]. split; [vm_compute; reflexivity|]. split; [discriminate|].
  eexists. split; [eexists; split; [reflexivity|vm_compute; reflexivity]|]. cbn. repeat (constructor; [discriminate|]). constructor.
Qed.
