(** C56: the texts of a split file.  Partial: programs whose first piece is not
    empty. *)
From Verif Require Import Model.Base Model.Attr Model.Double Model.Parser Model.Wrapper Spec.SplitSpec Spec.WrapperSpec.
From Verif Require Import Proofs.WrapperProofs Proofs.WrapperTables Proofs.SplitCall Proofs.WrapperCalls Proofs.ParserCases.

(** Each piece has one block for each line of its part of the program, with the
    retraction planes between the parts. *)
Theorem C56_pieces : forall lit libm atan log cabs stale cf fs data p p' ps m,
  split_file lit libm atan log cabs stale cf fs data p = (p', ps, Answer true m) ->
  exists rp parts, is_some rp = negb (String.eqb (sp_plane fs) "") /\ splits rp data parts /\
    Forall2 (fun (a : list block) (b : list string) => List.length a = List.length b) ps parts.
Proof. exact split_file_shape. Qed.
Print Assumptions C56_pieces.

(** The text of a piece has its lines, ended by CR LF, with the words separated
    by blanks; the pointer for an empty piece is not set. *)
Theorem C56_texts : forall text op o p h p' h' o' r, split_texts_call text op o p h = (p', h', o', Ok r) ->
  exists ps m, op p = (p', ps, Answer r m) /\ extends h h' /\ o_length o' = Z.of_nat (List.length ps) /\
    exists ts, at_cell h' (o_value o') (CPtrs ts) /\ List.length ts = List.length ps /\
      (forall x, nth_error ps x = Some [] -> nth_error ts x = Some PWild) /\
      (Forall (Forall (Forall word_zero_free)) ps -> Forall (fun c => c <> []) ps -> Forall2 (text_at h') ts (map piece_lines ps)).
Proof. exact split_texts_reads. Qed.
Print Assumptions C56_texts.

(** Giving the texts back works exactly when the first piece is not empty. *)
Theorem C56_partial : forall text lit libm atan log cabs stale cf fs data p h p' h' o',
  split_texts_call text (split_file lit libm atan log cabs stale cf fs data) (mkOuts PNull 0 PNull) p h = (p', h', o', Ok true) ->
  exists first rest m, split_file lit libm atan log cabs stale cf fs data p = (p', first :: rest, Answer true m) /\
  (first <> [] ->
   exists h1 h2, dispose_texts (o_value o') (o_length o') h' = Ok h1 /\ dispose_chars (o_message o') h1 = Ok h2 /\ all_released h h2) /\
  (first = [] -> exists w, dispose_texts (o_value o') (o_length o') h' = Exc (EUB w)).
Proof. exact split_texts_first. Qed.
Print Assumptions C56_partial.

(** [text_split t]: splitting in text mode at [t], without retraction plane.
    A program that starts with the text it is split at, and the empty program. *)
Theorem C56_refuted : forall text, exists h o w p',
  split_texts_call text (text_split "T1" ["T1 M6"; "G1 X5"]%string) (mkOuts PNull 0 PNull) ex_parser [] = (p', h, o, Ok true) /\
  dispose_texts (o_value o) (o_length o) h = Exc (EUB w).
Proof. exact split_at_first_line. Qed.
Print Assumptions C56_refuted.

Theorem C56_empty_refuted : forall text, exists h o w p',
  split_texts_call text (text_split "T1" []) (mkOuts PNull 0 PNull) ex_parser [] = (p', h, o, Ok true) /\
  dispose_texts (o_value o) (o_length o) h = Exc (EUB w).
Proof. exact split_empty_program. Qed.
Print Assumptions C56_empty_refuted.

Example C56_ex : exists h o p' first rest m,
  split_texts_call (fun _ => ""%string) (text_split "T1" ["G1 X5"; "T1 M6"]%string) (mkOuts PNull 0 PNull) ex_parser [] = (p', h, o, Ok true) /\
  text_split "T1" ["G1 X5"; "T1 M6"]%string ex_parser = (p', first :: rest, Answer true m) /\ first <> [] /\
  text_at h (PAt 0) ("N1 G1 X5" ++ String "013" (String "010" "")).
Proof. exact split_texts_ex. Qed.
