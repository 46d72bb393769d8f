(** The .NET side: cases. *)
From Verif Require Import Model.Base Model.Attr Model.Double Model.Macro Model.Verifiers Model.Grammar.
From Verif Require Import Model.PathCalc Model.Parser Model.Wrapper Model.Net.
From Verif Require Import Spec.WrapperSpec Spec.NetSpec Proofs.Tactics Proofs.WrapperProofs Proofs.WrapperCalls Proofs.NetProofs Proofs.ParserCases.
Local Open Scope string_scope.
Local Open Scope list_scope.
Local Open Scope Z_scope.

(** Splitting every two lines. *)
Definition number_split : list string -> parser -> split_result :=
  split_file ex_lit (fun _ => ex_id) ex_id ex_id ex_id 90 ex_cf (mkSplit STBlocks 2 0 0 "" false "").

(** A line with a mistake: no pieces, and three arrays stay. *)
Lemma split_leaks text : exists p' h' msg, net_split text false (number_split ["G1 X5"; "G1 Y$"]) ex_parser [] = (p', h', Ok (false, [], msg)) /\
  nth_error h' 0 = Some (Some (CWords [])) /\ nth_error h' 1 = Some (Some (CInts [])) /\ nth_error h' 2 = Some (Some (CInts [])) /\ ~ all_released [] h'.
Proof.
  assert (O : exists p' m, number_split ["G1 X5"; "G1 Y$"] ex_parser = (p', [], Answer false m)) by (do 2 eexists; vm_compute; reflexivity).
  destruct O as (p' & m & O). destruct (net_split_eq text false _ _ [] _ _ _ _ O) as (h' & E & _ & L). rewrite E. destruct (L eq_refl) as [k ->].
  do 3 eexists. split; [reflexivity|]. split; [reflexivity|]. split; [reflexivity|]. split; [reflexivity|].
  intros [k' K]. destruct k'; cbn in K; discriminate K.
Qed.

(** A mistake reported as success. *)
Lemma bool_junk text : exists p' h' ws msg, net_words text true (ex_parse ex_none 0 "G1 Y$") ex_parser [] = (p', h', Ok (true, ws, msg)) /\
  exists v m, ex_parse ex_none 0 "G1 Y$" ex_parser = (p', v, Answer false m).
Proof.
  assert (O : exists p' v m, ex_parse ex_none 0 "G1 Y$" ex_parser = (p', v, Answer false m)) by (do 3 eexists; vm_compute; reflexivity).
  destruct O as (p' & v & m & O). destruct (net_words_eq text true _ _ [] _ _ _ _ O) as (h' & E & _). rewrite E. do 4 eexists. split; [reflexivity|]. eauto.
Qed.

(** A file that starts with the text it is split at. *)
Lemma texts_wild_read text junk : exists p' h' w, net_texts text junk (text_split "T1" ["T1 M6"; "G1 X5"]) ex_parser [] = (p', h', Exc (EUB w)).
Proof.
  assert (O : exists p' ps m, text_split "T1" ["T1 M6"; "G1 X5"] ex_parser = (p', [] :: ps, Answer true m)) by (do 3 eexists; vm_compute; reflexivity).
  destruct O as (p' & ps & m & O). destruct (net_texts_eq text junk _ _ [] _ _ _ _ O) as [_ B]. destruct (B (or_introl eq_refl)) as (h' & w & W). eauto.
Qed.
