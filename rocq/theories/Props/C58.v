(** C58: a parser made from arrays has the tables in them. *)
From Verif Require Import Model.Base Model.Attr Model.Double Model.Grammar Model.Verifiers Model.Wrapper Spec.WrapperSpec Spec.VerifierSpec.
From Verif Require Import Proofs.WrapperProofs Proofs.WrapperTables.

(** A code is in a group exactly if the array gives it to the group of that name;
    the table made is a map of sets, as C12 asks for. *)
Theorem C58_groups : forall keys values lengths parts, parts_of lengths values parts -> List.length keys = List.length parts ->
  exists m, build_groups keys values (Z.of_nat (List.length parts)) lengths = Ok m /\ groups_ok m /\
    forall c g, in_group m c g <-> listed keys parts c g.
Proof. exact groups_exact. Qed.
Print Assumptions C58_groups.

(** The grammar of a word is the last one given for it. *)
Theorem C58_grammar : forall keys values, List.length keys = List.length values ->
  exists wm, build_grammar_map keys values (Z.of_nat (List.length keys)) = Ok wm /\ NoDup (map fst wm) /\
    forall k v, assoc k wm = Some v <-> last_given keys values k v.
Proof. exact grammar_map_exact. Qed.
Print Assumptions C58_grammar.

(** One group listed twice, one code in two groups. *)
Definition C58_codes : list cgv := [mkCgv 0 0; mkCgv 1 0; mkCgv 5 1; mkCgv 1 0].
Example C58_ex :
  let keys := ["motion"; "empty"; "extra"; "motion"]%string in
  let parts := [[mkCgv 0 0; mkCgv 1 0]; []; [mkCgv 5 1]; [mkCgv 1 0]] in
  parts_of [2; 0; 1; 1] C58_codes parts /\ List.length keys = List.length parts /\
  build_groups keys C58_codes 4 [2; 0; 1; 1] = Ok [(mkCgv 0 0, ["motion"]); (mkCgv 1 0, ["motion"]); (mkCgv 5 1, ["extra"])]%string.
Proof.
  split; [|split; reflexivity]. split; [reflexivity|]. eexists. split; [reflexivity|]. split; [reflexivity|]. eexists. split; [reflexivity|].
  split; [reflexivity|]. eexists. split; [reflexivity|]. split; [reflexivity|]. eexists. split; reflexivity.
Qed.
