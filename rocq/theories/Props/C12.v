(** C12: two codes of one group in a block are reported.

    [code_of] gives the code a word denotes (through the macro table for G#100),
    [conflict] two words with a common group.  Blocks are as the parser delivers
    them ([readable_code]) and the group tables are maps of sets ([groups_ok]). *)
From Verif Require Import Model.Base Model.Attr Model.Double Model.Macro Model.Verifiers.
From Verif Require Import Spec.VerifierSpec Proofs.VerifierProofs.

Theorem C12_accepts : forall mv gg mg line b, groups_ok gg -> groups_ok mg ->
  Forall (readable_code mv line "G") b -> Forall (readable_code mv line "M") b ->
  (code_groups_verifier mv gg mg line false b = Ok tt <->
   (forall c1 c2 g, ~ conflict mv line "G" gg b c1 c2 g) /\ ~ some_undefined mv line "G" b /\
   (forall c1 c2 g, ~ conflict mv line "M" mg b c1 c2 g) /\ ~ some_undefined mv line "M" b).
Proof. exact groups_accepts. Qed.
Print Assumptions C12_accepts.

(** A code as it is written: G1, G54.1. *)
Definition code_text (w : string) (c : cgv) : string :=
  match cg_rest c with
  | 0 => w ++ z_to_string (cg_code c)
  | r => w ++ z_to_string (cg_code c) ++ "." ++ z_to_string r
  end%string.

Lemma code_text_eq w c : cgv_text w c = code_text w c.
Proof.
  assert (E : forall s, (s ++ "" = s)%string) by (induction s as [|a s IH]; cbn; [|rewrite IH]; reflexivity).
  unfold cgv_text, code_text. destruct (cg_rest c); cbn [Z.eqb]; [rewrite E|..]; reflexivity.
Qed.

Theorem C12_names_both : forall mv gg mg line b e, groups_ok gg -> groups_ok mg ->
  Forall (readable_code mv line "G") b -> Forall (readable_code mv line "M") b ->
  code_groups_verifier mv gg mg line false b = Exc e ->
  exists w m, (w = "G" /\ m = gg \/ w = "M" /\ m = mg) /\
   ((exists d v, In (ADec d) b /\ undefined_macro mv line w d /\ d_value d = Some v /\
        e = ECodeGroups ["MissingValue"; ("#" ++ v)%string]) \/
    (exists c1 c2 g, conflict mv line w m b c1 c2 g /\
        e = ECodeGroups ["InSameCodeGroup"; code_text w c2; code_text w c1; g])).
Proof.
  intros mv gg mg line b e G1 G2 R1 R2 H. destruct (groups_rejects mv gg mg line b e G1 G2 R1 R2 H) as (w & m & W & K). exists w, m. split; [exact W|].
  destruct K as [K|(c1 & c2 & g & K & E)]; [now left|right]. exists c1, c2, g. split; [exact K|]. now rewrite <- !code_text_eq.
Qed.
Print Assumptions C12_names_both.

Definition gg : code_groups :=
  [(mkCgv 0 0, ["motion"]); (mkCgv 1 0, ["motion"]); (mkCgv 17 0, ["plane"]); (mkCgv 54 1, ["origin"])].

Definition word (w v : string) : attr := ADec (plain w v).

Lemma denotes_dec s : s <> ""%string -> all_chars is_digit s = true -> denotes s (digits_val s).
Proof. repeat split; assumption. Qed.

Example C12_ex :
  let b := [word "G" "1"; word "X" "5"; word "G" "17"; word "G" "0"] in
  groups_ok gg /\ groups_ok [] /\
  Forall (readable_code [] 1 "G") b /\ Forall (readable_code [] 1 "M") b /\
  code_groups_verifier [] gg [] 1 false b = Exc (ECodeGroups ["InSameCodeGroup"; "G0"; "G1"; "motion"]) /\
  code_groups_verifier [] gg [] 1 false (firstn 3 b) = Ok tt.
Proof.
  assert (V : forall v, v <> ""%string -> all_chars is_digit v = true -> digits_val v <= int_max ->
    readable_code [] 1 "G" (word "G" v)).
  { intros v N A L. right; right. split; [|split].
    - intros v' E. inversion E; subst. exists (digits_val v'). split; [now apply denotes_dec|exact L].
    - discriminate.
    - right. exists (mkCgv (digits_val v) 0). apply co_plain; [reflexivity|reflexivity|].
      eapply pc_int; [reflexivity|now apply denotes_dec|reflexivity]. }
  split; [split; [repeat constructor; cbn; intuition congruence|repeat constructor; cbn; tauto]|].
  split; [repeat constructor|].
  split.
  { apply Forall_forall. cbn. intros a I.
    repeat destruct I as [<-|I]; try (apply V; [discriminate|reflexivity|discriminate]); [now left|contradiction]. }
  split.
  { apply Forall_forall. cbn. intros a I. repeat destruct I as [<-|I]; try now left. contradiction. } split; reflexivity.
Qed.
