(** C75: codes and predefined blocks of .NET programs are read and saved
    unchanged.  Partial: saved lines are formatted again when they are read. *)
From Verif Require Import Model.Base Model.Blocks Spec.Text Spec.BlocksSpec Proofs.Tactics Proofs.BlocksProofs Proofs.BlocksFiles.
From Coq Require Import Lia.
Local Open Scope string_scope.
Local Open Scope list_scope.
Local Open Scope Z_scope.

(** The text of each code is read as that code. *)
Theorem C75_code : forall c, 0 <= cv_code c < 2 ^ 32 -> 0 <= cv_rest c < 2 ^ 32 -> code_parse (code_text c) = Ok c.
Proof. exact code_round. Qed.
Print Assumptions C75_code.

(** Exactly these texts are codes. *)
Theorem C75_code_texts : forall s c, code_parse s = Ok c <-> code_written s c.
Proof. exact code_parse_iff. Qed.
Print Assumptions C75_code_texts.

(** Each line is shown with the separator in its holes. *)
Theorem C75_format : forall dot s t, string_format s dot = Ok t <-> shown dot s t.
Proof. exact format_iff. Qed.
Print Assumptions C75_format.

(** The groups are those of all files of the directory, in order, each under its
    full path, with every line shown; and this is when reading succeeds. *)
Theorem C75_read : forall full dir dot a fs gs, read_groups full dir dot a fs = Ok gs <->
  exists sel, selected (group_file (full dir)) fs sel /\
    Forall2 (fun e g => fst g = fst e /\ snd (snd g) = a /\ exists v, snd e = Group_ v /\ group_shown dot v (fst (snd g))) sel gs.
Proof. exact read_iff. Qed.
Print Assumptions C75_read.

(** One file that is not a group, or has a line that cannot be shown: no groups. *)
Theorem C75_one_bad : forall full dir dot a fs e, In e fs -> group_file (full dir) e ->
  (forall v, snd e = Group_ v -> forall v', ~ group_shown dot v v') -> exists x, read_groups full dir dot a fs = Exc x.
Proof.
  intros full dir dot a fs e I G N. apply (one_bad full dir dot a fs e I G). intros g (_ & _ & v & E & S). exact (N v E _ S).
Qed.
Print Assumptions C75_one_bad.

(** After saving: the groups that may be changed, and the other files but those of
    the directory that are no longer in the groups. *)
Theorem C75_written : forall full gs dir fs q d, distinct gs -> In (q, d) (write_groups full gs dir fs) <->
  (exists v, In (q, (v, ReadWrite)) gs /\ d = Group_ v) \/
  ((forall v, ~ In (q, (v, ReadWrite)) gs) /\ In (q, d) fs /\ (group_file (full dir) (q, d) -> In (dir, snd q) (map fst gs))).
Proof. exact write_in. Qed.
Print Assumptions C75_written.

(** What was read and saved is read again, if no line has a brace and the path of
    the directory is full. *)
Theorem C75_saved_partial : forall full dir dot dot' fs gs, full dir = dir -> distinct fs -> read_groups full dir dot ReadWrite fs = Ok gs ->
  (forall g s, In g gs -> line_of s (fst (snd g)) -> no_braces s) ->
  read_groups full dir dot' ReadWrite (write_groups full gs dir fs) = Ok gs.
Proof. exact saved. Qed.
Print Assumptions C75_saved_partial.

Definition c75_file (name line : string) : path * content :=
  (("/b", name), Group_ (mkGroup "{id:1}" (Some [mkBlock "{id:7}" (Some [line; "M30"])]))).
Definition c75_full (d : string) : string := if String.eqb d "b" then "/b" else d.

(** A brace in a line: what was saved is not read. *)
Theorem C75_saved_refuted : ~ (forall full dir dot fs gs, full dir = dir -> distinct fs -> read_groups full dir dot ReadWrite fs = Ok gs ->
  read_groups full dir dot ReadWrite (write_groups full gs dir fs) = Ok gs).
Proof.
  intro H. pose proof (H c75_full "/b" "." [c75_file "a.json" "({{)"] [(("/b", "a.json"), (mkGroup "{id:1}" (Some [mkBlock "{id:7}" (Some ["({)"; "M30"])]), ReadWrite))]
    eq_refl ltac:(repeat constructor; intros []) eq_refl) as X. vm_compute in X. discriminate X.
Qed.
Print Assumptions C75_saved_refuted.

(** The separator in force when the groups were read is the one for ever. *)
Theorem C75_separator_refuted : ~ (forall full dir dot dot' fs gs gs', full dir = dir -> distinct fs -> read_groups full dir dot ReadWrite fs = Ok gs ->
  read_groups full dir dot' ReadWrite fs = Ok gs' -> read_groups full dir dot' ReadWrite (write_groups full gs dir fs) = Ok gs').
Proof.
  intro H. set (g x := [(("/b", "a.json"), (mkGroup "{id:1}" (Some [mkBlock "{id:7}" (Some [x; "M30"])]), ReadWrite))]).
  pose proof (H c75_full "/b" "," "." [c75_file "a.json" "X1{0}5"] (g "X1,5") (g "X1.5")
    eq_refl ltac:(repeat constructor; intros []) eq_refl eq_refl) as X. vm_compute in X. discriminate X.
Qed.
Print Assumptions C75_separator_refuted.

(** Groups that may not be changed, read from a directory that is not a full path,
    are deleted when they are saved there. *)
Theorem C75_relative_refuted : ~ (forall full dir dot fs gs q d, distinct fs -> read_groups full dir dot ReadOnly fs = Ok gs ->
  In (q, d) fs -> exists d', In (q, d') (write_groups full gs dir fs)).
Proof.
  intro H. pose proof (H c75_full "b" "." [c75_file "a.json" "X1{0}5"]
    [(("/b", "a.json"), (mkGroup "{id:1}" (Some [mkBlock "{id:7}" (Some ["X1.5"; "M30"])]), ReadOnly))] _ _
    ltac:(repeat constructor; intros []) eq_refl (or_introl eq_refl)) as (d & X). vm_compute in X. destruct X.
Qed.
Print Assumptions C75_relative_refuted.

(** Texts of codes, lines with holes, and a directory with one group that is kept,
    one that is deleted and a file that is not a group. *)
Example C75_ex :
  code_text (mkCode 5 1) = "5.1" /\ code_text (mkCode 54 0) = "54" /\ code_parse " +43.4" = Ok (mkCode 43 4) /\
  code_parse "4294967296" = Exc EOutOfRange /\ code_parse "5." = Exc EInvalidArgument /\
  string_format "X{0}5 ({0,-3:z})" "," = Ok "X,5 (,  )" /\ string_format "{1}" "." = Exc EInvalidArgument /\
  (let fs := [c75_file "a.json" "X1{0}5"; c75_file "B.JSON" "Y{0}2"; (("/b", "notes.txt"), Strange)] in
   exists gs, read_groups c75_full "/b" "," ReadWrite fs = Ok gs /\
     map (fun g => option_map (map bl_code) (gr_blocks (fst (snd g)))) gs = [Some [Some ["X1,5"; "M30"]]; Some [Some ["Y,2"; "M30"]]] /\
     write_groups c75_full (firstn 1 gs) "/b" fs = [c75_file "a.json" "X1,5"; (("/b", "notes.txt"), Strange)]) /\
  (let fs := [c75_file "a.json" "X1{0}5"; c75_file "c.json" "Y2"] in
   exists gs, read_groups c75_full "/b" "," ReadWrite fs = Ok gs /\ distinct fs /\
     read_groups c75_full "/b" "." ReadWrite (write_groups c75_full gs "/b" fs) = Ok gs).
Proof.
  repeat match goal with |- _ /\ _ => split end; try (vm_compute; reflexivity).
  - eexists. split; [vm_compute; reflexivity|]. split; vm_compute; reflexivity.
  - eexists. split; [vm_compute; reflexivity|]. split; [|vm_compute; reflexivity]. unfold distinct. cbn.
    repeat constructor; cbn; intuition congruence.
Qed.
