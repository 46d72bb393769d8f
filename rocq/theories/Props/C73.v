(** C73: the server works with the settings chosen in the editor.  Partial: a
    path that looks like an option stops the server. *)
From Verif Require Import Model.Base Model.Client Spec.ClientSpec Proofs.ClientProofs.
Local Open Scope string_scope.
Local Open Scope list_scope.

Theorem C73_options_partial : forall c, typed c -> (forall k t, k <> SPathTime -> text_in_force c k t -> ~ dashed t) ->
  exists o, server_options (server_args c) = Ok o /\ given c o.
Proof. exact options_ok. Qed.
Print Assumptions C73_options_partial.

Theorem C73_sound : forall c o, typed c -> server_options (server_args c) = Ok o -> given c o.
Proof. exact options_sound. Qed.
Print Assumptions C73_sound.

(** Exactly when it does not start. *)
Theorem C73_fails : forall c, typed c ->
  (server_options (server_args c) = Exc EInvalidArgument <-> exists k t, k <> SPathTime /\ text_in_force c k t /\ looks_known t = true).
Proof. exact options_fail. Qed.
Print Assumptions C73_fails.

(** The words for yes and no that the server understands. *)
Theorem C73_words : forall s,
  (read_bool s = Ok true <-> In s [""; "on"; "yes"; "1"; "true"]) /\ (read_bool s = Ok false <-> In s ["off"; "no"; "0"; "false"]) /\
  (forall e, read_bool s = Exc e -> e = EInvalidArgument).
Proof.
  intro s. assert (X : forall l, existsb (String.eqb s) l = true <-> In s l).
  { intro l. rewrite existsb_exists. split; [intros (x & I & E); apply String.eqb_eq in E; now subst|]. intro I. exists s. split; [exact I|apply String.eqb_refl]. }
  unfold read_bool. destruct (existsb (String.eqb s) [""; "on"; "yes"; "1"; "true"]) eqn:A.
  - apply X in A. split; [tauto|]. split; [|discriminate]. split; [discriminate|]. intro B. exfalso. cbn in A, B.
    repeat (destruct A as [<- | A]; [repeat (destruct B as [B|B]; [discriminate B|]); exact B|]). exact A.
  - split; [split; [intro H; destruct (existsb _ _) in H; discriminate|]; intro I; apply X in I; congruence|].
    destruct (existsb (String.eqb s) ["off"; "no"; "0"; "false"]) eqn:B; [split; [split; [intros _; now apply X|reflexivity]|discriminate]|].
    split; [split; [discriminate|intro I; apply X in I; congruence]|]. intros e E. now injection E as <-.
Qed.
Print Assumptions C73_words.

(** The user's file of settings, a log file of the workspace beside one of the
    user, no calculation of paths; and a log file "-log.txt". *)
Definition ex_config (log : string) : config := fun l k =>
  match l, k with
  | User, SNcsetting => Some (SText "/home/me/mill 3.ncsetting")
  | User, SLog => Some (SText "/tmp/a.log")
  | Workspace, SLog => Some (SText log)
  | Workspace, SPathTime => Some (SBool false)
  | _, _ => None
  end.

Lemma ex_typed log : typed (ex_config log).
Proof. intros l k v H. destruct l, k; cbn in H; try discriminate; injection H as <-; eauto. Qed.

Theorem C73_dash_refuted : typed (ex_config "-log.txt") /\ server_options (server_args (ex_config "-log.txt")) = Exc EInvalidArgument.
Proof. split; [apply ex_typed|reflexivity]. Qed.
Print Assumptions C73_dash_refuted.

Example C73_ex :
  typed (ex_config "b.log") /\
  server_args (ex_config "b.log") = ["--ncsetting-path"; "/home/me/mill 3.ncsetting"; "--log-path"; "b.log"] /\
  server_options (server_args (ex_config "b.log")) = Ok (mkOptions "/home/me/mill 3.ncsetting" "b.log" "" false) /\
  server_options (server_args (fun _ _ => None)) = Ok (mkOptions "" "" "" true) /\
  server_options (server_args (ex_config "--")) = Ok (mkOptions "/home/me/mill 3.ncsetting" "--" "" false) /\
  server_options (server_args (ex_config "--log")) = Exc EInvalidArgument /\
  server_options (server_args (ex_config "--logs")) = Ok (mkOptions "/home/me/mill 3.ncsetting" "--logs" "" false).
Proof. split; [apply ex_typed|]. repeat split. Qed.
