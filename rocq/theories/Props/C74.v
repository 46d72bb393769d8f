(** C74: the extension tells the user when the server works with old settings,
    runs one configuration tool, and shows the name of the machine.  Partial: see
    the refutations. *)
From Verif Require Import Model.Base Model.Client Spec.ClientSpec Proofs.ClientProofs Proofs.ClientStatus.
Local Open Scope string_scope.
Local Open Scope list_scope.

(** After any events the server has the settings in force, or the user has been
    asked to reload the window. *)
Theorem C74_stale : forall w c es s a, run es (activate w c) = (s, a) -> In AskReload a \/ cl_args s = server_args (cl_config s).
Proof. exact stale. Qed.
Print Assumptions C74_stale.

(** Each edit is asked about if no earlier command left its setting as it was. *)
Theorem C74_each_partial : forall w c es l k v, all_effective es (activate w c) ->
  let s := fst (run es (activate w c)) in cl_config s l k <> v ->
  cl_config (fst (step (Edited l k v) s)) l k = v /\ In AskReload (snd (step (Edited l k v) s)).
Proof. exact each_asked. Qed.
Print Assumptions C74_each_partial.

(** A file selected once more: the next edit, of another setting, is ignored. *)
Theorem C74_each_refuted : exists c e k v, let s := fst (step e (activate true c)) in
  cl_config s User k <> Some v /\ snd (step (Edited User k (Some v)) s) = [] /\
  cl_args s <> server_args (cl_config (fst (step (Edited User k (Some v)) s))).
Proof.
  exists (fun l k => match l, k with User, SNcsetting => Some (SText "/m.ncsetting") | _, _ => None end),
    (Select SNcsetting (Some User) (Some "/m.ncsetting")), SLog, (SText "/a.log").
  repeat split; discriminate.
Qed.
Print Assumptions C74_each_refuted.

(** Toggling changes the setting in force unless the workspace has its own. *)
Theorem C74_toggle_partial : forall s, cl_config s Workspace SPathTime = None ->
  truthy (get (cl_config (fst (step Toggle s))) SPathTime) = negb (truthy (get (cl_config s) SPathTime)).
Proof. exact toggles. Qed.
Print Assumptions C74_toggle_partial.

Theorem C74_toggle_refuted : forall s v, cl_config s Workspace SPathTime = Some v ->
  get (cl_config (fst (step Toggle s))) SPathTime = get (cl_config s) SPathTime.
Proof. exact toggle_kept. Qed.
Print Assumptions C74_toggle_refuted.

(** The tool is started only when none runs. *)
Theorem C74_one_tool : forall es w c, proper es (activate w c) ->
  (count starts (snd (run es (activate w c))) <= count ends es + 1)%nat.
Proof. exact at_most_one. Qed.
Print Assumptions C74_one_tool.

(** Where it is said not to be supported it is started all the same. *)
Theorem C74_supported_refuted : forall c, snd (step Create (activate false c)) = [SayNotSupported; StartTool].
Proof. reflexivity. Qed.
Print Assumptions C74_supported_refuted.

(** The server is restarted for its file of settings and no other. *)
Theorem C74_watched : forall w c es f, typed c -> f <> "" ->
  (In RestartServer (snd (step (FileChanged f) (fst (run es (activate w c))))) <-> text_in_force c SNcsetting f).
Proof. exact watched. Qed.
Print Assumptions C74_watched.

(** The status bar: the name of the machine without white space around it, else
    the name of the file without its extension. *)
Theorem C74_status : forall path s t, trimmed s t -> t <> "" -> status_text path (IdText s) = t.
Proof. exact status_id. Qed.
Print Assumptions C74_status.

Theorem C74_status_file : forall path m, (forall s, m = IdText s -> all_blank s) -> status_text path m = stem path.
Proof. exact status_stem. Qed.
Print Assumptions C74_status_file.

Theorem C74_stem_partial : forall path f b, file_name path f -> f <> ".." -> without_extension f b ->
  (forall e x y, f = b ++ String "." e -> f = x ++ (String "." e ++ y) -> y = "")%string -> stem path = b.
Proof. exact stem_ok. Qed.
Print Assumptions C74_stem_partial.

Theorem C74_stem_one_dot : forall path b e, file_name path (b ++ String "." e)%string -> b <> "" ->
  (forall x y, b <> x ++ String "." y)%string -> (forall x y, e <> x ++ String "." y)%string -> stem path = b.
Proof. exact stem_one_dot. Qed.
Print Assumptions C74_stem_one_dot.

(** The first occurrence of the extension is taken out, not the last. *)
Theorem C74_stem_refuted : without_extension "mill.ncsettings.ncsetting" "mill.ncsettings" /\ stem "/a/mill.ncsettings.ncsetting" = "mills.ncsetting".
Proof.
  split; [|reflexivity]. apply (we_some "mill.ncsettings" "ncsetting"); [discriminate|].
  intros x y E. repeat (destruct x as [|? x]; [discriminate E|injection E as _ E]). destruct x; discriminate E.
Qed.
Print Assumptions C74_stem_refuted.

Definition ex_start : client := activate true (fun l k => match l, k with User, SNcsetting => Some (SText "/m.ncsetting") | _, _ => None end).
Definition ex_events : list event :=
  [Create; Create; FileChanged "/m.ncsetting"; FileChanged "/n.ncsetting"; ToolEnds; Toggle; Create; Unrelated; Edited Workspace SLog (Some (SText "l"))].

Example C74_ex :
  all_effective ex_events ex_start /\ proper ex_events ex_start /\
  snd (run ex_events ex_start) = [StartTool; SayRunning; RestartServer; ShowStatus "/m.ncsetting"; AskReload; StartTool; AskReload] /\
  stem "/home/me/mill 3.ncsetting" = "mill 3" /\ status_text "/home/me/mill 3.ncsetting" (IdText "  Haas VF2 ") = "Haas VF2" /\ status_text "/x.y" (IdText "  ") = "x".
Proof.
  split; [|split; [|repeat split]].
  - cbn. repeat split; discriminate.
  - cbn. repeat split; discriminate || reflexivity.
Qed.
