(** The settings reach the server, and the user is told when they do not. *)
From Verif Require Import Model.Base Model.Client Spec.ClientSpec Proofs.Tactics.
From Coq Require Import Lia.
Local Open Scope string_scope.
Local Open Scope list_scope.

Lemma get_force c k : in_force c k (get c k).
Proof.
  unfold get. destruct (c Workspace k) as [v|] eqn:W; [now constructor|]. destruct (c User k) as [v|] eqn:U; [now apply force_user|].
  pose proof (force_default c k W U) as F. destruct k; exact F.
Qed.

Lemma force_unique c k v w : in_force c k v -> in_force c k w -> v = w.
Proof. intros A B. inv A; inv B; congruence. Qed.

Lemma get_text c k : typed c -> k <> SPathTime -> (exists s, get c k = Some (SText s)) \/ (get c k = None).
Proof.
  intros T N. unfold get. destruct (c Workspace k) as [v|] eqn:W.
  - left. specialize (T _ _ _ W). destruct k; try contradiction; destruct T as [s ->]; eauto.
  - destruct (c User k) as [v|] eqn:U.
    + left. specialize (T _ _ _ U). destruct k; try contradiction; destruct T as [s ->]; eauto.
    + destruct k; try contradiction; cbn; eauto.
Qed.

Lemma get_bool c : typed c -> exists b, get c SPathTime = Some (SBool b).
Proof.
  intros T. unfold get. destruct (c Workspace SPathTime) as [v|] eqn:W; [destruct (T _ _ _ W) as [b ->]; eauto|].
  destruct (c User SPathTime) as [v|] eqn:U; [destruct (T _ _ _ U) as [b ->]; eauto|]. cbn. eauto.
Qed.

(** The text of a setting. *)
Definition text_get (c : config) (k : setting) : string := match get c k with Some (SText s) => s | _ => "" end.

Lemma text_get_force c k : typed c -> k <> SPathTime -> text_in_force c k (text_get c k).
Proof.
  intros T N. unfold text_get. pose proof (get_force c k) as F. destruct (get_text c k T N) as [[s E]|E]; rewrite E in *.
  - left. exact F.
  - right. auto.
Qed.

Lemma force_text c k t : text_in_force c k t -> text_get c k = t.
Proof.
  unfold text_get. pose proof (get_force c k) as G. intros [F|[F ->]].
  - now rewrite (force_unique _ _ _ _ G F).
  - now rewrite (force_unique _ _ _ _ G F).
Qed.

Definition opt_args (name t : string) : list string := if String.eqb t "" then [] else [name; t].

Lemma server_args_eq c b : typed c -> get c SPathTime = Some (SBool b) ->
  server_args c = opt_args "--ncsetting-path" (text_get c SNcsetting) ++ opt_args "--log-path" (text_get c SLog) ++
    (if b then ["--calculate-path"; "true"] else []) ++ opt_args "--macro-desc-path" (text_get c SMacros).
Proof.
  intros T B. unfold server_args.
  assert (E : forall n k, k <> SPathTime -> (if truthy (get c k) then [n; text_of_val (get c k)] else []) = opt_args n (text_get c k)).
  { intros n k N. unfold opt_args, text_get. destruct (get_text c k T N) as [[s E]|E]; rewrite E; cbn; [|reflexivity].
    destruct (String.eqb s ""); reflexivity. }
  rewrite (E _ SNcsetting), (E _ SLog), (E _ SMacros) by discriminate. rewrite B. cbn [truthy text_of_val]. destruct b; reflexivity.
Qed.

Lemma looks_known_empty : looks_known "" = false.
Proof. reflexivity. Qed.

(** One option in front of the rest. *)
Lemma read_one n t rest seen : existsb (fun o => String.eqb n (fst (fst o)) && snd o) known_options = true -> assoc n seen = None ->
  read_options (opt_args (append "--" n) t ++ rest) seen =
    if String.eqb t "" then read_options rest seen
    else if looks_known t then Exc EInvalidArgument else read_options rest ((n, t) :: seen).
Proof.
  intros K A. unfold opt_args. destruct (String.eqb t ""); [reflexivity|]. cbn [app append read_options long_name]. rewrite K. cbn [negb].
  destruct (looks_known t); [reflexivity|]. now rewrite A.
Qed.

Lemma read_path rest seen : assoc "calculate-path" seen = None ->
  read_options ("--calculate-path" :: "true" :: rest) seen = read_options rest (("calculate-path", "true") :: seen).
Proof. intros A. cbn [read_options]. cbn. now rewrite A. Qed.

Ltac read_rest :=
  match goal with |- context [if ?b then ["--calculate-path"; "true"] else []] => destruct b end;
  match goal with |- context [opt_args ?n ?m] =>
    try (change (["--calculate-path"; "true"] ++ opt_args n m) with ("--calculate-path" :: "true" :: opt_args n m); rewrite read_path by reflexivity);
    change ([] ++ opt_args n m) with (opt_args n m);
    rewrite <- (app_nil_r (opt_args n m)); rewrite read_one by reflexivity;
    destruct (String.eqb_spec m "") as [->|]; [reflexivity|]; destruct (looks_known m); reflexivity
  end.

(** All four settings are read back, if and only if no text looks like an option. *)
Theorem options_eq c b : typed c -> get c SPathTime = Some (SBool b) ->
  server_options (server_args c) =
    if (looks_known (text_get c SNcsetting) || looks_known (text_get c SLog) || looks_known (text_get c SMacros))%bool then Exc EInvalidArgument
    else Ok (mkOptions (text_get c SNcsetting) (text_get c SLog) (text_get c SMacros) b).
Proof.
  intros T B. unfold server_options. rewrite (server_args_eq c b T B).
  generalize (text_get c SNcsetting) as n, (text_get c SLog) as l, (text_get c SMacros) as m. clear. intros n l m.
  change "--ncsetting-path" with (append "--" "ncsetting-path"). change "--log-path" with (append "--" "log-path"). change "--macro-desc-path" with (append "--" "macro-desc-path").
  rewrite read_one by reflexivity.
  destruct (String.eqb_spec n "") as [->|Nn]; [rewrite looks_known_empty|destruct (looks_known n); [reflexivity|]]; cbn [orb];
    (rewrite read_one by reflexivity;
     destruct (String.eqb_spec l "") as [->|Nl]; [rewrite looks_known_empty|destruct (looks_known l); [reflexivity|]]; cbn [orb]; read_rest).
Qed.

Lemma known_dashed t : looks_known t = true -> dashed t.
Proof.
  destruct t as [|c r]; [discriminate|]. intros H. exists r. f_equal.
  destruct c as [[|] [|] [|] [|] [|] [|] [|] [|]]; try discriminate H. reflexivity.
Qed.

Theorem options_ok c : typed c -> (forall k t, k <> SPathTime -> text_in_force c k t -> ~ dashed t) ->
  exists o, server_options (server_args c) = Ok o /\ given c o.
Proof.
  intros T D. destruct (get_bool c T) as [b B]. rewrite (options_eq c b T B).
  assert (K : forall k, k <> SPathTime -> looks_known (text_get c k) = false).
  { intros k N. destruct (looks_known (text_get c k)) eqn:E; [|reflexivity]. apply known_dashed in E.
    destruct (D k (text_get c k) N); [now apply text_get_force|exact E]. }
  rewrite !K by discriminate. cbn [orb]. eexists. split; [reflexivity|]. unfold given. cbn.
  repeat split; try (apply text_get_force; [exact T|discriminate]). rewrite <- B. apply get_force.
Qed.

(** Whenever the server starts, it was given the settings. *)
Theorem options_sound c o : typed c -> server_options (server_args c) = Ok o -> given c o.
Proof.
  intros T E. destruct (get_bool c T) as [b B]. rewrite (options_eq c b T B) in E.
  destruct (looks_known (text_get c SNcsetting) || _ || _)%bool; [discriminate|]. inv E. unfold given. cbn.
  repeat split; try (apply text_get_force; [exact T|discriminate]). rewrite <- B. apply get_force.
Qed.

(** It does not start exactly when a text looks like an option. *)
Theorem options_fail c : typed c ->
  (server_options (server_args c) = Exc EInvalidArgument <-> exists k t, k <> SPathTime /\ text_in_force c k t /\ looks_known t = true).
Proof.
  intros T. destruct (get_bool c T) as [b B]. rewrite (options_eq c b T B). split.
  - destruct (looks_known (text_get c SNcsetting)) eqn:E1; [intros _; exists SNcsetting, (text_get c SNcsetting); repeat split; [discriminate|apply text_get_force; [exact T|discriminate]|exact E1]|].
    destruct (looks_known (text_get c SLog)) eqn:E2; [intros _; exists SLog, (text_get c SLog); repeat split; [discriminate|apply text_get_force; [exact T|discriminate]|exact E2]|].
    destruct (looks_known (text_get c SMacros)) eqn:E3; [intros _; exists SMacros, (text_get c SMacros); repeat split; [discriminate|apply text_get_force; [exact T|discriminate]|exact E3]|].
    discriminate.
  - intros (k & t & N & F & L). apply force_text in F. subst t. destruct k; try contradiction; rewrite L; rewrite ?Bool.orb_true_r; reflexivity.
Qed.

(** ** The extension at work *)

(** Either nothing that matters changed, or the user was asked. *)
Lemma step_inv e s s' a c : step e s = (s', a) ->
  cl_args s = server_args c -> (cl_config s = c /\ cl_ignore s = false) ->
  cl_args s' = server_args c /\ (In AskReload a \/ (cl_config s' = c /\ cl_ignore s' = false)).
Proof.
  intros E A [C I]. destruct s as [cf ig rn wn ar wa]. cbn in *. subst.
  destruct e as [l k v| | |k [l|] [f|]| | |f]; cbn [step] in E.
  - unfold store_value in E. cbn in E. destruct (osval_eqb _ _); inv E; cbn; auto.
  - cbn in E. inv E. auto.
  - unfold update, store_value in E. cbn in E. destruct (osval_eqb _ _); inv E; cbn; auto.
  - unfold update, store_value in E. cbn in E. destruct (declared k); [|inv E; cbn; auto]. destruct (osval_eqb _ _); inv E; cbn; auto.
  - inv E. auto.
  - inv E. auto.
  - inv E. auto.
  - cbn in E. destruct rn; inv E; cbn; auto.
  - inv E. cbn. auto.
  - cbn in E. destruct wa as [w|]; [|inv E; auto]. destruct (String.eqb f w); inv E; cbn; auto.
Qed.

Lemma step_args e s s' a : step e s = (s', a) -> cl_args s' = cl_args s.
Proof.
  intros E. destruct s as [cf ig rn wn ar wa].
  destruct e as [l k v| | |k [l|] [f|]| | |f]; cbn [step] in E.
  - unfold store_value, on_change in E. cbn in E. destruct (osval_eqb _ _); [inv E; reflexivity|]. destruct ig; inv E; reflexivity.
  - cbn in E. destruct ig; inv E; reflexivity.
  - unfold update, store_value in E. cbn in E. destruct (osval_eqb _ _); inv E; reflexivity.
  - unfold update, store_value in E. cbn in E. destruct (declared k); [|inv E; reflexivity]. destruct (osval_eqb _ _); inv E; reflexivity.
  - inv E. reflexivity.
  - inv E. reflexivity.
  - inv E. reflexivity.
  - cbn in E. destruct rn; inv E; reflexivity.
  - inv E. reflexivity.
  - cbn in E. destruct wa as [w|]; [|inv E; reflexivity]. destruct (String.eqb f w); inv E; reflexivity.
Qed.

Lemma run_args es : forall s s' a, run es s = (s', a) -> cl_args s' = cl_args s.
Proof.
  induction es as [|e es IH]; intros s s' a E; cbn in E; [inv E; reflexivity|].
  destruct (step e s) as [s1 a1] eqn:S. destruct (run es s1) as [s2 b] eqn:R. inv E. rewrite (IH _ _ _ R). eapply step_args; eauto.
Qed.

Theorem stale w c es s a : run es (activate w c) = (s, a) -> In AskReload a \/ cl_args s = server_args (cl_config s).
Proof.
  assert (G : forall es s0 s a, cl_args s0 = server_args c -> cl_config s0 = c -> cl_ignore s0 = false -> run es s0 = (s, a) ->
            In AskReload a \/ (cl_args s = server_args c /\ cl_config s = c)).
  { clear. induction es as [|e es IH]; intros s0 s a A C I E; cbn in E; [inv E; auto|].
    destruct (step e s0) as [s1 a1] eqn:S. destruct (run es s1) as [s2 b] eqn:R. inv E.
    destruct (step_inv e s0 s1 a1 (cl_config s0) S A (conj eq_refl I)) as (A1 & [H|[C1 I1]]); [left; apply in_or_app; auto|].
    destruct (IH s1 s b A1 C1 I1 R) as [H|H]; [left; apply in_or_app; auto|right; exact H]. }
  intros E. destruct (G es (activate w c) s a eq_refl eq_refl eq_refl E) as [H|[A C]]; [auto|]. right. now rewrite A, C.
Qed.

(** A command that changes its setting. *)
Definition effective (e : event) (s : client) : Prop :=
  match e with
  | Toggle => cl_config s User SPathTime <> Some (SBool (negb (truthy (get (cl_config s) SPathTime))))
  | Select k (Some l) (Some f) => k <> SMacros /\ cl_config s l k <> Some (SText f)
  | _ => True
  end.

Fixpoint all_effective (es : list event) (s : client) : Prop :=
  match es with [] => True | e :: es' => effective e s /\ all_effective es' (fst (step e s)) end.

Lemma osval_eqb_eq a b : osval_eqb a b = true <-> a = b.
Proof.
  split.
  - destruct a as [[s|x]|], b as [[t|y]|]; cbn; try discriminate; try reflexivity.
    + intros H. apply String.eqb_eq in H. congruence.
    + intros H. apply Bool.eqb_prop in H. congruence.
  - intros ->. destruct b as [[t|y]|]; cbn; [apply String.eqb_refl|apply Bool.eqb_reflx|reflexivity].
Qed.

Lemma effective_heeds e s : cl_ignore s = false -> effective e s -> cl_ignore (fst (step e s)) = false.
Proof.
  intros I F. destruct s as [cf ig rn wn ar wa]. cbn in I. subst ig. destruct e as [l k v| | |k [l|] [f|]| | |f]; cbn [step]; try reflexivity.
  - unfold store_value. cbn. destruct (osval_eqb _ _); reflexivity.
  - unfold update, store_value. cbn. cbn in F. destruct (osval_eqb _ _) eqn:O; [|reflexivity]. apply osval_eqb_eq in O. contradiction.
  - unfold update, store_value. cbn. cbn in F. destruct F as [N F]. destruct k; try contradiction; cbn; destruct (osval_eqb _ _) eqn:O; try reflexivity; apply osval_eqb_eq in O; contradiction.
  - cbn. destruct rn; reflexivity.
  - cbn. destruct wa as [w|]; [|reflexivity]. destruct (String.eqb f w); reflexivity.
Qed.

Lemma effective_run es : forall s, cl_ignore s = false -> all_effective es s -> cl_ignore (fst (run es s)) = false.
Proof.
  induction es as [|e es IH]; intros s I F; [exact I|]. cbn in F. destruct F as [F1 F2]. cbn [run].
  pose proof (effective_heeds e s I F1) as H. destruct (step e s) as [s1 a]. cbn [fst] in *. specialize (IH s1 H F2). destruct (run es s1). exact IH.
Qed.

Theorem each_asked w c es l k v : all_effective es (activate w c) ->
  let s := fst (run es (activate w c)) in cl_config s l k <> v ->
  cl_config (fst (step (Edited l k v) s)) l k = v /\ In AskReload (snd (step (Edited l k v) s)).
Proof.
  intros F s N. pose proof (effective_run es (activate w c) eq_refl F) as I. fold s in I. destruct s as [cf ig rn wn ar wa]. cbn in I, N. subst ig.
  cbn [step]. unfold store_value. cbn [cl_config]. destruct (osval_eqb (cf l k) v) eqn:O; [apply osval_eqb_eq in O; contradiction|]. cbn. split; [|auto].
  unfold set_config. destruct l, k; reflexivity.
Qed.

(** ** Toggling *)

Theorem toggles s : cl_config s Workspace SPathTime = None ->
  truthy (get (cl_config (fst (step Toggle s))) SPathTime) = negb (truthy (get (cl_config s) SPathTime)).
Proof.
  intros W. cbn [step]. unfold update. cbn [declared]. unfold store_value. cbn [ignoring cl_config].
  destruct (osval_eqb (cl_config s User SPathTime) _) eqn:O.
  - exfalso. apply osval_eqb_eq in O. remember (truthy (get (cl_config s) SPathTime)) as x eqn:X. unfold get in X. rewrite W, O in X. cbn in X. destruct x; discriminate.
  - cbn. unfold get at 1, set_config. cbn. rewrite W. reflexivity.
Qed.

Theorem toggle_kept s v : cl_config s Workspace SPathTime = Some v -> get (cl_config (fst (step Toggle s))) SPathTime = get (cl_config s) SPathTime.
Proof.
  intros W. cbn [step]. unfold update. cbn [declared]. unfold store_value. cbn [ignoring cl_config].
  destruct (osval_eqb (cl_config s User SPathTime) _); [reflexivity|]. cbn. unfold get, set_config. cbn. now rewrite W.
Qed.

(** ** The configuration tool *)

Definition starts (a : action) : bool := match a with StartTool => true | _ => false end.
Definition ends (e : event) : bool := match e with ToolEnds => true | _ => false end.

Lemma count_app {A} (f : A -> bool) l k : count f (l ++ k) = (count f l + count f k)%nat.
Proof. unfold count. now rewrite filter_app, app_length. Qed.

(** The tool ends only when it runs. *)
Fixpoint proper (es : list event) (s : client) : Prop :=
  match es with [] => True | e :: es' => (e = ToolEnds -> cl_running s = true) /\ proper es' (fst (step e s)) end.

Definition b2n (b : bool) : nat := if b then 1 else 0.

Lemma step_running e s : (e = ToolEnds -> cl_running s = true) ->
  (b2n (cl_running s) + count starts (snd (step e s)) = b2n (cl_running (fst (step e s))) + count ends [e])%nat.
Proof.
  intros P. destruct s as [cf ig rn wn ar wa]. destruct e as [l k v| | |k [l|] [f|]| | |f]; cbn [step].
  - unfold store_value, on_change. cbn. destruct (osval_eqb _ _); [destruct rn; reflexivity|]. destruct ig; cbn; destruct rn; reflexivity.
  - cbn. destruct ig, rn; reflexivity.
  - unfold update, store_value. cbn. destruct (osval_eqb _ _); cbn; destruct rn; reflexivity.
  - unfold update, store_value. cbn. destruct (declared k); [|cbn; destruct rn; reflexivity]. destruct (osval_eqb _ _); cbn; destruct rn; reflexivity.
  - destruct rn; reflexivity.
  - destruct rn; reflexivity.
  - destruct rn; reflexivity.
  - cbn. destruct rn, wn; reflexivity.
  - specialize (P eq_refl). cbn in P. subst. reflexivity.
  - cbn. destruct wa as [w|]; [|destruct rn; reflexivity]. destruct (String.eqb f w); destruct rn; reflexivity.
Qed.

Theorem one_tool es : forall s, proper es s ->
  (b2n (cl_running s) + count starts (snd (run es s)) = count ends es + b2n (cl_running (fst (run es s))))%nat.
Proof.
  induction es as [|e es IH]; intros s P; [cbn; unfold count; cbn; lia|]. cbn in P. destruct P as [P1 P2]. pose proof (step_running e s P1) as H.
  cbn [run]. destruct (step e s) as [s1 a]. cbn [fst snd] in *. specialize (IH s1 P2). destruct (run es s1) as [s2 b]. cbn [fst snd] in *.
  change (e :: es) with ([e] ++ es). rewrite !count_app. lia.
Qed.

Corollary at_most_one es w c : proper es (activate w c) ->
  (count starts (snd (run es (activate w c))) <= count ends es + 1)%nat.
Proof.
  intros P. pose proof (one_tool es (activate w c) P) as H. cbn [activate cl_running b2n] in H.
  destruct (cl_running (fst (run es (activate w c)))); cbn [b2n] in H; lia.
Qed.

(** ** The watched file *)

Lemma step_watched e s : cl_watched (fst (step e s)) = cl_watched s.
Proof.
  destruct s as [cf ig rn wn ar wa]. destruct e as [l k v| | |k [l|] [f|]| | |f]; cbn [step]; try reflexivity.
  - unfold store_value, on_change. cbn. destruct (osval_eqb _ _); [reflexivity|]. destruct ig; reflexivity.
  - cbn. destruct ig; reflexivity.
  - unfold update, store_value. cbn. destruct (osval_eqb _ _); reflexivity.
  - unfold update, store_value. cbn. destruct (declared k); [|reflexivity]. destruct (osval_eqb _ _); reflexivity.
  - cbn. destruct rn; reflexivity.
  - cbn. destruct wa as [w|]; [|reflexivity]. destruct (String.eqb f w); reflexivity.
Qed.

Lemma run_watched es : forall s, cl_watched (fst (run es s)) = cl_watched s.
Proof.
  induction es as [|e es IH]; intros s; [reflexivity|]. cbn [run]. pose proof (step_watched e s) as W. destruct (step e s) as [s1 a]. cbn [fst] in W.
  specialize (IH s1). destruct (run es s1). cbn [fst] in *. congruence.
Qed.

Theorem watched w c es f : typed c -> f <> "" ->
  (In RestartServer (snd (step (FileChanged f) (fst (run es (activate w c))))) <-> text_in_force c SNcsetting f).
Proof.
  intros T N. cbn [step]. rewrite run_watched. cbn [activate cl_watched].
  pose proof (text_get_force c SNcsetting T ltac:(discriminate)) as TF.
  destruct (get_text c SNcsetting T) as [[s E]|E]; [discriminate| |].
  - unfold text_get in TF. rewrite E in *. cbn [truthy text_of_val]. destruct (String.eqb_spec s "") as [->|D]; cbn [negb].
    + split; [contradiction|]. intros F. apply force_text in F. unfold text_get in F. rewrite E in F. congruence.
    + destruct (String.eqb_spec f s) as [->|D'].
      * cbn. split; auto.
      * cbn. split; [contradiction|]. intros F. apply force_text in F. unfold text_get in F. rewrite E in F. congruence.
  - rewrite E. cbn. split; [contradiction|]. intros F. apply force_text in F. unfold text_get in F. rewrite E in F. congruence.
Qed.
