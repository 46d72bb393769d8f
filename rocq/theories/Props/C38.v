(** C38: descriptions of macro variables. *)
From Coq Require Import Permutation.
From Verif Require Import Model.Base Model.MacrosDesc Spec.Text Spec.DescSpec Proofs.TextProofs Proofs.DescProofs.

(** The tables the reader can end with: any order in which the descriptions are
    walked, with or without a log. *)
Definition loaded (user : option desc_file) (builtin : desc_file) (logger : bool) (md : macros_desc) : Prop :=
  exists order rs, Permutation order (read_data user builtin) /\ read_ranges logger order = Ok rs /\
    md = mkMD (read_data user builtin) rs.

(** A variable with its own entry gets it, the user's before the built-in one. *)
Theorem C38_own_entry : forall user builtin logger md c td,
  loaded user builtin logger md -> effective user builtin c td -> get_desc logger md c = Ok td.
Proof. intros user builtin logger md c td (o & rs & P & R & ->) H. now apply desc_exact. Qed.
Print Assumptions C38_own_entry.

(** A variable without its own entry: it gets the description of an entry whose
    text mentions a range around it, or nothing, and nothing only when no text
    documents a range around it. Missing from the property: the end points. *)
Theorem C38_ranges_partial : forall user builtin logger md c n,
  loaded user builtin logger md -> denotes c n -> n <= int_max -> (forall td, ~ effective user builtin c td) ->
  exists td, get_desc logger md c = Ok td /\
    ((exists k t text b e, effective user builtin k (t, text) /\ td = (t, text) /\ mentions text b e /\ b < n < e) \/
     (td = ("", "") /\ forall k t text b e, effective user builtin k (t, text) -> documents text b e ->
        b <= int_max -> e <= int_max -> ~ b < n < e)).
Proof.
  intros user builtin logger md c n (o & rs & P & R & ->) D L N.
  destruct (desc_total user builtin logger rs c n D L) as [td E]. exists td. split; auto.
  eapply desc_inside; eauto.
Qed.
Print Assumptions C38_ranges_partial.

(** Outside of every range mentioned there is no description. *)
Theorem C38_outside : forall user builtin logger md c n,
  loaded user builtin logger md -> denotes c n -> n <= int_max -> (forall td, ~ effective user builtin c td) ->
  (forall k t text b e, effective user builtin k (t, text) -> mentions text b e -> ~ b <= n <= e) ->
  get_desc logger md c = Ok ("", "").
Proof.
  intros user builtin logger md c n H D L N O.
  destruct (C38_ranges_partial user builtin logger md c n H D L N) as (td & E & [(k & t & text & b & e & K & _ & M & C)|[-> _]]); auto.
  exfalso. apply (O k t text b e K M). lia.
Qed.
Print Assumptions C38_outside.

(** Inside of a documented range, when no other entry mentions a range around it. *)
Theorem C38_inside : forall user builtin logger md c n k t text b e,
  loaded user builtin logger md -> denotes c n -> n <= int_max -> (forall td, ~ effective user builtin c td) ->
  effective user builtin k (t, text) -> documents text b e -> b < n < e -> e <= int_max ->
  (forall k' t' text' b' e', effective user builtin k' (t', text') -> mentions text' b' e' -> b' < n < e' -> (t', text') = (t, text)) ->
  get_desc logger md c = Ok (t, text).
Proof.
  intros user builtin logger md c n k t text b e H D L N K Dc I Le U.
  destruct (C38_ranges_partial user builtin logger md c n H D L N) as (td & E & [(k' & t' & text' & b' & e' & K' & -> & M & C)|[-> O]]).
  - rewrite E. f_equal. eapply U; eauto.
  - exfalso. apply (O k t text b e K Dc); try lia.
Qed.
Print Assumptions C38_inside.

(** The tables load, with a log always, without one when the numbers fit. *)
Theorem C38_loads : forall user builtin,
  (exists md, loaded user builtin true md) /\
  ((forall k t text b e, effective user builtin k (t, text) -> mentions text b e -> b <= int_max /\ e <= int_max) ->
   exists md, loaded user builtin false md).
Proof.
  intros user builtin. split.
  - destruct (read_ranges_logger (read_data user builtin)) as [rs R]. eexists. exists (read_data user builtin), rs. auto.
  - intro H. destruct (read_ranges_fit (read_data user builtin)) as [rs R].
    + intros c t text b e I. apply (H c t text b e). eapply order_in; eauto.
    + eexists. exists (read_data user builtin), rs. auto.
Qed.
Print Assumptions C38_loads.

Definition table : desc_file := [("1000", [("Inputs", "Range: #1000-#1031 Attribute: R")])].

(** The end of a range gets nothing. *)
Theorem C38_end_points_refuted : exists builtin md, loaded None builtin true md /\
  (exists t text, effective None builtin "1000" (t, text) /\ documents text 1000 1031) /\
  get_desc true md "1030" = Ok ("Inputs", "Range: #1000-#1031 Attribute: R") /\
  get_desc true md "1031" = Ok ("", "").
Proof.
  exists table. eexists. split.
  - exists (read_data None table). eexists. split; [apply Permutation_refl|]. split; [vm_compute; reflexivity|reflexivity].
  - split; [|split; vm_compute; reflexivity]. exists "Inputs", "Range: #1000-#1031 Attribute: R". split.
    + exists [], []. split; [reflexivity|]. intros td [].
    + exists "", "#1000-#1031 Attribute: R", [(1000, 1031)]. split; [reflexivity|]. split; [|split; [|cbn; auto]].
      * intros p q E. destruct p as [|c p]; auto. exfalso.
cbn in E. injection E as _ E.
        do 30 (destruct p as [|? p]; [discriminate E|cbn in E; injection E as _ E]). destruct p; discriminate E.
      * change (range_phrase ("#" ++ "1000" ++ "-#" ++ "1031" ++ " Attribute: R") [(1000, 1031)]).
        constructor; [repeat split; discriminate|repeat split; discriminate|]. intros c r H. injection H as <- _. reflexivity.
Qed.
Print Assumptions C38_end_points_refuted.

(** Without a log a number too large for an int is fatal. *)
Theorem C38_too_large_refuted : exists builtin md, loaded None builtin false md /\
  get_desc false md "99999999999" = Exc (EUB "logger is null").
Proof.
  exists table. eexists. split.
  { exists (read_data None table). eexists. split; [apply Permutation_refl|]. split; [vm_compute; reflexivity|reflexivity]. }
  vm_compute. reflexivity.
Qed.
Print Assumptions C38_too_large_refuted.

Example C38_ex : exists md,
  loaded (Some [("1000", [("Mine", "Range: #1000-#1010")])]) table true md /\
  get_desc true md "1000" = Ok ("Mine", "Range: #1000-#1010") /\
  get_desc true md "1005" = Ok ("Mine", "Range: #1000-#1010") /\
  get_desc true md "1020" = Ok ("", "") /\
  effective (Some [("1000", [("Mine", "Range: #1000-#1010")])]) table "1000" ("Mine", "Range: #1000-#1010") /\
  (forall td, ~ effective (Some [("1000", [("Mine", "Range: #1000-#1010")])]) table "1005" td).
Proof.
  eexists. split.
  { exists (read_data (Some [("1000", [("Mine", "Range: #1000-#1010")])]) table). eexists. split; [apply Permutation_refl|].
    split; [vm_compute; reflexivity|reflexivity]. }
  split; [vm_compute; reflexivity|]. split; [vm_compute; reflexivity|]. split; [vm_compute; reflexivity|]. split.
  - left. exists [], []. split; [reflexivity|]. intros td [].
  - apply data_none. vm_compute. reflexivity.
Qed.
