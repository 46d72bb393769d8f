(** Histories on a milling machine, calculated. *)
From Verif Require Import Model.Base Model.Attr Model.Double Model.Macro Model.Verifiers Model.PathGeom Model.PathCalc
  Spec.SplitSpec Spec.PathSpec Proofs.Tactics.

Open Scope list_scope.

Definition ex_cnc (executes auto : bool) : cnc_defaults :=
  mkCnc 0 17 false 90 94 false 98 0 false false false false false false executes auto.

Definition ex_mill (executes auto : bool) : machine :=
  let p := [("X"%string, dzero); ("Y"%string, dzero); ("Z"%string, dzero)] in
  mkMachine false MTMill p p ["X"; "Y"; "Z"]%string (d_of_Z 10000) 5 20 7 false false "M" "60" "M" "36" (ex_cnc executes auto).

Definition word (w t : string) : attr := ADec (mkDec w None None None None (Some t) None None None).
Definition next (b : block) : step := mkStep false 1 b [].

(** Some logarithm. *)
Definition some_log (_ : dbl) : dbl := d_of_ratio false 2881 1000.

(** A helix without F, then a spiral. *)
Definition spiral_history : list step :=
  [next [word "G" "2"; word "X" "0"; word "Y" "0"; word "Z" "1"; word "I" "1"; word "J" "1"; word "K" "1"];
   next [word "G" "2"; word "I" "1"; word "J" "1"; word "Q" "1"; word "F" "100"]].

Lemma spiral_lost : forall atan cabs stale,
  let mc := ex_mill true false in
  let rs := run atan some_log cabs stale mc (calc_new mc) spiral_history in
  ~ same_number (p_total (c_path (final (calc_new mc) rs))) (total (map (fun r => block_path (fst r)) rs)).
Proof.
  intros atan cabs stale mc rs. vm_compute. intros [H|[s [t [H1 H2]]]]; discriminate.
Qed.

(** A dwell beside a tool that is only prepared. *)
Definition prepare_history : list step := [next [word "T" "1"; word "G" "4"; word "X" "5"]].

Lemma dwell_lost : forall atan log cabs stale,
  let mc := ex_mill false false in
  let rs := run atan log cabs stale mc (calc_new mc) prepare_history in
  exists o, other_seconds mc (s_block (hd (next []) prepare_history)) o /\
  map snd rs = [None] /\
  ~ same_number (t_total (c_time (final (calc_new mc) rs)))
      (total (o ++ map (fun r => block_time (fst r)) rs)).
Proof.
  intros atan log cabs stale mc rs. exists [d_of_Z 5].
  split; [|split; [reflexivity|vm_compute; intros [H|[s [t [H1 H2]]]]; discriminate]].
  exists [], [], [], [], [d_of_Z 5], (Some (d_of_Z 5)), None, None.
  assert (N : forall w, In w ["60"; "36"]%string -> ~ has_code "M" w (s_block (hd (next []) prepare_history))).
  { intros w _ [H|[_ [d [I _]]]]; [cbn in H; intuition discriminate|exact I]. }
  split; [right; split; [|reflexivity]; intros [_ H]; apply N in H; [exact H|cbn; auto]|].
  split; [right; split; [|reflexivity]; intros H; apply N in H; [exact H|cbn; auto]|].
  split; [right; split; [|reflexivity]; intros [_ [d [t [I _]]]]; exact I|].
  split; [right; split; [|reflexivity]; intros [H _]; discriminate|].
  split. { exists [], (mkDec "X" None None None None (Some "5"%string) None None None), []. split; [reflexivity|].
    split; [|intros d []]. split; [left; discriminate|]. exists (d_of_Z 5). split; vm_compute; reflexivity. }
  split; [intros d []|]. split; [intros d []|]. split; [left; split; [|reflexivity]|reflexivity].
  exists (mkDec "G" None None None None (Some "4"%string) None None None), "4"%string. cbn. auto 6.
Qed.
