(** C83: what holds from block to block. *)
From Verif Require Import Model.Base Model.Attr Model.Double Model.Macro Model.Verifiers Model.PathGeom Model.PathCalc
  Spec.DoubleSpec Spec.SplitSpec Spec.PathSpec Spec.MotionSpec Spec.ModalSpec Proofs.Tactics Proofs.ModalProofs.

Local Open Scope string_scope.
Local Open Scope list_scope.
Local Open Scope Z_scope.

(** After a block F, S and the codes of each group are what the block says last
    or, where it says nothing, what held before. *)
Theorem C83_block_partial : forall tan_ log cabs stale mc inch line b c mv c' mv' A says f, proper_axes mc ->
  modal A says f -> b <> [] -> carried_out mc b c ->
  evaluate tan_ log cabs stale mc inch line b c mv = (c', mv', None) -> in_force says b (f c) (f c').
Proof. intros. eapply modes_hold; eassumption. Qed.
Print Assumptions C83_block_partial.

(** It holds through any number of blocks that say nothing of its kind. *)
Theorem C83_until_partial : forall tan_ log cabs stale mc inch line c b mv c1 mv' bs c2 A says f a, proper_axes mc ->
  modal A says f -> b <> [] -> carried_out mc b c ->
  evaluate tan_ log cabs stale mc inch line b c mv = (c1, mv', None) -> last_said says b (Some a) ->
  runs tan_ log cabs stale mc inch c1 bs c2 -> (forall b', In b' bs -> last_said says b' None) -> f c2 = a.
Proof. intros. eapply holds_until; eassumption. Qed.
Print Assumptions C83_until_partial.

(** So does the motion code; G80 may leave G0. *)
Theorem C83_motion_partial : forall tan_ log cabs stale mc inch line b c mv c' mv' g, proper_axes mc ->
  b <> [] -> carried_out mc b c -> last_said (code_of motions) b (Some g) ->
  evaluate tan_ log cabs stale mc inch line b c mv = (c', mv', None) -> c_g c' = left_by mc g.
Proof. intros. eapply motion_said; eassumption. Qed.
Print Assumptions C83_motion_partial.

Theorem C83_motion_kept_partial : forall tan_ log cabs stale mc inch line b c mv c' mv', proper_axes mc ->
  b <> [] -> no_tool b -> plain_codes b -> c_auto c = false -> 0 <= c_g c -> last_said (code_of motions) b None ->
  evaluate tan_ log cabs stale mc inch line b c mv = (c', mv', None) -> c_g c' = c_g c \/ c_g c' = left_by mc (c_g c).
Proof. intros. eapply motion_kept; eassumption. Qed.
Print Assumptions C83_motion_kept_partial.

Definition cnc : cnc_defaults := mkCnc 0 17 false 90 94 false 98 3 false false false false false false false false.
Definition mill : machine :=
  mkMachine false MTMill [] [("X", dzero); ("Y", dzero); ("Z", dzero)] ["X"; "Y"; "Z"] (dz 20000) 6 0 0 false false "" "" "M" "123" cnc.
Definition dec (w v : string) : decimal := mkDec w None None None None (Some v) None None None.
Definition word (w v : string) : attr := ADec (dec w v).

(** The calculator after some blocks. *)
Definition after_blocks (tan_ log cabs : dbl -> dbl) (mc : machine) (bs : list block) : calc :=
  fold_left (fun c b => fst (fst (evaluate tan_ log cabs 0 mc false 1 b c []))) bs (calc_new mc).

Lemma says_one_code n group w v : In n group -> stoi v = Ok n -> w = "G" -> last_said (code_of group) [word w v] (Some n).
Proof.
  intros I S ->. exists [], (dec "G" v), []. split; [reflexivity|]. split; [|intros ? ? []].
  split; [reflexivity|]. split; [exists v; split; [reflexivity|exact S]|exact I].
Qed.

Lemma says_feed x v : stod v = Ok x -> last_said (number_of "F") [word "F" v] (Some x).
Proof.
  intros S. exists [], (dec "F" v), []. split; [reflexivity|]. split; [|intros ? ? []].
  split; [reflexivity|]. split; [left; discriminate|]. cbn [dec d_value d_dot opt_str].
  assert (E : forall s, (s ++ "" = s)%string) by (induction s as [|a s IH]; cbn; [|rewrite IH]; reflexivity). now rewrite E.
Qed.

(** False where an arc is active and the block gives no coordinate: a new feed on
    a line of its own is forgotten. *)
Theorem C83_arc_refuted : exists c b c' mv',
  c = after_blocks (fun x => x) (fun x => x) dabs mill [[word "G" "1"; word "X" "10"; word "F" "100"]; [word "G" "2"; word "X" "20"; word "R" "5"]] /\
  evaluate (fun x => x) (fun x => x) dabs 0 mill false 3 b c [] = (c', mv', None) /\
  last_said (number_of "F") b (Some (dz 300)) /\ c_f c' = dz 100.
Proof.
  eexists. exists [word "F" "300"]. do 2 eexists. split; [reflexivity|]. split; [vm_compute; reflexivity|].
  split; [apply says_feed; vm_compute; reflexivity|vm_compute; reflexivity].
Qed.
Print Assumptions C83_arc_refuted.

(** Nor does G91 hold that stands alone while a cycle is active. *)
Theorem C83_cycle_refuted : exists c b c' mv',
  c = after_blocks (fun x => x) (fun x => x) dabs mill [[word "G" "1"; word "F" "100"]; [word "G" "81"; word "X" "20"; word "Z" "5"; word "R" "2"]] /\
  evaluate (fun x => x) (fun x => x) dabs 0 mill false 3 b c [] = (c', mv', None) /\
  last_said (code_of programmings) b (Some 91) /\ c_prog c' = 90.
Proof.
  eexists. exists [word "G" "91"]. do 2 eexists. split; [reflexivity|]. split; [vm_compute; reflexivity|].
  split; [apply says_one_code; [right; left|vm_compute|]; reflexivity|vm_compute; reflexivity].
Qed.
Print Assumptions C83_cycle_refuted.

(** Nor a feed beside a tool that is only made ready. *)
Theorem C83_tool_refuted : exists c b c' mv',
  c = after_blocks (fun x => x) (fun x => x) dabs mill [[word "G" "1"; word "X" "10"; word "F" "100"]] /\
  evaluate (fun x => x) (fun x => x) dabs 0 mill false 2 b c [] = (c', mv', None) /\
  last_said (number_of "F") b (Some (dz 300)) /\ c_f c' = dz 100.
Proof.
  eexists. exists [word "T" "2"; word "F" "300"]. do 2 eexists. split; [reflexivity|]. split; [vm_compute; reflexivity|].
  split; [|vm_compute; reflexivity]. exists [dec "T" "2"], (dec "F" "300"), []. split; [reflexivity|]. split; [|intros ? ? []].
  split; [reflexivity|]. split; [left; discriminate|vm_compute; reflexivity].
Qed.
Print Assumptions C83_tool_refuted.

(** G91 F200, then two blocks that say neither. *)
Example C83_ex : exists c1 c2 mv',
  let b := [word "G" "91"; word "F" "200"] in
  proper_axes mill /\ carried_out mill b (calc_new mill) /\
  evaluate (fun x => x) (fun x => x) dabs 0 mill false 1 b (calc_new mill) [] = (c1, mv', None) /\
  last_said (code_of programmings) b (Some 91) /\
  runs (fun x => x) (fun x => x) dabs 0 mill false c1 [[word "G" "1"; word "X" "3"]; [word "Y" "4"; word "S" "7"]] c2 /\
  c_prog (calc_new mill) = 90 /\ c_prog c2 = 91 /\ c_f c2 = dz 200 /\ c_s c2 = dz 7 /\ c_g c2 = 1.
Proof.
  do 3 eexists. cbv zeta.
  split. { intros w I J. cbn in I, J. intuition (subst; discriminate). }
  split. { split; [right; left; vm_compute; auto|]. left. intros (d & t & I & _). vm_compute in I. exact I. }
  split; [vm_compute; reflexivity|].
  split. { exists [], (dec "G" "91"), [dec "F" "200"]. split; [reflexivity|]. split.
    - split; [reflexivity|]. split; [exists "91"; split; vm_compute; reflexivity|right; left; reflexivity].
    - intros d a [<-|[]] [W _]. discriminate W. }
  split. { eapply runs_block with (line := 2) (mv := []); [discriminate| |vm_compute; reflexivity|].
    { split; [right; left; vm_compute; auto|]. left. intros (d & t & I & _). vm_compute in I. exact I. }
    eapply runs_block with (line := 3) (mv := []); [discriminate| |vm_compute; reflexivity|apply runs_none].
    split; [right; left; vm_compute; auto|]. left. intros (d & t & I & _). vm_compute in I. exact I. }
  split; [vm_compute; reflexivity|]. do 3 (split; [vm_compute; reflexivity|]). vm_compute; reflexivity.
Qed.
