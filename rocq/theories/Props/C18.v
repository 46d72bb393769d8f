(** C18: splitting by tool change cuts exactly before the second and later tool changes. *)
From Verif Require Import Model.Base Model.Attr Model.Splitter Spec.SplitSpec Proofs.SplitProofs.

Theorem C18_cuts : forall sd rp data ps, Forall readable_block data -> split_tool sd rp data = Ok ps ->
  exists cores, partition data cores /\ ps = fenced rp cores /\
  forall pre b post, data = (pre ++ b :: post)%list ->
   (starts_part cores pre b post <-> later_tool_change (sd_tool_number_executes_exchange sd) pre b).
Proof. exact tool_cut. Qed.
Print Assumptions C18_cuts.

Definition w (a v : string) : block := [ADec (plain a v)].

Example C18_ex :
  let p := [w "T" "1"; w "M" "6"; w "G" "1"; w "T" "2"; w "M" "06"; w "G" "1"] in
  Forall readable_block p /\
  split_tool (mkSD false false false) None p
    = Ok [[w "T" "1"; w "M" "6"; w "G" "1"; w "T" "2"]; [w "M" "06"; w "G" "1"]] /\
  split_tool (mkSD true false false) None p
    = Ok [[w "T" "1"; w "M" "6"; w "G" "1"]; [w "T" "2"; w "M" "06"; w "G" "1"]].
Proof.
  split; [|vm_compute; split; reflexivity].
  apply Forall_forall. intros b Hb d v I W V.
  assert (E : exists a n, b = w a n /\ In n ["1"; "6"; "2"; "06"]%string).
  { cbn in Hb. repeat (destruct Hb as [<-|Hb]; [do 2 eexists; split; [reflexivity|cbn; tauto]|]). contradiction. }
  destruct E as (a & n & -> & In_n). destruct I as [I|[]]. injection I as <-. cbn in V. injection V as <-.
  exists (digits_val n). cbn in In_n.
  repeat (destruct In_n as [<-|In_n]; [split; [split; [discriminate|split; reflexivity]|vm_compute; discriminate]|]).
  contradiction.
Qed.
