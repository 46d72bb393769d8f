(** C72: what a .NET program puts into a shared structure is what the parser
    reads, and the reverse.  Partial: a text that was never set is undefined
    behaviour, and one enumerator has no counterpart. *)
From Verif Require Import Model.Base Model.Wrapper Model.Net Model.Layout.
From Verif Require Import Spec.NetSpec Spec.LayoutSpec.
From Verif Require Import Proofs.LayoutProofs Proofs.LayoutSettings.
From Coq Require Import Lia.
Local Open Scope string_scope.
Local Open Scope list_scope.
Local Open Scope Z_scope.

(** Any array of any shared structure: each element arrives, field by field, and
    nothing outside the array changes. *)
Theorem C72_given_partial : forall alloc n c vss base m ts m' ts', addresses alloc (List.length ts') -> made alloc ts -> In (n, c) shared ->
  Forall (Forall2 fits (map snd n)) vss -> net_array alloc n base vss m ts = (m', ts') ->
  made alloc ts' /\ (forall x, x < base \/ base + Z.of_nat (List.length vss) * net_sizeof n <= x -> m' x = m x) /\
  forall i vs, nth_error vss i = Some vs -> exists r, cpp_element c m' ts' base i = Ok r /\ has_values (map fst n) vs r.
Proof. exact net_to_cpp. Qed.
Print Assumptions C72_given_partial.

(** The reverse, for results. *)
Theorem C72_returned : forall alloc n c vss base m ts m' ts', addresses alloc (List.length ts') -> made alloc ts -> In (n, c) shared ->
  Forall (Forall2 fits (map snd n)) vss -> cpp_array alloc c base vss m ts = (m', ts') ->
  forall i vs, nth_error vss i = Some vs -> net_element n m' ts' base i = Ok (combine (map fst n) (map carried vs)).
Proof. exact cpp_to_net. Qed.
Print Assumptions C72_returned.

(** The kinematics of the machine with its axes. *)
Theorem C72_kinematics : forall alloc base axes k axis m ts m' ts', addresses alloc (List.length ts') -> made alloc ts ->
  Forall2 fits (map snd net_kinematics) k -> Forall (fun e => 0 <= fst (snd e) < 2 ^ 64 /\ 0 <= snd (snd e) < 2 ^ 64) axis ->
  base + 72 <= axes \/ axes + 24 * Z.of_nat (List.length axis) <= base -> NoDup (map (fun e => upto_zero (fst e)) axis) ->
  net_fill_kinematics alloc base axes k axis m ts = (m', ts') ->
  exists r a, cpp_fill_kinematics m' ts' base axes (List.length axis) = Ok (r, a) /\ has_values (map fst net_kinematics) k r /\
    forall x, assoc x a = assoc x (map (fun e => (upto_zero (fst e), snd e)) axis).
Proof. exact kinematics_ok. Qed.
Print Assumptions C72_kinematics.

(** The points of the machine and the zero point. *)
Theorem C72_points : forall d, NoDup (map (fun e => upto_zero (fst e)) d) ->
  exists r, points_of d = Ok r /\ forall k, assoc k r = assoc k (map (fun e => (upto_zero (fst e), snd e)) d).
Proof. exact points_ok. Qed.
Print Assumptions C72_points.

Theorem C72_zero_point : forall alloc base d x y z m ts m' ts', addresses alloc (List.length ts') -> made alloc ts ->
  assoc "X" d = Some x -> assoc "Y" d = Some y -> assoc "Z" d = Some z -> 0 <= x < 2 ^ 64 -> 0 <= y < 2 ^ 64 -> 0 <= z < 2 ^ 64 ->
  exists vs, net_zero_point_of d = Ok vs /\
  (net_struct alloc net_zero_point base vs m ts = (m', ts') -> cpp_struct cpp_zero_point m' ts' base = Ok [("x", VNum x); ("y", VNum y); ("z", VNum z)]).
Proof. exact zero_point_ok. Qed.
Print Assumptions C72_zero_point.

Theorem C72_zero_point_missing : forall d, assoc "X" d = None \/ assoc "Y" d = None \/ assoc "Z" d = None -> net_zero_point_of d = Exc EOutOfRange.
Proof. exact zero_point_missing. Qed.
Print Assumptions C72_zero_point_missing.

(** The marks on truth values are needed: without them the fields are not the
    size the library has. *)
Definition unmarked (n : list (string * net_kind)) : list (string * net_kind) :=
  map (fun f => (fst f, match snd f with NBool1 => NBool | k => k end)) n.

Theorem C72_marks : forall n c, In (n, c) shared -> In NBool1 (map snd n) ->
  map (fun f => (net_size (snd (fst f)), snd f)) (net_layout 0 n) = map (fun f => (cpp_size (snd (fst f)), snd f)) (cpp_layout 0 c) /\
  map (fun f => (net_size (snd (fst f)), snd f)) (net_layout 0 (unmarked n)) <> map (fun f => (cpp_size (snd (fst f)), snd f)) (cpp_layout 0 c).
Proof.
  intros n c I B. cbn in I. repeat (destruct I as [I|I]; [injection I as <- <-; first [(split; [reflexivity|vm_compute; discriminate])|(exfalso; cbn in B; intuition discriminate)]|]). contradiction.
Qed.
Print Assumptions C72_marks.

(** The numbers of the enumerations, but for [unset]. *)
Theorem C72_enums_partial : forall i n c ns cs, nth_error net_enums i = Some (n, ns) -> nth_error cpp_enums i = Some (c, cs) ->
  (forall x z, In (x, z) ns -> x = "unset" \/ exists y, In (y, z) cs /\ same_meaning x y) /\
  (forall y z, In (y, z) cs -> exists x, In (x, z) ns /\ same_meaning x y).
Proof. exact enum_numbers. Qed.
Print Assumptions C72_enums_partial.

Theorem C72_unset_refuted : exists ns cs, In ("AxesRotatingOption", ns) net_enums /\ In ("AxesRotatingOption", cs) cpp_enums /\
  In ("unset", -1) ns /\ forall y z, In (y, z) cs -> z <> -1.
Proof.
  do 2 eexists. split; [do 6 right; left; reflexivity|]. split; [do 6 right; left; reflexivity|]. split; [left; reflexivity|].
  intros y z H. cbn in H. repeat (destruct H as [H|H]; [injection H as _ <-; discriminate|]). contradiction.
Qed.
Print Assumptions C72_unset_refuted.

(** A structure with a text that was never set is read through null. *)
Theorem C72_null_refuted : forall alloc n c vs base m ts m' ts', addresses alloc (List.length ts') -> made alloc ts -> In (n, c) shared ->
  Forall2 (fun k v => fits k v \/ (k = NText /\ v = VText None)) (map snd n) vs -> In (VText None) vs ->
  net_struct alloc n base vs m ts = (m', ts') -> exists w, cpp_struct c m' ts' base = Exc (EUB w).
Proof. exact null_text. Qed.
Print Assumptions C72_null_refuted.

(** Two axes beside the kinematics of a mill, over memory full of 255; and the
    settings of a split with no text set. *)
Definition ex_alloc (i : nat) : Z := 65536 + 16 * Z.of_nat i.
Definition ex_k : list value :=
  [VNum 4656510908468559872; VNum 4666723172467343360; VNum (-1); VNum 24; VNum 5; VNum 30; VNum 7; VBool false; VBool true;
   VText (Some "M"); VText (Some "60"); VText (Some "G"); VText (Some "37")].
Definition ex_axes : list (string * (Z * Z)) := [("X", (13875193650063245312, 4651822413208469504)); ("Z", (0, 1))].

Example C72_ex :
  (forall k, Z.of_nat k < 1000000 -> addresses ex_alloc k) /\ Forall2 fits (map snd net_kinematics) ex_k /\
  (let '(m, ts) := net_fill_kinematics ex_alloc 1000 1072 ex_k ex_axes (fun _ => 255) [] in
   cpp_fill_kinematics m ts 1000 1072 2 = Ok (combine (map fst cpp_kinematics) ex_k, ex_axes) /\
   map m [1016; 1017; 1018; 1019; 1036; 1037; 1038; 1039] = [255; 255; 255; 255; 0; 1; 255; 255]) /\
  (let '(m, ts) := net_struct ex_alloc net_splitting 0 [VNum 4; VNum 0; VNum 0; VNum 0; VText (Some "T1"); VBool true; VText None] (fun _ => 0) [] in
   exists w, cpp_struct cpp_splitting m ts 0 = Exc (EUB w)) /\
  map (fun e => (snd e)) (net_layout 0 net_word_grammar) = [0; 8; 12; 16; 20; 24; 28] /\ map (fun p => net_sizeof (fst p)) shared = [16; 32; 40; 8; 32; 24; 24; 72; 44; 40; 24; 5; 4].
Proof.
  split; [|split; [|split; [|split; [|split]]]].
  - intros k K. split; unfold ex_alloc; intros; lia.
  - repeat constructor; discriminate.
  - vm_compute. split; reflexivity.
  - vm_compute. now eexists.
  - vm_compute. reflexivity.
  - vm_compute. reflexivity.
Qed.
