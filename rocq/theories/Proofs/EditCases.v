(** What the editing commands do to the words of a line. *)
From Verif Require Import Model.Base Model.Attr Model.Grammar Model.Removers Model.Renumberer Model.Rotator Spec.Text Spec.GrammarSpec Spec.EditSpec.
From Verif Require Import Proofs.Tactics Proofs.TextProofs Proofs.StringFacts Proofs.GrammarLex Proofs.GrammarTail Proofs.GrammarProofs Proofs.PrintProofs Proofs.EditProofs.
From Verif Require Import Proofs.RenumberProofs Proofs.TimeProofs Proofs.ShippedProofs.
Local Open Scope string_scope. Local Open Scope list_scope. Local Open Scope Z_scope.

(** ** The check *)

(** A word without brackets leaves the state as it was. *)
Lemma verify_bracketless wm d s : bracketless (ADec d) -> exists ms r, verify wm d s = (mkGS (gs_status s) (gs_message s ++ ms), r) /\ (r = VTrue -> ms = []) /\
  forall s2, gs_status s2 = gs_status s -> verify wm d s2 = (mkGS (gs_status s2) (gs_message s2 ++ ms), r).
Proof.
  intros (O & C & NH & NE). apply String.eqb_neq in NH, NE.
  assert (G : forall st m, exists ms r, (r = VTrue -> ms = []) /\ forall m', verify wm d (mkGS st (m ++ m')) = (mkGS st (m ++ m' ++ ms), r)).
  { intros [a b o c] m. unfold verify. rewrite O, C, NH, NE. cbn [gs_status set_status str_len is_some andb was_macro was_macro_equal open_cnt close_cnt gs_message].
    rewrite !andb_false_r, !orb_false_r, !Z.add_0_r. unfold set_status. cbn [gs_status gs_message].
    Ltac fin := first [exists [], VTrue; split; [auto|]; intro; rewrite app_nil_r; reflexivity
                     | eexists [_], VFalse; split; [discriminate|]; intro; unfold add_message; cbn; rewrite <- app_assoc; reflexivity
                     | exists [], VFalse; split; [discriminate|]; intro; rewrite app_nil_r; reflexivity
                     | eexists [], (VExc _); split; [discriminate|]; intro; rewrite app_nil_r; reflexivity].
    destruct (assoc (d_word d) wm) as [g|]; [|fin]. destruct (d_macro d) as [x|] eqn:M.
    - destruct (d_value d) as [v|]; [|fin]. destruct (verify_string wm x v); fin.
    - assert (VM : exists ms r, (r = VTrue -> ms = []) /\ forall m', verify_missing g d (mkGS (mkSt a b o c) (m ++ m')) = (mkGS (mkSt a b o c) (m ++ m' ++ ms), r)).
      { unfold verify_missing. cbn [gs_status open_cnt]. destruct (_ || _); fin. }
      assert (VR : exists ms r, (r = VTrue -> ms = []) /\ forall m', verify_rest g d (mkGS (mkSt a b o c) (m ++ m')) = (mkGS (mkSt a b o c) (m ++ m' ++ ms), r)).
      { unfold verify_rest. destruct (_ && _); [destruct (negb (is_some (d_value d))); [exact VM|fin]|].
        unfold verify_decimals. destruct (d_dot d) as [q|]; [|fin].
        destruct (ascii_dec q ".") as [->|Q]; [|destruct q as [[] [] [] [] [] [] [] []]; try fin; now contradiction Q].
        destruct (stoi _); [|fin]. destruct (_ || _); fin. }
      destruct (String.eqb (d_word d) "/" && negb a).
      + unfold verify_optional. destruct (d_value d) as [v|]; [destruct (stoi v); [destruct (_ || _); [fin|]|fin]|]; destruct (_ || _ || _ || _); fin.
      + unfold verify_value. destruct (d_value d) as [v|]; [|destruct (g_dto g =? 0); assumption].
        destruct (stoi v); [|fin]. destruct (_ || _); [fin|]. cbn [gs_status open_cnt was_macro was_macro_equal close_cnt]. rewrite C. cbn [str_len]. rewrite !Z.sub_0_r.
        destruct (calc_word (d_word d) && (0 <? o)); [fin|]. destruct (_ && _); [fin|]. destruct (g_dto g =? 0); [|exact VR]. destruct (is_some (d_dot d)); fin. }
  destruct (G (gs_status s) []) as (ms & r & E & V). exists ms, r. cbn in V. split; [rewrite <- V; destruct s; reflexivity|]. split; [exact E|].
  intros s2 Q. rewrite Q, <- (V (gs_message s2)), <- Q. destruct s2; reflexivity.
Qed.

(** A number in range is accepted, brackets apart. *)
Lemma verify_in_range g d s : bounds_fit g -> ordinary (d_word d) -> in_range g d -> verify_value g d s = (s, VTrue).
Proof.
  intros (B1 & B2 & B3 & B4) (O & _) (SG & K).
  assert (NE : forall x, In x ["#"; "="; "+"; "-"; "*"; "/"]%string -> String.eqb (d_word d) x = false) by (intros x I; apply String.eqb_neq; intros Q; rewrite Q in O; contradiction).
  assert (C : calc_word (d_word d) = false) by (unfold calc_word, mem_str; cbn; rewrite !(NE _) by (cbn; tauto); reflexivity).
  destruct K as [(ip & n & fp & EV & D & ED & E2 & FD & IO & DO)|(ds & m & EV & ED & E2 & DM & P & HM)].
  - pose proof (denotes_nonneg _ _ D) as N0. unfold integer_ok in IO.
    assert (NM : int_max <? n = false).
    { apply Z.ltb_ge. unfold signed, int_max in *. destruct SG as [K|[K|K]]; rewrite K in IO; cbn in IO; lia. }
    unfold verify_value. rewrite EV, (stoi_denotes _ _ D), NM. change (match d_sign d with Some "-"%char => - n | _ => n end) with (signed (d_sign d) n).
    replace ((signed (d_sign d) n <? g_from g) || (g_to g <? signed (d_sign d) n)) with false by lia. rewrite C. cbn [andb].
    unfold verify_rest, verify_decimals. rewrite ED, E2, EV. unfold decimals_ok in DO. destruct fp as [[|c ds]|]; cbn [is_some negb opt_str].
    + replace (g_dto g =? 0) with false by lia. replace (0 <? g_dto g) with true by lia. reflexivity.
    + destruct DO as (P & m & DM & HM). replace (g_dto g =? 0) with false by lia. rewrite andb_false_r. rewrite (stoi_denotes _ _ DM).
      pose proof (denotes_nonneg _ _ DM). replace (int_max <? m) with false by lia. rewrite to_u32_id by lia.
      replace ((m <? g_dfrom g) || (g_dto g <? m)) with false by lia. reflexivity.
    + destruct (g_dto g =? 0) eqn:Z; [reflexivity|]. replace (0 <? g_dto g) with true by lia. reflexivity.
  - unfold verify_value, verify_rest, verify_decimals. rewrite EV, ED, E2. cbn [is_some negb opt_str]. replace (g_dto g =? 0) with false by lia. rewrite andb_false_r.
    rewrite (stoi_denotes _ _ DM). pose proof (denotes_nonneg _ _ DM). replace (int_max <? m) with false by lia. rewrite to_u32_id by lia.
    replace ((m <? g_dfrom g) || (g_dto g <? m)) with false by lia. reflexivity.
Qed.

(** An ordinary word with a changed number. *)
Lemma verify_reworded wm dec asg d d' s s' : reworded wm dec asg d d' -> verify wm d s = (s', VTrue) -> verify wm d' s = (s', VTrue).
Proof.
  intros (EA & EO & EC & EM & OD & OD' & _ & _ & SG & (g0 & A0 & B0) & g & A & B & K). unfold verify. rewrite EO, EC, EM, A0, A.
  assert (NE : forall w, ordinary w -> forall x, In x ["#"; "="; "+"; "-"; "*"; "/"]%string -> String.eqb w x = false) by (intros w (O & _) x I; apply String.eqb_neq; intros ->; contradiction).
  rewrite !(NE _ OD), !(NE _ OD') by (cbn; tauto). cbn [andb orb negb]. rewrite ?andb_false_r, ?orb_false_r.
  assert (C : forall w, ordinary w -> calc_word w = false) by (intros w O; unfold calc_word, mem_str; cbn; rewrite !(NE w O) by (cbn; tauto); reflexivity).
  destruct (_ && _); [auto|]. destruct (d_macro d) as [x|] eqn:M.
  - destruct K as [[K _]|(-> & _)]; [congruence|auto].
  - set (s0 := set_status _ _).
    assert (V0 : forall r, verify_value g0 d s0 = (r, VTrue) -> r = s0 /\ (d_value d = None -> d_value2 d = None -> negb (open_cnt (gs_status s0) =? 0) = true)).
    { intro r. assert (VM : verify_missing g0 d s0 = (r, VTrue) -> r = s0 /\ negb (open_cnt (gs_status s0) =? 0) = true).
      { unfold verify_missing. rewrite (C _ OD), !(NE _ OD) by (cbn; tauto). rewrite !orb_false_r. destruct (negb _); intro H; inv H. auto. }
      assert (VR : g_dto g0 <> 0 -> verify_rest g0 d s0 = (r, VTrue) -> r = s0 /\ (d_value d = None -> d_value2 d = None -> negb (open_cnt (gs_status s0) =? 0) = true)).
      { intro NZ. unfold verify_rest. destruct ((0 <? g_dto g0) && negb (is_some (d_value2 d))) eqn:Z2.
        - destruct (d_value d); cbn [is_some negb]; [intro H; inv H; split; [reflexivity|discriminate]|]. intro H. apply VM in H as [-> H]. auto.
        - unfold verify_decimals. destruct (d_dot d) as [q|]; [|discriminate]. destruct (ascii_dec q ".") as [->|Q].
          + destruct (stoi _); [|discriminate]. destruct (_ || _); intro H; inv H. split; [reflexivity|]. intros _ K2. rewrite K2 in Z2. cbn in Z2.
            destruct B0 as (_ & _ & _ & B0). rewrite andb_true_r in Z2. exfalso. apply NZ. lia.
          + destruct q as [[] [] [] [] [] [] [] []]; try discriminate. now contradiction Q. }
      unfold verify_value. destruct (d_value d) as [v|].
      - destruct (stoi v); [|discriminate]. destruct (_ || _); [discriminate|]. rewrite (C _ OD). cbn [andb]. destruct (g_dto g0 =? 0) eqn:Z.
        + destruct (is_some (d_dot d)); intro H; inv H. split; [reflexivity|discriminate].
        + apply VR. lia.
      - destruct (g_dto g0 =? 0) eqn:Z; [|apply VR; lia]. intro H. apply VM in H as [-> H]. auto. }
    intro H. destruct (V0 _ H) as [-> V1]. destruct K as [[_ K]|(EV & ED & E2 & [K|[K1 K2]])]; [now apply verify_in_range|congruence|].
    specialize (V1 K1 K2). assert (VM : verify_missing g d' s0 = (s0, VTrue)) by (unfold verify_missing; now rewrite V1).
    unfold verify_value. rewrite EV, K1. destruct (g_dto g =? 0) eqn:Z; [exact VM|]. unfold verify_rest. rewrite EV, E2, K1.
    destruct B as (_ & _ & _ & B). replace (0 <? g_dto g) with true by lia.
    rewrite K2. cbn [is_some negb andb]. exact VM.
Qed.

(** ** The words of a line *)

Section Tables.
Variable wm : word_map.
Variables dec asg : list string.
Hypothesis T : tables_ok wm dec asg.

Notation chain := (chain wm dec asg).
Notation link := (link wm dec asg).

Lemma link_bracketless a s s' : bracketless a -> link s s' a -> s' = s.
Proof.
  intros B (_ & K). destruct a as [d|w x|w x]; [|exact K|exact K]. destruct K as (_ & _ & K).
  destruct (verify_bracketless wm d s B) as (ms & r & V & E & S2). destruct K as [K|(_ & s1 & K1 & K2)].
  - rewrite K in V. inv V. rewrite (E eq_refl), app_nil_r. destruct s; reflexivity.
  - rewrite K1 in V. inv V. rewrite S2 in K2 by reflexivity. discriminate.
Qed.

Lemma chain_drop a v s s1 : bracketless a -> chain s (a :: v) s1 -> chain s v s1.
Proof. intros B (s' & L & C). now rewrite (link_bracketless _ _ _ B L) in C. Qed.

Lemma chain_comments v : forall s s1, chain s v s1 -> chain s (remove_comment v) s1.
Proof.
  induction v as [|a v IH]; intros s s1 C; [exact C|]. cbn [remove_comment].
  destruct a as [d|w x|w x]; try (destruct C as (s' & L & C); exists s'; split; [exact L|now apply IH]).
  destruct (String.eqb w "("); [apply IH, (chain_drop (AStr w x)); [exact I|exact C]|].
  destruct C as (s' & L & C). exists s'. split; [exact L|now apply IH].
Qed.

Lemma chain_marks v : forall s s1, Forall bracketless v -> chain s v s1 -> chain s (remove_optional_block v) s1.
Proof.
  induction v as [|a v IH]; intros s s1 F C; [exact C|]. cbn [remove_optional_block]. destruct a as [d|w x|w x]; try exact C.
  destruct (_ && _); [|exact C]. inv F. apply IH; [assumption|]. now apply (chain_drop (ADec d)).
Qed.

Lemma link_reworded d d' s s' : reworded wm dec asg d d' -> link s s' (ADec d) -> link s s' (ADec d').
Proof.
  intros R (_ & OK & AS & K). pose proof R as (EA & EO & EC & EM & OD & OD' & ID & IA & SG & _ & g & A & B & KK).
  assert (V : verify wm d s = (s', VTrue)).
  { destruct K as [K|(W & _)]; [exact K|]. exfalso. destruct OD as [OD _]. apply OD. rewrite W. cbn. tauto. }
  pose proof (verify_reworded _ _ _ _ _ _ _ R V) as V'.
  assert (OK' : tail_ok true d').
  { unfold tail_ok in *. rewrite EO, EC, EM. destruct OK as (P1 & P2 & P3 & P4 & P5 & P6 & P7 & P8 & P9).
    split; [destruct SG as [-> | [-> | ->]]; cbn; auto|]. split; [exact P2|]. split; [discriminate|]. split; [exact P4|].
    destruct KK as [(_ & _ & [(ip & n & fp & EV & D & ED & E2 & FD & _)|(ds & m & EV & ED & E2 & DM & _)])|(-> & -> & -> & _)]; [|rewrite EV, ED, E2; destruct DM as (D1 & D2 & _); cbn; repeat split; auto; discriminate|auto].
    rewrite EV, ED, E2. destruct D as (D1 & D2 & _). split; [split; assumption|]. destruct fp as [[|c ds]|]; cbn; auto; repeat split; auto; discriminate. }
  destruct AS as [AS|AS].
  - apply link_dec; auto. congruence.
  - destruct AS as [AS _]. apply link_asg; auto; [|congruence]. apply IA. rewrite AS. discriminate.
Qed.

(** ** Renumbering *)

Lemma link_plain w txt n g s : In w dec -> ordinary w -> assoc w wm = Some g -> bounds_fit g -> denotes txt n -> g_from g <= n <= g_to g ->
  link s s (ADec (plain w txt)).
Proof.
  intros ID O A B D R. pose proof (denotes_nonneg _ _ D) as N0. destruct B as (B1 & B2 & B3 & B4). apply link_dec; auto.
  - unfold tail_ok, plain. cbn. destruct D as (D1 & D2 & _). repeat split; auto; discriminate.
  - change (plain w txt) with (word_dec w None txt None).
    rewrite (verify_word wm w g None txt None n s A O (or_introl eq_refl) D Logic.I) by lia. unfold word_verdict, signed.
    replace (int_max <? n) with false by lia. replace ((n <? g_from g) || (g_to g <? n)) with false by lia. cbn [fst snd]. unfold same_status.
    rewrite app_nil_r. destruct s; reflexivity.
Qed.

Lemma chain_renumber nw ren rs v ren' v' s s1 g : chain s v s1 -> renumber nw ren rs v = (ren', v') ->
  (forall d b, v = ADec d :: b -> is_numbering nw (d_word d) = true -> ordinary (d_word d) /\ exists n, d = plain (d_word d) n) ->
  In (rs_word rs) dec -> ordinary (rs_word rs) -> assoc (rs_word rs) wm = Some g -> bounds_fit g -> 0 <= counter ren -> g_from g <= counter ren <= g_to g ->
  chain s v' s1.
Proof.
  intros C R EX ID O A B N0 N. pose proof (number_text_denotes nw rs (counter ren) N0) as D.
  pose proof (fun s => link_plain _ _ _ g s ID O A B D N) as L. unfold renumber in R. destruct v as [|a v]; [inv R; exact C|].
  destruct (classify nw rs a) eqn:CL; [inv R; exact C| |].
  - assert (exists d, a = ADec d /\ is_numbering nw (d_word d) = true) as (d & -> & IN).
    { unfold classify in CL. destruct a as [d|w x|w x].
      - exists d. split; [reflexivity|]. destruct (String.eqb (d_word d) "/"); [discriminate|]. destruct (is_numbering nw (d_word d)); [reflexivity|]. destruct (rs_existing_only rs); discriminate.
      - destruct (rs_existing_only rs); [discriminate|]. destruct (_ || _); discriminate.
      - destruct (rs_existing_only rs); [discriminate|]. destruct (String.eqb w "%"); discriminate. }
    destruct (EX d v eq_refl IN) as ((OO & _) & n & E).
    assert (BL : bracketless (ADec d)).
    { rewrite E. cbn. split; [reflexivity|]. split; [reflexivity|]. split; intro Q; apply OO; rewrite Q; cbn; tauto. }
    pose proof (chain_drop _ _ _ _ BL C) as C'. destruct (due rs ren); inv R; [|exact C'].
    exists s. split; [|exact C']. rewrite E. apply L.
  - destruct (due rs ren); inv R; [|exact C]. exists s. split; [apply L|exact C].
Qed.

(** ** Rotation *)

(** A number that was accepted is in range. *)
Lemma accepted_in_range g d s s' : assoc (d_word d) wm = Some g -> bounds_fit g -> ordinary (d_word d) -> tail_ok true d -> d_macro d = None ->
  (d_value d <> None \/ (d_value2 d <> None /\ g_dto g <> 0)) -> verify wm d s = (s', VTrue) -> in_range g d.
Proof.
  intros A (B1 & B2 & B3 & B4) (O & _) OK M NN V. unfold verify in V. rewrite A, M in V.
  assert (NE : forall x, In x ["#"; "="; "+"; "-"; "*"; "/"]%string -> String.eqb (d_word d) x = false) by (intros x I; apply String.eqb_neq; intros Q; rewrite Q in O; contradiction).
  assert (C : calc_word (d_word d) = false) by (unfold calc_word, mem_str; cbn; rewrite !(NE _) by (cbn; tauto); reflexivity).
  rewrite !(NE _) in V by (cbn; tauto). cbn [andb orb negb] in V. destruct (_ && _) in V; [discriminate|].
  destruct OK as (P1 & P2 & P3 & P4 & P5 & P6 & P7 & P8 & P9).
  assert (SG : is_sign (d_sign d)).
  { unfold is_sign. destruct (d_sign d) as [c|]; [|auto]. right. destruct (ascii_dec c "-") as [->|N]; [auto|]. destruct (ascii_dec c "+") as [->|N']; [auto|]. exfalso.
    destruct c as [[] [] [] [] [] [] [] []]; vm_compute in P1; try discriminate P1; (now contradiction N) || (now contradiction N'). }
  split; [exact SG|]. set (s0 := set_status _ _) in V. clearbody s0.
  assert (RD : forall ds n, all_chars is_digit ds = true -> ds <> ""%string -> stoi ds = Ok n -> denotes ds n /\ n <= int_max).
  { intros ds n F NZ K. assert (D : denotes ds (digits_val ds)) by (split; [exact NZ|split; [exact F|reflexivity]]). rewrite (stoi_denotes _ _ D) in K.
    destruct (int_max <? digits_val ds) eqn:Q; [discriminate|]. inv K. split; [exact D|lia]. }
  assert (VD : forall r ds, d_value2 d = Some ds -> verify_decimals g d s0 = (r, VTrue) -> exists m, denotes ds m /\ d_dot d = Some "."%char /\ g_dfrom g <= m <= g_dto g).
  { intros r ds E2. rewrite E2 in P7. destruct P7 as [NZ F]. unfold verify_decimals. rewrite E2. cbn [opt_str].
    destruct P6 as [-> | ->]; [discriminate|]. destruct (stoi ds) as [m|] eqn:K; [|discriminate]. destruct (RD _ _ F NZ K) as [D L]. pose proof (denotes_nonneg _ _ D).
    rewrite to_u32_id by lia. destruct (_ || _) eqn:Q; [discriminate|]. intros _. exists m. split; [exact D|]. split; [reflexivity|lia]. }
  unfold verify_value in V. destruct (d_value d) as [ip|] eqn:EV.
  - left. destruct P5 as [NZ F]. destruct (stoi ip) as [n|] eqn:K; [|discriminate]. destruct (RD _ _ F NZ K) as [D L].
    change (match d_sign d with Some "-"%char => - n | _ => n end) with (signed (d_sign d) n) in V. destruct ((signed (d_sign d) n <? g_from g) || (g_to g <? signed (d_sign d) n)) eqn:Q; [discriminate|].
    rewrite C in V. cbn [andb] in V.
    exists ip, n, (match d_dot d with Some _ => Some (opt_str (d_value2 d)) | None => None end).
    split; [reflexivity|]. split; [exact D|]. split; [destruct P6 as [-> | ->]; reflexivity|].
    split; [destruct P6 as [E | E]; rewrite E; [now apply P8|]; destruct (d_value2 d) as [[|c ds]|]; cbn; auto; destruct P7; congruence|].
    split; [destruct (d_dot d); [|exact Logic.I]; destruct (d_value2 d) as [ds|]; cbn; [apply P7|reflexivity]|].
    split; [unfold integer_ok; lia|]. destruct (g_dto g =? 0) eqn:Z.
    + destruct (d_dot d) as [q|]; [discriminate|exact Logic.I].
    + destruct (d_dot d) as [q|] eqn:ED; [|exact Logic.I]. destruct (d_value2 d) as [ds|] eqn:E2; cbn [opt_str decimals_ok]; [|lia].
      unfold verify_rest in V. rewrite E2 in V. cbn [is_some negb] in V. rewrite andb_false_r in V. destruct (VD _ _ eq_refl V) as (m & DM & _ & RM).
      destruct ds as [|c ds]; [destruct P7 as [X _]; congruence|]. split; [lia|]. eauto.
  - right. destruct NN as [NN|[NN NZ]]; [congruence|]. destruct (d_value2 d) as [ds|] eqn:E2; [|congruence].
    destruct (g_dto g =? 0) eqn:Z; [lia|].
    unfold verify_rest in V. rewrite E2 in V. cbn [is_some negb] in V. rewrite andb_false_r in V. destruct (VD _ _ eq_refl V) as (m & DM & ED & RM).
    exists ds, m. repeat split; auto; try lia; apply DM.
Qed.

Local Ltac notin := let K := fresh in intro K; cbn in K; repeat (destruct K as [K|K]; [discriminate K|]).

Lemma axis_ordinary w : In w ("G"%string :: List.concat rotating_words) -> ordinary w.
Proof.
  intro I. assert (forall c, In c ["G"; "X"; "Y"; "Z"; "I"; "J"; "K"]%char -> ordinary (String c "")).
  { intros c J. unfold ordinary. cbn in J. repeat (destruct J as [<- | J]; [split; [now notin|]; split; [reflexivity|]; eexists _, _; split; [reflexivity|]; split; [reflexivity|]; now notin|]). contradiction. }
  cbn in I. repeat (destruct I as [<- | I]; [apply H; cbn; tauto|]). contradiction.
Qed.

Lemma axis_table_words o l w : In l rotating_words -> In w l -> exists w' k, assoc w (axis_table o) = Some (w', k) /\ In w' l.
Proof.
  intros J I. cbn in J. destruct J as [<- | [<- | []]]; cbn in I; repeat (destruct I as [<- | I]; [destruct o; cbn; eexists _, _; (split; [reflexivity|tauto])|]); contradiction.
Qed.

Lemma axis_word_in w : is_axis_word w = true -> exists l, In l rotating_words /\ In w l.
Proof.
  unfold is_axis_word, mem_str. rewrite existsb_exists. intros (x & I & E). apply String.eqb_eq in E. subst x. cbn in I.
  destruct I as [<- | [<- | [<- | I]]]; [exists ["X"; "Y"; "Z"]%string; cbn; tauto..|]. exists ["I"; "J"; "K"]%string. split; cbn; tauto.
Qed.

Lemma axis_in l w : In l rotating_words -> In w l -> ordinary w.
Proof. intros J I. apply axis_ordinary. right. apply in_concat. eauto. Qed.

Lemma signed_flip sg n : is_sign sg -> signed (flip_sign sg) n = - signed sg n /\ is_sign (flip_sign sg).
Proof. unfold is_sign. intros [-> | [-> | ->]]; cbn; (split; [lia|auto]). Qed.

Lemma g_table_values o v n : assoc v (g_table o) = Some n -> 2 <= n <= 19 /\ exists k, denotes v k /\ 2 <= k.
Proof.
  assert (D : forall x, In x ["17"; "18"; "19"; "2"; "3"]%string -> exists k, denotes x k /\ 2 <= k).
  { intros x I. exists (digits_val x). cbn in I. repeat (destruct I as [<- | I]; [split; [split; [discriminate|split; reflexivity]|vm_compute; discriminate]|]). contradiction. }
  intro H. assert (In v ["17"; "18"; "19"; "2"; "3"]%string /\ In n [2; 3; 17; 18; 19]) as [I J].
  { destruct o; cbn [g_table assoc] in H; repeat (match type of H with (if ?b then _ else _) = _ => let E := fresh in destruct b eqn:E; [apply String.eqb_eq in E; subst v; inv H; cbn; tauto|clear E] end); discriminate H. }
  split; [cbn in J; lia|now apply D].
Qed.

Lemma link_rotate o d s s' : rotation_tables wm dec asg -> (d_word d = "G"%string -> d_macro d = None) ->
  link s s' (ADec d) -> link s s' (ADec (rotate_decimal o d)).
Proof.
  intros (AX0 & IG & gg & AG & BG & G1 & G2) NM L. unfold rotate_decimal. destruct (is_axis_word (d_word d)) eqn:X.
  - apply axis_word_in in X as (l & JL & X). destruct (AX0 l JL) as (b & f & t & T0 & AX). destruct (axis_table_words o _ _ JL X) as (w' & k & -> & X'). apply (link_reworded d); [|exact L].
    destruct (AX _ X) as (_ & _ & g & A & B & F1 & F2 & F3 & F4). destruct (AX _ X') as (ID & IA & g' & A' & B' & F1' & F2' & F3' & F4').
    assert (OD : ordinary (d_word d)) by exact (axis_in _ _ JL X). assert (OD' : ordinary w') by exact (axis_in _ _ JL X').
    destruct L as (_ & OK & AS & V).
    assert (V' : verify wm d s = (s', VTrue)).
    { destruct V as [V|(W & _)]; [exact V|]. exfalso. destruct OD as [OD _]. apply OD. rewrite W. cbn. tauto. }
    assert (SG : is_sign (d_sign d)).
    { destruct OK as (P1 & _). unfold is_sign. destruct (d_sign d) as [c|]; [|auto]. right. destruct (ascii_dec c "-") as [->|N]; [auto|]. destruct (ascii_dec c "+") as [->|N']; [auto|]. exfalso.
      destruct c as [[] [] [] [] [] [] [] []]; vm_compute in P1; try discriminate P1; (now contradiction N) || (now contradiction N'). }
    set (sg := if k =? -1 then flip_sign (d_sign d) else d_sign d).
    assert (SG' : is_sign sg /\ (signed sg = signed (d_sign d) \/ forall n, signed sg n = - signed (d_sign d) n)).
    { unfold sg. destruct (k =? -1); [|auto]. split; [now apply (signed_flip _ 0)|]. right. intro n. now apply signed_flip. }
    destruct SG' as [SG' SV]. unfold reworded. cbn [set_word_sign d_assign d_open d_close d_macro d_word d_sign d_value d_dot d_value2].
    do 4 (split; [reflexivity|]). split; [exact OD|]. split; [exact OD'|]. split; [exact ID|].
    split; [intro NA; destruct AS as [AS|[_ AS]]; [congruence|now apply (IA _ X)]|]. split; [exact SG'|]. split; [eauto|]. exists g'. split; [exact A'|]. split; [exact B'|].
    destruct (d_macro d) as [m|] eqn:M; [right; repeat (split; [reflexivity|]); left; discriminate|].
    destruct (d_value d) as [ip|] eqn:EV; [|destruct (d_value2 d) as [ds|] eqn:E2; [|right; do 3 (split; [reflexivity|]); right; split; reflexivity]].
    + left. split; [reflexivity|]. destruct (accepted_in_range g d s s' A B OD OK M ltac:(left; congruence) V') as (_ & [(ip' & n & fp & EV' & D & ED & E2 & FD & IO & DO)|(ds & m & EV' & _)]); [|congruence].
      split; [exact SG'|]. left. exists ip', n, fp. cbn [set_word_sign d_sign d_value d_dot d_value2]. split; [congruence|]. split; [exact D|]. split; [exact ED|]. split; [exact E2|]. split; [exact FD|].
      split; [unfold integer_ok in *; destruct SV as [-> | SV]; [|rewrite SV]; lia|]. unfold decimals_ok in *. rewrite F4', F3'. rewrite F4, F3 in DO. exact DO.
    + left. split; [reflexivity|]. destruct (accepted_in_range g d s s' A B OD OK M ltac:(right; split; [congruence|lia]) V') as (_ & [(ip' & n & fp & EV' & _)|(ds' & m & _ & ED & E2' & D & P & R)]); [congruence|].
      split; [exact SG'|]. right. exists ds', m. cbn [set_word_sign d_sign d_value d_dot d_value2]. split; [exact EV|]. split; [exact ED|]. split; [congruence|]. split; [exact D|]. split; lia.
  - destruct (String.eqb (d_word d) "G") eqn:GE; [|exact L]. apply String.eqb_eq in GE. destruct (d_value d) as [v|] eqn:EV; [|exact L].
    destruct (assoc v (g_table o)) as [n|] eqn:GT; [|exact L]. destruct (g_table_values _ _ _ GT) as (R & k & DK & K2).
    apply (link_reworded d); [|exact L]. specialize (NM GE).
    assert (OD : ordinary (d_word d)) by (apply axis_ordinary; rewrite GE; now left).
    destruct L as (_ & OK & AS & V).
    assert (V' : verify wm d s = (s', VTrue)).
    { destruct V as [V|(W & _)]; [exact V|]. exfalso. destruct OD as [OD _]. apply OD. rewrite W. cbn. tauto. }
    rewrite <- GE in AG.
    destruct (accepted_in_range gg d s s' AG BG OD OK NM ltac:(left; congruence) V') as (SG & [(ip' & n' & fp & EV' & D & ED & E2 & FD & IO & DO)|(ds & m & EV' & _)]); [|congruence].
    unfold reworded. cbn [set_value d_assign d_open d_close d_macro d_word d_sign d_value d_dot d_value2].
    do 4 (split; [reflexivity|]). split; [exact OD|]. split; [exact OD|]. split; [now rewrite GE|].
    split; [intro NA; destruct AS as [AS|[_ AS]]; [congruence|exact AS]|]. split; [exact SG|]. split; [eauto|]. exists gg. split; [exact AG|]. split; [exact BG|]. left. split; [exact NM|].
    split; [exact SG|]. left. exists (z_to_string n), n, fp. cbn [set_value d_sign d_value d_dot d_value2]. split; [reflexivity|]. split; [rewrite z_to_string_nonneg by lia; apply nat_denotes; lia|].
    split; [exact ED|]. split; [exact E2|]. split; [exact FD|]. split; [|exact DO].
    rewrite EV in EV'. inv EV'. rewrite (denotes_fun _ _ _ D DK) in IO. unfold integer_ok in *. destruct SG as [E | [E | E]]; rewrite E in *; cbn in *; lia.
Qed.

End Tables.

Lemma chain_rotate wm dec asg (T : tables_ok wm dec asg) o v : rotation_tables wm dec asg ->
  (forall d, In (ADec d) v -> d_word d = "G"%string -> d_macro d = None) ->
  forall s s1, chain wm dec asg s v s1 -> chain wm dec asg s (rotate_block o v) s1.
Proof.
  intros R. induction v as [|a v IH]; intros NM s s1 C; [exact C|]. destruct C as (s' & L & C). exists s'. split.
  - destruct a as [d|w x|w x]; try exact L. apply link_rotate; auto. apply NM. now left.
  - apply IH; [|exact C]. intros d I. apply NM. now right.
Qed.

(** Usual lines have nothing that joins. *)
Lemma usual_loose asg v : Forall usual v -> loose asg v.
Proof.
  unfold loose. induction v as [|a v IH]; intro F; [exact I|]. inversion_clear F as [|? ? U F']. specialize (IH F'). cbn [neighbours].
  destruct v as [|b v]; [exact I|]. split; [|exact IH]. inversion_clear F' as [|? ? Ub _].
  assert (X : forall p, begins_with p (attr_text b) -> exists c, p c = true /\ (is_letter c || Ascii.eqb c "/" || Ascii.eqb c "(") = true).
  { intros p H. destruct b as [d|w y|w y]; [|cbn in Ub; subst w; exists "("%char; split; [exact H|reflexivity]|contradiction].
    destruct Ub as [_ W]. cbn [attr_text] in H. rewrite decimal_text_eq in H. destruct (d_word d) as [|c r]; [contradiction|]. cbn in H, W.
    exists c. split; [exact H|]. now rewrite W. }
  intros [[(_ & J)|((n & E) & _)]|[(d & E & J)|[(E & _)|(w & y & E)]]].
  - destruct (X _ J) as (c & E & K). apply Ascii.eqb_eq in E. subst c. discriminate K.
  - subst a. cbn in U. discriminate U.
  - subst a. destruct U as [U _]. destruct (X _ J) as (c & G & K). unfold goes_on in G. destruct (d_close d); [cbn in G; destruct c; discriminate G|].
    destruct U as (x & y & U). rewrite U in G. cbn [append] in G.
    clear -G K. destruct c as [[] [] [] [] [] [] [] []]; vm_compute in G, K; congruence.
  - destruct a as [d|w y|w y]; [|cbn in U; subst w; discriminate E|contradiction]. destruct U as [U W]. cbn [attr_text] in E. rewrite decimal_text_eq in E.
    destruct (d_word d) as [|c r]; [contradiction|]. destruct U as (x & y & U). apply (f_equal String.length) in E. unfold tail_text in E. rewrite U in E.
    cbn [opt_str] in E. repeat (rewrite string_app_length in E; cbn [String.length] in E). lia.
  - subst a. contradiction.
Qed.

Lemma loose_same asg v : neighbours (fun a b => ~ meets asg attr_text a b) v <-> loose asg v.
Proof. reflexivity. Qed.

(** ** The shipped tables *)

Definition group_okb (wm : word_map) (dec asg : list string) (b f t : Z) (l : list string) : bool :=
  (0 <? t) &&
  forallb (fun w => mem_str w dec && (mem_str w asg || negb (existsb (fun u => mem_str u asg) l)) &&
    match assoc w wm with
    | Some g => (g_from g =? - b) && (g_to g =? b) && (g_dfrom g =? f) && (g_dto g =? t)
                && (- int_max <=? g_from g) && (g_to g <=? int_max) && (0 <=? g_dfrom g) && (g_dto g <=? int_max)
    | None => false
    end) l.

(** The bounds of the first word of a group. *)
Definition first_bounds (wm : word_map) (l : list string) : Z * Z * Z :=
  match l with w :: _ => match assoc w wm with Some g => (g_to g, g_dfrom g, g_dto g) | None => (0, 0, 0) end | [] => (0, 0, 0) end.

Definition rotation_okb (wm : word_map) (dec asg : list string) : bool :=
  forallb (fun l => let '(b, f, t) := first_bounds wm l in group_okb wm dec asg b f t l) rotating_words &&
  mem_str "G" dec &&
  match assoc "G"%string wm with
  | Some g => (0 <=? g_from g) && (g_from g <=? 2) && (19 <=? g_to g) && (g_to g <=? int_max) && (0 <=? g_dfrom g) && (0 <=? g_dto g) && (g_dto g <=? int_max)
  | None => false
  end.

Lemma mem_str_in w l : mem_str w l = true <-> In w l.
Proof.
  unfold mem_str. rewrite existsb_exists. split; [intros (x & I & E); apply String.eqb_eq in E; now subst|]. intro I. exists w. split; [exact I|apply String.eqb_refl].
Qed.

Lemma rotation_okb_ok wm dec asg : rotation_okb wm dec asg = true -> rotation_tables wm dec asg.
Proof.
  unfold rotation_okb. intro H. apply andb_true_iff in H as [H HG]. apply andb_true_iff in H as [HL HD]. split; [|split].
  - intros l JL. rewrite forallb_forall in HL. specialize (HL l JL). destruct (first_bounds wm l) as [[b f] t]. unfold group_okb in HL. apply andb_true_iff in HL as [HT HA].
    exists b, f, t. split; [lia|]. intros w I. rewrite forallb_forall in HA. specialize (HA w I). apply andb_true_iff in HA as [HA G]. apply andb_true_iff in HA as [A1 A2].
    split; [now apply mem_str_in|]. split.
    + intros u U UA. apply orb_true_iff in A2 as [A2|A2]; [now apply mem_str_in|]. exfalso. apply negb_true_iff in A2.
      assert (existsb (fun u => mem_str u asg) l = true); [|congruence]. apply existsb_exists. exists u. split; [exact U|now apply mem_str_in].
    + destruct (assoc w wm) as [g|]; [|discriminate]. exists g. split; [reflexivity|]. unfold bounds_fit. repeat (apply andb_true_iff in G as [G ?]). lia.
  - now apply mem_str_in.
  - destruct (assoc "G"%string wm) as [g|]; [|discriminate]. exists g. split; [reflexivity|]. unfold bounds_fit, int_max in *. repeat (apply andb_true_iff in HG as [HG ?]). lia.
Qed.

Lemma shipped_rotation lg : In lg shipped_grammars -> rotation_tables (lg_map lg) (lg_decimal lg) (lg_assignable lg).
Proof. intro I. apply rotation_okb_ok. revert lg I. apply forallb_forall. vm_compute. reflexivity. Qed.
