(** Saving what the settings editor has loaded. *)
From Coq Require Import Reals Lra Psatz.
From Flocq Require Import Core BinarySingleNaN.
From Verif Require Import Model.Base Model.Attr Model.Double Model.Verifiers Model.PathCalc Model.Enums Model.Wrapper Model.Settings Model.Editor.
From Verif Require Import Spec.Text Spec.EnumSpec Spec.SettingsSpec Spec.DoubleSpec Spec.EditorSpec.
From Verif Require Import Proofs.Tactics Proofs.StringFacts Proofs.CalcProofs Proofs.EnumProofs Proofs.FloatReal Proofs.UnitNumberProofs Proofs.DescProofs.
From Verif Require Import Proofs.SettingsProofs Proofs.SettingsTables Proofs.EditorNumbers Proofs.EditorFloats Proofs.EditorExport.

Local Open Scope string_scope.
Local Open Scope Z_scope.
Local Open Scope list_scope.

(** ** Short numbers do not overflow *)

Lemma short_finite neg m k : 0 <= m < 10 ^ 300 -> forall b, decimal neg m (0 - Z.of_nat k) <> S754_infinity b.
Proof.
  intros [M0 M] b E.
  assert (G : exists d, 0 < d /\ decimal neg m (0 - Z.of_nat k) = d_of_ratio neg m d).
  { unfold decimal. destruct (Z.leb_spec 0 (0 - Z.of_nat k)).
    - exists 1. split; [lia|]. replace (0 - Z.of_nat k) with 0 by lia. now rewrite Z.mul_1_r.
    - exists (10 ^ (- (0 - Z.of_nat k))). split; [apply pow10_pos; lia|reflexivity]. }
  destruct G as (d & D & G). rewrite G in E. pose proof (ratio_rounds neg m d M0 D) as H. unfold rounds_to in H.
  rewrite Rlt_bool_true in H; [destruct H as [H _]; rewrite E in H; exact H|].
  eapply Rle_lt_trans; [apply (rnd_lt _ 1000); [lia|]|apply bpow_lt; lia].
  rewrite Rabs_mult. replace (Rabs (if neg then -1 else 1)) with 1%R.
  2: { unfold Rabs. destruct neg; destruct (Rcase_abs _); lra. }
  rewrite Rmult_1_l.
  assert (D1 : (1 <= IZR d)%R) by (apply IZR_le; lia). assert (N1 : (0 <= IZR m)%R) by (apply IZR_le; lia).
  rewrite Rabs_pos_eq by (apply Rmult_le_pos; [exact N1|apply Rlt_le, Rinv_0_lt_compat; lra]).
  apply Rle_trans with (IZR m).
  - unfold Rdiv. rewrite <- (Rmult_1_r (IZR m)) at 2. apply Rmult_le_compat_l; [exact N1|]. rewrite <- Rinv_1. apply Rinv_le; lra.
  - rewrite <- IZR_Zpower by lia. apply IZR_le. change (radix_val radix2 : Z) with 2. assert (10 ^ 300 <= 2 ^ 1000) by (vm_compute; discriminate). lia.
Qed.

(** ** Boxes of the machine points *)

Lemma grouped_digits g ds : all_chars is_digit ds = true -> grouped g ds ds.
Proof.
  assert (S : forall r, all_chars is_digit r = true -> separated g r r).
  { induction r; cbn; intros H; [constructor|]. apply andb_true_iff in H as [H H']. constructor; auto. }
  destruct ds; cbn; intros H; constructor; apply andb_true_iff in H as [H H']; auto.
Qed.

Lemma plain_parses sg ds pt fp : (sg = "" \/ sg = "-")%string -> ds <> ""%string ->
  all_chars is_digit ds = true -> all_chars is_digit fp = true -> (pt = "." \/ pt = "" /\ fp = "")%string ->
  (String.length ds + String.length fp <= 300)%nat -> exists v, double_parse Invariant (sg ++ ds ++ pt ++ fp) = Ok v.
Proof.
  intros SG NE D F P L. set (neg := negb (String.eqb sg "")). set (m := digits_val (ds ++ fp)%string).
  exists (decimal neg m (0 - Z.of_nat (String.length fp))). apply number_parse_complete; [discriminate|].
  assert (DF : all_chars is_digit (ds ++ fp) = true) by (rewrite all_chars_app, D; exact F).
  assert (M : 0 <= m < 10 ^ 300).
  { pose proof (digits_bound _ DF) as B. fold m in B. rewrite string_app_length in B. split; [apply B|]. eapply Z.lt_le_trans; [apply B|].
    apply Z.pow_le_mono_r; lia. }
  exists ""%string, sg, neg, ds, ds, pt, fp, ""%string, 0, m, ""%string. cbn [append]. rewrite !string_app_nil.
  split; [reflexivity|]. split; [reflexivity|]. split; [reflexivity|].
  split; [destruct SG as [-> | ->]; constructor|]. split; [now apply grouped_digits|]. split; [exact F|]. split; [exact P|].
  split; [|split; [constructor|split; [reflexivity|now apply short_finite]]].
  split; [|split; [exact DF|reflexivity]]. destruct ds; [now destruct NE|discriminate].
Qed.

Lemma validate_step acc c r : (acc <> "" \/ c <> "-"%char)%string -> (exists v, double_parse Invariant (acc ++ String c "") = Ok v) ->
  validate acc (String c r) = validate (acc ++ String c "") r.
Proof.
  intros N [v E]. cbn [validate]. rewrite E. destruct (String.eqb_spec acc ""); [|reflexivity]. destruct (Ascii.eqb_spec c "-"); [|reflexivity].
  destruct N; contradiction.
Qed.

Lemma string_app_assoc (a b c : string) : (a ++ b ++ c = (a ++ b) ++ c)%string.
Proof. induction a; cbn; [reflexivity|now rewrite IHa]. Qed.

Lemma digit_not_minus c : is_digit c = true -> c <> "-"%char.
Proof. intros H ->. discriminate. Qed.

Lemma validate_int sg b : (sg = "" \/ sg = "-")%string -> forall a rest, all_chars is_digit a = true -> all_chars is_digit b = true ->
  (String.length a + String.length b <= 300)%nat -> validate (sg ++ a) (b ++ rest) = validate (sg ++ a ++ b) rest.
Proof.
  intros SG. induction b as [|c b IH]; intros a rest A B L; [now rewrite string_app_nil|].
  cbn in B. apply andb_true_iff in B as [C B]. cbn [append]. rewrite validate_step.
  - rewrite <- string_app_assoc. rewrite IH.
    + now rewrite <- string_app_assoc.
    + rewrite all_chars_app, A. cbn. now rewrite C.
    + exact B.
    + rewrite string_app_length. cbn in *. lia.
  - right. now apply digit_not_minus.
  - rewrite <- string_app_assoc. destruct (plain_parses sg (a ++ String c "") "" "") as [v E]; auto.
    + destruct a; discriminate.
    + rewrite all_chars_app, A. cbn. now rewrite C.
    + rewrite string_app_length. cbn in *. lia.
    + exists v. cbn in E. now rewrite !string_app_nil in E.
Qed.

Lemma validate_frac sg ds b : (sg = "" \/ sg = "-")%string -> ds <> ""%string -> all_chars is_digit ds = true ->
  forall a, all_chars is_digit a = true -> all_chars is_digit b = true ->
  (String.length ds + (String.length a + String.length b) <= 300)%nat -> validate (sg ++ ds ++ "." ++ a) b = (sg ++ ds ++ "." ++ a ++ b)%string.
Proof.
  intros SG NE D. induction b as [|c b IH]; intros a A B L; [now rewrite string_app_nil|].
  cbn in B. apply andb_true_iff in B as [C B]. rewrite validate_step.
  - rewrite <- !string_app_assoc. rewrite IH.
    + now rewrite <- string_app_assoc.
    + rewrite all_chars_app, A. cbn. now rewrite C.
    + exact B.
    + rewrite string_app_length. cbn in *. lia.
  - right. now apply digit_not_minus.
  - rewrite <- !string_app_assoc. destruct (plain_parses sg ds "." (a ++ String c "")) as [v E]; auto.
    + rewrite all_chars_app, A. cbn. now rewrite C.
    + rewrite string_app_length. cbn in *. lia.
    + exists v. exact E.
Qed.

Lemma validate_plain s : plain s -> validate "" s = s.
Proof.
  intros (sg & ds & pt & fp & -> & SG & NE & D & F & P & L).
  assert (E : forall r, validate "" (sg ++ r) = validate (sg ++ "") r).
  { intros r. destruct SG as [-> | ->]; reflexivity. }
  rewrite E, validate_int by (auto; cbn; lia). cbn [append].
  destruct P as [-> | [-> ->]]; [|cbn; now rewrite string_app_nil].
  cbn [append]. rewrite validate_step.
  - rewrite <- string_app_assoc. change (String "." "") with ("." ++ "")%string. rewrite validate_frac; auto.
  - left. destruct SG as [-> | ->]; [|discriminate]. destruct ds; [now destruct NE|discriminate].
  - rewrite <- string_app_assoc. destruct (plain_parses sg ds "." "") as [v Q]; auto. { cbn; lia. } now exists v.
Qed.

(** ** Loading *)

Lemma assign_same {A} k (v : A) m : assoc k m = Some v -> assign k v m = m.
Proof.
  induction m as [|[k' v'] m IH]; cbn; [discriminate|]. destruct (String.eqb_spec k k') as [->|].
  - intros E. now injection E as ->.
  - intros E. now rewrite IH.
Qed.

Lemma assign_new {A} k (v : A) m : ~ In k (map fst m) -> assign k v m = m ++ [(k, v)].
Proof.
  induction m as [|[k' v'] m IH]; cbn; [reflexivity|]. intros N. destruct (String.eqb_spec k k') as [->|]; [destruct N; auto|].
  rewrite IH; [reflexivity|tauto].
Qed.

Lemma assign_all {A} (l : list (string * A)) : forall m, NoDup (map fst (m ++ l)) ->
  fold_left (fun m x => assign (fst x) (snd x) m) l m = m ++ l.
Proof.
  induction l as [|[k v] l IH]; intros m N; cbn [fold_left]; [now rewrite app_nil_r|]. cbn [fst snd]. rewrite assign_new.
  - rewrite IH, <- app_assoc; [reflexivity|]. now rewrite <- app_assoc.
  - rewrite map_app in N. cbn in N. apply NoDup_remove_2 in N. intros I. apply N. apply in_or_app. now left.
Qed.

Lemma find_active ms name md p : assoc name ms = Some md -> shown_for p (name, md) = true ->
  find (fun x => String.eqb (fst x) name) (filter (shown_for p) ms) = Some (name, md).
Proof.
  intros A S. induction ms as [|[n d] ms IH]; cbn in A; [discriminate|]. cbn [filter]. destruct (String.eqb_spec name n) as [->|N].
  - injection A as ->. rewrite S. cbn. now rewrite String.eqb_refl.
  - destruct (shown_for p (n, d)); [|auto]. cbn. destruct (String.eqb_spec n name); [congruence|auto].
Qed.

Lemma checked_in k l : NoDup (map fst l) -> extra_checked k l = true <-> In (k, true) l.
Proof.
  intros N. unfold extra_checked. split.
  - destruct (find _ l) as [[k' b]|] eqn:F; [|discriminate]. cbn. intros ->. apply find_some in F as [I E]. cbn in E. apply String.eqb_eq in E. now subst.
  - intros I. induction l as [|[k' b] l IH]; [destruct I|]. cbn [find fst]. inversion N as [|? ? N1 N2 Q]. subst.
    destruct (String.eqb_spec k' k) as [->|D].
    + destruct I as [I|I]; [now injection I as ->|]. destruct N1. apply in_map_iff. exists (k, true). auto.
    + apply IH; auto. destruct I as [I|I]; [congruence|exact I].
Qed.

Lemma code_found c : In c [""; "M"; "O"]%string -> find_exact c code_list = Some c.
Proof. intros [<-|[<-|[<-|[]]]]; reflexivity. Qed.

Lemma axes_back ct shows l : ct <> PlPl ->
  (forall w r, In (w, r) l -> shown_single ct (shows (fst r)) (fst r) /\ shown_single ct (shows (snd r)) (snd r)) ->
  forall m, NoDup (map fst (m ++ l)) ->
  read_axes ct (map (fun x => (fst x, (shows (fst (snd x)), shows (snd (snd x))))) l) m = Ok (m ++ l).
Proof.
  intros P. induction l as [|[k [a b]] l IH]; intros H m N; cbn [map read_axes fst snd]; [now rewrite app_nil_r|].
  destruct (H k (a, b) (or_introl eq_refl)) as [A B]. cbn [fst snd] in A, B.
  apply number_parse_complete in A, B; try exact P. unfold float_parse. rewrite A, B. cbn [bind]. unfold dict_add.
  destruct (assoc k m) eqn:E.
  - exfalso. apply assoc_in in E. rewrite map_app in N. cbn in N. apply NoDup_remove_2 in N. apply N, in_or_app. left. apply in_map_iff. now exists (k, p).
  - cbn [is_some bind]. rewrite IH.
    + now rewrite <- app_assoc.
    + intros w r I. apply (H w). now right.
    + now rewrite <- app_assoc.
Qed.

Lemma member_in {A} k (m : list (string * A)) : In k (map fst m) -> is_some (assoc k m) = true.
Proof.
  induction m as [|[k' v] m IH]; cbn; [tauto|]. destruct (String.eqb_spec k k'); [reflexivity|]. intros [E|I]; [congruence|auto].
Qed.

Lemma int_parse_back n : int_min <= n <= int_max -> int_parse (z_to_string n) = Ok n.
Proof. apply int_read_back. Qed.

Lemma point_back shows m k d : assoc k m = Some d -> plain (shows d) -> shown Invariant (shows d) d ->
  point_text shows m k = Ok (shows d) /\ point_parse (shows d) = d.
Proof.
  intros A P S. unfold point_text, point_parse. rewrite A, validate_plain by exact P. split; [reflexivity|].
  apply (number_parse_complete to_double) in S; [|discriminate]. unfold double_parse. now rewrite S.
Qed.

Theorem saved_again ct shows ms old f md : ct <> PlPl -> settled ct shows ms f md ->
  exists fo, fill shows ms old f = Ok fo /\ export ct ms f fo = Ok f.
Proof.
  intros P [SM [SD SL] ST [SX NX] SA SR [[wf [WF WE]] [ff [FF FE]]] SI SP SC SN [PX PB] [zz [ZA ZS]] SZ ZXY].
  assert (SELF : find (fun x => String.eqb (fst x) (nf_machine f)) (filter (shown_for (nf_driver f)) ms) = Some (nf_machine f, md)) by (now apply find_active).
  assert (AX : negb (is_nil (ks_axes (nf_kin f))) = true) by (destruct (ks_axes (nf_kin f)); [destruct SZ|reflexivity]).
  assert (EX : negb (is_nil (nf_extras f)) = true) by (destruct (nf_extras f); [now destruct SX|reflexivity]).
  destruct (PX "X"%string ltac:(cbn; tauto)) as (xx & X1 & X2 & X3). destruct (PX "Y"%string ltac:(cbn; tauto)) as (xy & X4 & X5 & X6).
  destruct (PX "Z"%string ltac:(cbn; tauto)) as (xz & X7 & X8 & X9). destruct (PB "X"%string ltac:(cbn; tauto)) as (bx & B1 & B2 & B3).
  destruct (PB "Y"%string ltac:(cbn; tauto)) as (by_ & B4 & B5 & B6). destruct (PB "Z"%string ltac:(cbn; tauto)) as (bz & B7 & B8 & B9).
  destruct (point_back _ _ _ _ X1 X2 X3) as [TX1 VX1]. destruct (point_back _ _ _ _ X4 X5 X6) as [TX2 VX2]. destruct (point_back _ _ _ _ X7 X8 X9) as [TX3 VX3].
  destruct (point_back _ _ _ _ B1 B2 B3) as [TB1 VB1]. destruct (point_back _ _ _ _ B4 B5 B6) as [TB2 VB2]. destruct (point_back _ _ _ _ B7 B8 B9) as [TB3 VB3].
  assert (PT : negb (is_nil (nf_exchange f)) = true) by (destruct (nf_exchange f); [discriminate|reflexivity]).
  assert (ZX : exists txy, match nf_type f with
               | TT_Mill =>
                   do x <- Editor.number_text_of shows (nf_zero f) "X"; do y <- Editor.number_text_of shows (nf_zero f) "Y";
                   do _ <- axis_shown (nf_kin f) "X"; do _ <- axis_shown (nf_kin f) "Y";
                   Ok (x, y)
               | _ => Ok old
               end = Ok txy /\
               match nf_type f with
          | TT_Mill =>
              do x <- double_parse ct (fst txy);
              do y <- double_parse ct (snd txy);
              Ok (assign "Y" y (assign "X" x (nf_zero f)))
          | _ => Ok (assign "Y" (S754_zero false) (assign "X" (S754_zero false) (nf_zero f)))
          end = Ok (nf_zero f)).
  { destruct (nf_type f).
    - destruct (ZXY "X"%string ltac:(cbn; tauto)) as (I1 & d1 & A1 & V1). destruct (ZXY "Y"%string ltac:(cbn; tauto)) as (I2 & d2 & A2 & V2).
      unfold Editor.number_text_of, axis_shown. rewrite A1, A2. cbn [bind]. rewrite (member_in _ _ I1), (member_in _ _ I2). cbn [bind].
      eexists. split; [reflexivity|]. cbn [fst snd].
      apply (number_parse_complete to_double) in V1, V2; auto. unfold double_parse. rewrite V1, V2. cbn [bind].
      rewrite (assign_same "X") by exact A1. now rewrite (assign_same "Y") by exact A2.
    - eexists. split; [reflexivity|]. rewrite (assign_same "X") by (apply ZXY; cbn; tauto). rewrite (assign_same "Y") by (apply ZXY; cbn; tauto). reflexivity.
    - eexists. split; [reflexivity|]. rewrite (assign_same "X") by (apply ZXY; cbn; tauto). rewrite (assign_same "Y") by (apply ZXY; cbn; tauto). reflexivity. }
  destruct ZX as (txy & ZX1 & ZX2).
  unfold fill. destruct (nf_driver f) as [p|] eqn:DR; [|congruence]. unfold active_machine. rewrite DR, SELF. cbn [bind].
  rewrite String.eqb_refl, AX, EX, PT. cbn [andb].
  assert (IM : in_list ["rapid_traverse"; "linear_interpolation"] (motion_text (cs_motion (nf_cnc f))) = Ok (motion_text (cs_motion (nf_cnc f)))) by (now destruct (cs_motion (nf_cnc f))).
  assert (IP : in_list ["XY"; "XZ"; "YZ"] (plane_text (cs_plane (nf_cnc f))) = Ok (plane_text (cs_plane (nf_cnc f)))) by (now destruct (cs_plane (nf_cnc f))).
  assert (IU : in_list ["millimeter"; "inch"] (units_text (cs_units (nf_cnc f))) = Ok (units_text (cs_units (nf_cnc f)))) by (now destruct (cs_units (nf_cnc f))).
  assert (IG : in_list ["absolute"; "incremental"] (programming_text (cs_programming (nf_cnc f))) = Ok (programming_text (cs_programming (nf_cnc f)))) by (now destruct (cs_programming (nf_cnc f))).
  assert (IF_ : in_list ["feed_per_minute"; "feed_per_revolution"] (feed_text (cs_feed_mode (nf_cnc f))) = Ok (feed_text (cs_feed_mode (nf_cnc f)))) by (now destruct (cs_feed_mode (nf_cnc f))).
  assert (ID : in_list ["right"; "left"] (direction_text (cs_direction (nf_cnc f))) = Ok (direction_text (cs_direction (nf_cnc f)))) by (now destruct (cs_direction (nf_cnc f))).
  assert (IZ : in_list ["absolute"; "incremental"] (depth_text (cs_z (nf_cnc f))) = Ok (depth_text (cs_z (nf_cnc f)))) by (now destruct (cs_z (nf_cnc f))).
  assert (IR : in_list ["beginning"; "point_r"] (return_text (cs_return (nf_cnc f))) = Ok (return_text (cs_return (nf_cnc f)))) by (now destruct (cs_return (nf_cnc f))).
  rewrite IM, IP, IU, IG, IF_, ID, IZ, IR. cbn [bind fst snd]. rewrite TX1, TX2, TX3, TB1, TB2, TB3. cbn [bind].
  rewrite ZX1. cbn [bind]. unfold Editor.number_text_of at 1. rewrite ZA. cbn [bind]. unfold axis_shown. rewrite (member_in _ _ SZ). cbn [bind].
  eexists. split; [reflexivity|]. unfold export. cbn [fo_machine]. rewrite SM.
  assert (K : forall fo, fo_work_feed fo = shows (ks_work_feed (nf_kin f)) -> fo_fast_feed fo = shows (ks_fast_feed (nf_kin f)) ->
    fo_spindle fo = z_to_string (ks_spindle (nf_kin f)) -> fo_warehouse fo = z_to_string (ks_warehouse (nf_kin f)) ->
    fo_exchange_time fo = z_to_string (ks_exchange_time (nf_kin f)) -> fo_pallet_time fo = z_to_string (ks_pallet_time (nf_kin f)) ->
    fo_measure_time fo = z_to_string (ks_measure_time (nf_kin f)) -> fo_diameter_2x fo = ks_diameter_2x (nf_kin f) ->
    fo_auto_measure fo = ks_auto_measure (nf_kin f) -> fo_pallet_code fo = find_exact (ks_pallet_code (nf_kin f)) code_list ->
    fo_pallet_value fo = ks_pallet_value (nf_kin f) -> fo_measure_code fo = find_exact (ks_measure_code (nf_kin f)) code_list ->
    fo_measure_value fo = ks_measure_value (nf_kin f) -> fo_extras fo = nf_extras f ->
    fo_axes fo = map (fun x => (fst x, (shows (fst (snd x)), shows (snd (snd x))))) (ks_axes (nf_kin f)) ->
    form_kinematics ct fo = Ok (nf_kin f)).
  { intros fo F1 F2 F3 F4 F5 F6 F7 F8 F9 F10 F11 F12 F13 F14 F15. unfold form_kinematics. rewrite F1, F2, F3, F4, F5, F8, F15, F14.
    unfold int_parse at 1 2. apply value_int_ok in WF, FF. rewrite WF, FF. cbn [bind].
    rewrite !int_parse_back by (apply SI; cbn; tauto). cbn [bind].
    pose proof (checked_in "pallet_changer" _ NX) as CP. pose proof (checked_in "cnc_probe" _ NX) as CC.
    assert (QP : (if extra_checked "pallet_changer" (nf_extras f)
      then do pe <- int_parse (fo_pallet_time fo); do pc <- selected (fo_pallet_code fo); Ok (pe, pc, fo_pallet_value fo)
      else Ok (0, "", "")%string) = Ok (ks_pallet_time (nf_kin f), ks_pallet_code (nf_kin f), ks_pallet_value (nf_kin f))).
    { destruct SP as [[I C]|(I & -> & -> & ->)].
      - apply CP in I. rewrite I, F6, F10, F11, int_parse_back by (apply SI; cbn; tauto). cbn [bind]. rewrite (code_found _ C). reflexivity.
      - destruct (extra_checked _ _); [destruct I; now apply CP|reflexivity]. }
    assert (QC : (if extra_checked "cnc_probe" (nf_extras f)
      then do tm <- int_parse (fo_measure_time fo); do mc <- selected (fo_measure_code fo); Ok (fo_auto_measure fo, tm, mc, fo_measure_value fo)
      else Ok (false, 0, "", "")%string) = Ok (ks_auto_measure (nf_kin f), ks_measure_time (nf_kin f), ks_measure_code (nf_kin f), ks_measure_value (nf_kin f))).
    { destruct SC as [[I C]|(I & -> & -> & -> & ->)].
      - apply CC in I. rewrite I, F7, F9, F12, F13, int_parse_back by (apply SI; cbn; tauto). cbn [bind]. rewrite (code_found _ C). reflexivity.
      - destruct (extra_checked "cnc_probe" _); [destruct I; now apply CC|reflexivity]. }
    rewrite QP. cbn [bind]. rewrite QC. cbn [bind]. rewrite axes_back by auto. cbn [bind app]. rewrite <- WE, <- FE. now destruct (nf_kin f). }
  rewrite K by reflexivity. clear K. cbn [bind].
  assert (C : forall fo, fo_motion fo = motion_text (cs_motion (nf_cnc f)) -> fo_plane fo = plane_text (cs_plane (nf_cnc f)) ->
     fo_units fo = units_text (cs_units (nf_cnc f)) -> fo_programming fo = programming_text (cs_programming (nf_cnc f)) ->
     fo_feed_mode fo = feed_text (cs_feed_mode (nf_cnc f)) -> fo_direction fo = direction_text (cs_direction (nf_cnc f)) ->
     fo_z fo = depth_text (cs_z (nf_cnc f)) -> fo_return fo = return_text (cs_return (nf_cnc f)) -> fo_rotation fo = z_to_string (cs_rotation (nf_cnc f)) ->
     (fo_rapid_cancels fo, fo_linear_cancels fo, fo_cw_cancels fo, fo_ccw_cancels fo) =
     (cs_rapid_cancels (nf_cnc f), cs_linear_cancels (nf_cnc f), cs_cw_cancels (nf_cnc f), cs_ccw_cancels (nf_cnc f)) ->
     (fo_cancel_starts_rapid fo, fo_operator_rotation fo, fo_tool_executes fo, fo_auto_rapid fo) =
     (cs_cancel_starts_rapid (nf_cnc f), cs_operator_rotation (nf_cnc f), cs_tool_executes (nf_cnc f), cs_auto_rapid (nf_cnc f)) ->
     form_cnc fo = Ok (nf_cnc f)).
  { intros fo F1 F2 F3 F4 F5 F6 F7 F8 F9 F10 F11. injection F10 as G1 G2 G3 G4. injection F11 as G5 G6 G7 G8.
    unfold form_cnc. rewrite G1, G2, G3, G4, G5, G6, G7, G8, F1, F2, F3, F4, F5, F6, F7, F8, F9, int_parse_back by (apply SI; cbn; tauto).
    clear -SN. destruct (nf_cnc f) as [[] [] [] [] [] [] [] [] ? ? ? ? ? ? ? ? ?]; cbn in SN; try reflexivity; congruence. }
  rewrite C by reflexivity. clear C. cbn [bind]. cbn [fo_driver fo_id fo_extras fo_exchange_x fo_exchange_y fo_exchange_z fo_base_x fo_base_y fo_base_z].
  unfold form_zero. rewrite ST. cbn [fo_zero_x fo_zero_y fo_zero_z]. rewrite ZX2. cbn [bind].
  apply (number_parse_complete to_double) in ZS; auto. unfold double_parse. rewrite ZS. cbn [bind]. rewrite (assign_same "Z") by exact ZA.
  rewrite assign_all by exact NX. unfold set_point. rewrite VX1, VX2, VX3, VB1, VB2, VB3.
  rewrite (assign_same "X" xx), (assign_same "Y" xy), (assign_same "Z" xz) by assumption.
  rewrite (assign_same "X" bx), (assign_same "Y" by_), (assign_same "Z" bz) by assumption.
  rewrite <- DR. now destruct f.
Qed.
