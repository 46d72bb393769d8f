(** Concrete forms and files of the settings editor. *)
From Verif Require Import Model.Base Model.Attr Model.Double Model.Verifiers Model.PathCalc Model.Enums Model.Wrapper Model.Settings Model.Editor.
From Verif Require Import Spec.Text Spec.EnumSpec Spec.SettingsSpec Spec.DoubleSpec Spec.EditorSpec.
From Verif Require Import Proofs.Tactics Proofs.StringFacts Proofs.EditorNumbers Proofs.EditorFloats Proofs.EditorExport Proofs.EditorRoundTrip.

Local Open Scope string_scope.
Local Open Scope Z_scope.
Local Open Scope list_scope.

(** The text of some whole numbers. *)
Definition ex_numbers : list Z := [0; 500; -500; 1000; 20000].
Definition ex_shows (d : dbl) : string :=
  match find (fun n => SFeqb d (d_of_Z n)) ex_numbers with Some n => z_to_string n | None => "?" end.

Definition ex_kin (r : dbl) : kin_settings :=
  mkKS [("X", (d_of_Z (-500), r)); ("Y", (d_of_Z (-500), d_of_Z 500)); ("Z", (dzero, d_of_Z 1000))]
       (d_of_Z 20000) (d_of_Z 20000) 10000 30 6 12 0 false false "M" "60" "" "".
Definition ex_cnc (rd : rotation_dir) : cnc_settings :=
  mkCS RapidTraverse WP_XY Millimeter ProgAbsolute FeedPerMinute rd DepthAbsolute Return_G98 0 false false false false false true false false.
Definition ex_point (x : dbl) : dmap := [("X", x); ("Y", dzero); ("Z", d_of_Z 500); ("B", dzero)].
Definition ex_extras : list (string * bool) := [("pallet_changer", true); ("cnc_probe", false)].
Definition ex_machines : machines :=
  [("lathe_zx", mkMD TT_Lathe [] (ex_kin dzero) (ex_cnc RotLeft) [] []);
   ("mill_3axis", mkMD TT_Mill ex_extras (ex_kin (d_of_Z 500)) (ex_cnc RotRight) (ex_point dzero) (ex_point dzero))].
Definition ex_file (r x : dbl) (rd : rotation_dir) : nc_file :=
  mkFile (Drv PT_FanucMill) "mill_3axis" "7" TT_Mill ex_extras (ex_kin r) (ex_cnc rd) (ex_point x) (ex_point dzero) (leaf "me")
         [("X", dzero); ("Y", dzero); ("Z", d_of_Z 1000)].
Definition ex_good : nc_file := ex_file (d_of_Z 500) dzero RotRight.

Definition ex_form (axis point zero : string) : form :=
  mkForm (Drv PT_FanucMill) "mill_3axis" "7" ex_extras "20000" "20000" "10000" "30" "6" "12" "0" false false (Some "M") "60" (Some "") ""
    [("X", ("-500", axis)); ("Y", ("-500", "500")); ("Z", ("0", "1000"))]
    "rapid_traverse" "XY" "millimeter" "absolute" "feed_per_minute" "right" "absolute" "beginning" "0"
    false false false false false true false false point "0" "500" "0" "0" "500" "0" "0" zero.

(** Texts that are read are numbers. *)
Lemma parsed_shown round ct s v : number_parse round ct s = Ok v -> nan_symbol ct s = false -> number_in ct round s v.
Proof. intros E N. apply number_parse_sound in E as [E|[_ E]]; [exact E|congruence]. Qed.

Lemma not_nan_text s : nan_symbol EnUs s = false -> not_nan s.
Proof.
  intros N w w' W W' ->. cbn [nan_symbol] in N. apply String.eqb_neq in N. apply N. clear N. unfold trim.
  assert (S : snd (span is_space (w ++ "NaN" ++ w')) = ("NaN" ++ w')%string).
  { clear W'. assert (T : span is_space ("NaN" ++ w') = (""%string, ("NaN" ++ w')%string)) by reflexivity. revert T.
    generalize ("NaN" ++ w')%string. intros t T. induction w as [|c w IH]; [cbn [append]; now rewrite T|].
    cbn in W. apply andb_true_iff in W as [C W]. cbn [append span]. rewrite C.
    specialize (IH W). destruct (span is_space (w ++ t)). exact IH. }
  rewrite S. cbn. unfold blank in W'. destruct w' as [|c w']; [reflexivity|]. cbn [trim_end]. rewrite W'. reflexivity.
Qed.

Lemma ex_plain n : In n ex_numbers -> plain (ex_shows (d_of_Z n)) /\ shown Invariant (ex_shows (d_of_Z n)) (d_of_Z n) /\
  shown EnUs (ex_shows (d_of_Z n)) (d_of_Z n) /\ shown_single EnUs (ex_shows (d_of_Z n)) (d_of_Z n) /\
  (exists m, reads_int (ex_shows (d_of_Z n)) m /\ d_of_Z n = d_of_Z m).
Proof.
  assert (P : forall sg ds, (sg = "" \/ sg = "-")%string -> ds <> ""%string -> all_chars is_digit ds = true -> (String.length ds <= 300)%nat ->
    plain (sg ++ ds)).
  { intros sg ds A B C D. exists sg, ds, ""%string, ""%string. rewrite string_app_nil. repeat split; auto; try (now right). cbn. lia. }
  intros I. split; [|split; [|split; [|split]]].
  - repeat destruct I as [<-|I]; [| | | | |destruct I].
    + apply (P "" "0"); cbn; auto; try discriminate; lia.
    + apply (P "" "500"); cbn; auto; try discriminate; lia.
    + apply (P "-" "500"); cbn; auto; try discriminate; lia.
    + apply (P "" "1000"); cbn; auto; try discriminate; lia.
    + apply (P "" "20000"); cbn; auto; try discriminate; lia.
  - apply parsed_shown; repeat destruct I as [<-|I]; try destruct I; vm_compute; reflexivity.
  - apply parsed_shown; repeat destruct I as [<-|I]; try destruct I; vm_compute; reflexivity.
  - apply parsed_shown; repeat destruct I as [<-|I]; try destruct I; vm_compute; reflexivity.
  - exists n. split; [|reflexivity]. apply int_parse_ok. repeat destruct I as [<-|I]; try destruct I; vm_compute; reflexivity.
Qed.

Lemma ex_settled : exists md, settled EnUs ex_shows ex_machines ex_good md.
Proof.
  exists (mkMD TT_Mill ex_extras (ex_kin (d_of_Z 500)) (ex_cnc RotRight) (ex_point dzero) (ex_point dzero)).
  pose proof (ex_plain 0 ltac:(cbn; tauto)) as (A1 & A2 & A3 & A4 & A5).
  pose proof (ex_plain 500 ltac:(cbn; tauto)) as (B1 & B2 & B3 & B4 & B5).
  pose proof (ex_plain (-500) ltac:(cbn; tauto)) as (C1 & C2 & C3 & C4 & C5).
  pose proof (ex_plain 1000 ltac:(cbn; tauto)) as (D1 & D2 & D3 & D4 & D5).
  pose proof (ex_plain 20000 ltac:(cbn; tauto)) as (E1 & E2 & E3 & E4 & E5).
  constructor.
  - reflexivity.
  - split; [discriminate|reflexivity].
  - reflexivity.
  - split; [discriminate|]. repeat (constructor; [cbn; intuition discriminate|]). constructor.
  - repeat (constructor; [cbn; intuition discriminate|]). constructor.
  - intros w r I. repeat destruct I as [I|I]; [injection I as <- <-; auto .. |destruct I].
  - split; assumption.
  - intros n I. unfold int_min, int_max. repeat destruct I as [<-|I]; cbn; try lia. destruct I.
  - left. split; cbn; tauto.
  - right. split; [|auto]. cbn. intuition discriminate.
  - discriminate.
  - split; intros k I; repeat destruct I as [<-|I]; try destruct I; eexists; (split; [reflexivity|]); auto.
  - eexists. split; [reflexivity|exact D3].
  - cbn. tauto.
  - intros k I. repeat destruct I as [<-|I]; try destruct I; (split; [cbn; tauto|]); eexists; (split; [reflexivity|exact A3]).
Qed.

Lemma ex_sane axis point zero : nan_symbol EnUs axis = false -> nan_symbol EnUs point = false -> nan_symbol EnUs zero = false ->
  form_sane (ex_form axis point zero).
Proof.
  intros A P Z. constructor.
  - discriminate.
  - cbn. tauto.
  - intros w a b I. repeat destruct I as [I|I]; [injection I as <- <- <-; split; apply not_nan_text; auto .. |destruct I].
  - intros t I. apply not_nan_text. repeat destruct I as [<-|I]; auto; destruct I.
  - intros t I. apply not_nan_text. repeat destruct I as [<-|I]; auto; destruct I.
Qed.

Lemma ex_points : points_sane ex_good.
Proof. intros k v [I|I]; repeat destruct I as [I|I]; try (injection I as <- <-; reflexivity); try destruct I; injection I as <- <-; exact Logic.I. Qed.
