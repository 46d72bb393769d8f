(** The numbers of the settings editor. *)
From Verif Require Import Model.Base Model.Attr Model.Double Model.Verifiers Model.PathCalc Model.Enums Model.Settings Model.Editor.
From Verif Require Import Spec.Text Spec.EnumSpec Spec.SettingsSpec Spec.DoubleSpec Spec.EditorSpec.
From Verif Require Import Proofs.Tactics Proofs.StringFacts Proofs.CalcProofs Proofs.EnumProofs Proofs.SettingsProofs.

Local Open Scope string_scope.
Local Open Scope Z_scope.

Lemma seps ct : separators ct = (decimal_sep ct, group_sep ct).
Proof. now destruct ct. Qed.

(** ** Reading digits *)

Lemma scan_behind dec grp digit s : forall ip fp rest, scan_digits dec grp digit true s = (ip, fp, rest) ->
  ip = "" /\ s = fp ++ rest /\ all_chars is_digit fp = true.
Proof.
  revert digit. induction s as [|c s IH]; intros digit ip fp rest E; cbn [scan_digits] in E.
  - injection E as <- <- <-. auto.
  - destruct (is_digit c) eqn:D.
    + destruct (scan_digits dec grp true true s) as [[ip1 fp1] r1] eqn:E1. injection E as <- <- <-.
      destruct (IH _ _ _ _ E1) as (-> & -> & F). cbn. rewrite D. auto.
    + rewrite !andb_false_r in E. injection E as <- <- <-. auto.
Qed.

Lemma scan_tail dec grp s : forall ip fp rest, scan_digits dec grp true false s = (ip, fp, rest) ->
  exists it pt, s = it ++ pt ++ fp ++ rest /\ separated grp it ip /\ all_chars is_digit fp = true /\
    (pt = String dec "" \/ pt = "" /\ fp = "").
Proof.
  induction s as [|c s IH]; intros ip fp rest E; cbn [scan_digits] in E.
  - injection E as <- <- <-. exists "", "". repeat split; auto. constructor.
  - destruct (is_digit c) eqn:D.
    + destruct (scan_digits dec grp true false s) as [[ip1 fp1] r1] eqn:E1. injection E as <- <- <-.
      destruct (IH _ _ _ eq_refl) as (it & pt & -> & S & F & P). exists (String c it), pt. repeat split; auto. now constructor.
    + cbn [negb andb] in E. rewrite !andb_true_r in E. destruct (Ascii.eqb_spec c dec) as [->|].
      * apply scan_behind in E as (-> & -> & F). exists "", (String dec ""). repeat split; auto. constructor.
      * destruct (Ascii.eqb_spec c grp) as [->|].
        -- destruct (IH _ _ _ E) as (it & pt & -> & S & F & P). exists (String grp it), pt. repeat split; auto. now constructor.
        -- injection E as <- <- <-. exists "", "". repeat split; auto. constructor.
Qed.

Lemma scan_sound dec grp s : forall ip fp rest, scan_digits dec grp false false s = (ip, fp, rest) ->
  exists it pt, s = it ++ pt ++ fp ++ rest /\ grouped grp it ip /\ all_chars is_digit fp = true /\
    (pt = String dec "" \/ pt = "" /\ fp = "").
Proof.
  intros ip fp rest E. destruct s as [|c s]; cbn [scan_digits] in E.
  - injection E as <- <- <-. exists "", "". repeat split; auto. constructor.
  - destruct (is_digit c) eqn:D.
    + destruct (scan_digits dec grp true false s) as [[ip1 fp1] r1] eqn:E1. injection E as <- <- <-.
      apply scan_tail in E1 as (it & pt & -> & S & F & P). exists (String c it), pt. repeat split; auto. now constructor.
    + cbn [negb andb] in E. rewrite andb_true_r, andb_false_r in E. destruct (Ascii.eqb_spec c dec) as [->|].
      * apply scan_behind in E as (-> & -> & F). exists "", (String dec ""). repeat split; auto. constructor.
      * injection E as <- <- <-. exists "", "". repeat split; auto. constructor.
Qed.

(** The other way. *)
Definition stops (p : ascii -> bool) (s : string) : Prop := forall c r, s = String c r -> p c = false.

Lemma scan_behind_of dec grp digit fp rest : all_chars is_digit fp = true -> stops is_digit rest ->
  scan_digits dec grp digit true (fp ++ rest) = ("", fp, rest).
Proof.
  revert digit. induction fp as [|c fp IH]; intros digit F H.
  - cbn. destruct rest as [|c r]; [reflexivity|]. cbn [scan_digits]. rewrite (H c r eq_refl), !andb_false_r. reflexivity.
  - cbn in F. apply andb_true_iff in F as [D F]. cbn [append scan_digits]. rewrite D, IH; auto.
Qed.

Definition no_sep (dec grp : ascii) (rest : string) : Prop :=
  stops is_digit rest /\ stops (Ascii.eqb dec) rest /\ stops (Ascii.eqb grp) rest.

Lemma scan_tail_of dec grp it ip pt fp rest : is_digit dec = false -> is_digit grp = false -> dec <> grp -> separated grp it ip ->
  all_chars is_digit fp = true -> (pt = String dec "" \/ pt = "" /\ fp = "") -> no_sep dec grp rest ->
  scan_digits dec grp true false (it ++ pt ++ fp ++ rest) = (ip, fp, rest).
Proof.
  intros ND NG DG S F P (H1 & H2 & H3). induction S as [|c r ds D S IH|r ds S IH]; cbn [append].
  - destruct P as [->|[-> ->]]; cbn [append].
    + cbn [scan_digits]. rewrite ND, Ascii.eqb_refl. cbn [negb andb]. now apply scan_behind_of.
    + destruct rest as [|c r]; [reflexivity|]. cbn [scan_digits]. rewrite (H1 c r eq_refl).
      rewrite (Ascii.eqb_sym c dec), (H2 c r eq_refl), (Ascii.eqb_sym c grp), (H3 c r eq_refl). reflexivity.
  - cbn [scan_digits]. rewrite D, IH. reflexivity.
  - cbn [scan_digits]. rewrite NG. destruct (Ascii.eqb_spec grp dec) as [E|]; [now destruct DG|]. rewrite Ascii.eqb_refl. cbn [negb andb]. exact IH.
Qed.

Lemma scan_of dec grp it ip pt fp rest : is_digit dec = false -> is_digit grp = false -> dec <> grp -> grouped grp it ip ->
  all_chars is_digit fp = true -> (pt = String dec "" \/ pt = "" /\ fp = "") -> ip ++ fp <> "" -> no_sep dec grp rest ->
  scan_digits dec grp false false (it ++ pt ++ fp ++ rest) = (ip, fp, rest).
Proof.
  intros ND NG DG G F P NE H. destruct G as [|c r ds D S]; cbn [append].
  - destruct P as [->|[-> ->]]; [|now destruct NE]. cbn [append scan_digits]. rewrite ND, Ascii.eqb_refl. cbn [negb andb].
    apply scan_behind_of; [exact F|apply H].
  - cbn [scan_digits]. rewrite D, (scan_tail_of dec grp r ds pt fp rest); auto.
Qed.

(** ** Exponents and signs *)

Lemma scan_exponent_sound s e rest : scan_exponent s = (e, rest) -> exists ex, s = ex ++ rest /\ exponent ex e.
Proof.
  unfold scan_exponent. destruct s as [|c r]; [intros E; injection E as <- <-; exists ""; split; [reflexivity|constructor]|].
  destruct (Ascii.eqb c "e" || Ascii.eqb c "E") eqn:C; [|intros E; injection E as <- <-; exists ""; split; [reflexivity|constructor]].
  set (p := match r with
            | "" => (false, r)
            | String d r' => if Ascii.eqb d "-" then (true, r') else if Ascii.eqb d "+" then (false, r') else (false, r)
            end).
  assert (P : exists sg, r = sg ++ snd p /\ sign_text sg (fst p)).
  { unfold p. destruct r as [|d r]; [exists ""; split; [reflexivity|constructor]|].
    destruct (Ascii.eqb_spec d "-") as [->|]; [exists "-"; split; [reflexivity|constructor]|].
    destruct (Ascii.eqb_spec d "+") as [->|]; [exists "+"; split; [reflexivity|constructor]|].
    exists ""; split; [reflexivity|constructor]. }
  destruct p as [neg r1] eqn:Ep. cbn [fst snd] in P. destruct P as (sg & -> & SG).
  destruct (span is_digit r1) as [es r2] eqn:E2. apply span_parts in E2 as (-> & D & _).
  destruct (String.eqb_spec es "") as [|N].
  { intros E; injection E as <- <-; exists ""; split; [reflexivity|constructor]. }
  intros E. injection E as <- <-.
  exists (String c (sg ++ es)). split; [cbn; now rewrite string_app_assoc|]. constructor; [|exact SG|repeat split; auto].
  apply orb_true_iff in C as [C|C]; apply Ascii.eqb_eq in C; auto.
Qed.

Lemma scan_exponent_part s e rest : exponent_part s = Ok (e, rest) -> scan_exponent s = (e, rest).
Proof.
  unfold exponent_part, scan_exponent. destruct s as [|c r]; [intros E; now injection E as <- <-|].
  destruct (Ascii.eqb c "e" || Ascii.eqb c "E"); [|intros E; now injection E as <- <-].
  destruct (match r with "" => _ | _ => _ end) as [neg r1]. destruct (span is_digit r1) as [es r2].
  destruct (String.eqb es ""); [discriminate|]. intros E. now injection E as <- <-.
Qed.

Lemma skip_sign_sound s neg r : skip_sign s = (neg, r) -> exists sg, s = sg ++ r /\ sign_text sg neg.
Proof.
  unfold skip_sign. destruct s as [|c s]; [intros E; injection E as <- <-; exists ""; split; [reflexivity|constructor]|].
  destruct (Ascii.eqb_spec c "-") as [->|]; [intros E; injection E as <- <-; exists "-"; split; [reflexivity|constructor]|].
  destruct (Ascii.eqb_spec c "+") as [->|]; [intros E; injection E as <- <-; exists "+"; split; [reflexivity|constructor]|].
  intros E; injection E as <- <-; exists ""; split; [reflexivity|constructor].
Qed.

Lemma skip_sign_of sg neg r : sign_text sg neg -> stops (fun c => Ascii.eqb c "-" || Ascii.eqb c "+") r -> skip_sign (sg ++ r) = (neg, r).
Proof.
  intros S H. destruct S; cbn; try reflexivity. destruct r as [|c r]; [reflexivity|]. cbn. specialize (H c r eq_refl).
  apply orb_false_iff in H as [H1 H2]. now rewrite H1, H2.
Qed.

(** ** Numbers *)

Lemma number_parse_sound round ct s v : number_parse round ct s = Ok v -> number_in ct round s v \/ v = S754_nan /\ nan_symbol ct s = true.
Proof.
  unfold number_parse. destruct (span is_space s) as [w s0] eqn:W. cbn [snd]. apply span_parts in W as (E & W & _).
  destruct (skip_sign s0) as [neg s1] eqn:S1. apply skip_sign_sound in S1 as (sg & -> & SG).
  destruct (scan_digits _ _ _ _ s1) as [[ip fp] s2] eqn:S2. apply scan_sound in S2 as (it & pt & -> & G & F & P).
  destruct (scan_exponent s2) as [e rest] eqn:S3. apply scan_exponent_sound in S3 as (ex & -> & X).
  assert (GD : all_chars is_digit ip = true).
  { clear -G. destruct G as [|c r ds D S]; [reflexivity|]. cbn. rewrite D. cbn. induction S as [|c' r ds' D' S IH|]; cbn; rewrite ?D'; auto. }
  destruct (negb (String.eqb (ip ++ fp) "") && all_chars is_space rest) eqn:Q.
  - apply andb_true_iff in Q as [Q1 Q2]. apply eqb_empty in Q1.
    intros H. left. exists w, sg, neg, it, ip, pt, fp, ex, e, (digits_val (ip ++ fp)), rest. rewrite seps. cbn [fst snd].
    assert (HV : v = round neg (digits_val (ip ++ fp)) (e - Z.of_nat (String.length fp)) /\ (forall b, v <> S754_infinity b)).
    { destruct (round _ _ _); try discriminate; injection H as <-; split; auto; discriminate. }
    split; [rewrite E; reflexivity|]. do 6 (split; [assumption|]).
    split; [repeat split; auto; now rewrite all_chars_app, GD|]. split; [exact X|exact HV].
  - destruct (nan_symbol ct s) eqn:N; [|discriminate]. intros H. injection H as <-. now right.
Qed.

(** In English and in the invariant culture every number is accepted. *)
Lemma number_parse_complete round ct s v : ct <> PlPl -> number_in ct round s v -> number_parse round ct s = Ok v.
Proof.
  intros NP (w & sg & neg & it & ip & pt & fp & ex & e & m & w' & -> & W & W' & SG & G & F & P & (N & _ & <-) & X & V & I).
  rewrite seps in *. cbn [fst snd] in *.
  assert (Hx : forall c r, ex ++ w' = String c r -> c = "e"%char \/ c = "E"%char \/ is_space c = true).
  { intros c r Q. destruct X as [|c' sg' neg' es m C SG' D']; cbn in Q.
    - right; right. subst w'. cbn in W'. now apply andb_true_iff in W' as [W' _].
    - injection Q as <- _. tauto. }
  assert (ND : is_digit (decimal_sep ct) = false) by (destruct ct; reflexivity).
  assert (NG : is_digit (group_sep ct) = false) by (destruct ct; reflexivity).
  assert (DG : decimal_sep ct <> group_sep ct) by (destruct ct; discriminate).
  assert (NS : no_sep (decimal_sep ct) (group_sep ct) (ex ++ w')).
  { repeat split; intros c r Q; destruct (Hx c r Q) as [->|[->|S]]; try reflexivity; try (destruct ct; reflexivity).
    - destruct (is_digit c) eqn:D; [|reflexivity]. rewrite (is_digit_not_space c D) in S. discriminate.
    - destruct ct; [|now destruct NP|]; cbn [decimal_sep group_sep]; (destruct (Ascii.eqb_spec "." c) as [<-|]; [vm_compute in S; discriminate S|reflexivity]).
    - destruct ct; [|now destruct NP|]; cbn [decimal_sep group_sep]; (destruct (Ascii.eqb_spec "," c) as [<-|]; [vm_compute in S; discriminate S|reflexivity]). }
  assert (Hd : forall c r, it ++ pt ++ fp ++ ex ++ w' = String c r -> is_digit c = true \/ c = decimal_sep ct).
  { intros c r Q. destruct G as [|c' r' ds D S]; cbn in Q.
    - destruct P as [->|[-> ->]]; [|now destruct N]. cbn in Q. injection Q as <- _. now right.
    - injection Q as <- _. now left. }
  unfold number_parse.
  assert (E1 : snd (span is_space (w ++ sg ++ it ++ pt ++ fp ++ ex ++ w')) = sg ++ it ++ pt ++ fp ++ ex ++ w').
  { apply span_blank_app; [exact W|]. destruct SG; cbn [append]; try reflexivity.
    destruct (it ++ pt ++ fp ++ ex ++ w') as [|c r] eqn:Q; [exact Logic.I|]. cbn. destruct (Hd c r eq_refl) as [D| ->].
    - now apply is_digit_not_space.
    - destruct ct; reflexivity. }
  rewrite E1. rewrite (skip_sign_of sg neg _ SG).
  2: { intros c r Q. destruct (Hd c r Q) as [D| ->]; [|destruct ct; reflexivity].
       destruct (Ascii.eqb_spec c "-") as [->|]; [discriminate|]. destruct (Ascii.eqb_spec c "+") as [->|]; [discriminate|]. reflexivity. }
  rewrite (scan_of _ _ it ip pt fp (ex ++ w')); auto.
  rewrite (scan_exponent_part _ _ _ (exponent_part_of ex e w' X W')).
  assert (Q : negb (String.eqb (ip ++ fp) "") && all_chars is_space w' = true).
  { apply andb_true_iff. split; [now apply eqb_empty|exact W']. }
  rewrite Q. rewrite <- V. destruct v; try reflexivity. now destruct (I s).
Qed.
