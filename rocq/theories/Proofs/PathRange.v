(** The extremes of the positions. *)
From Coq Require Import Structures.OrderedTypeEx Sorting.Sorted.
From Verif Require Import Model.Base Model.Attr Model.Double Model.Macro Model.Verifiers Model.Splitter Model.PathGeom Model.PathCalc
  Spec.SplitSpec Spec.PathSpec Proofs.Tactics Proofs.StringFacts Proofs.TextProofs Proofs.FloatOrder Proofs.PathFrame Proofs.PathTotals
  Proofs.PathVisit Proofs.PathReset.

Open Scope list_scope.

(** ** Sorted maps *)

Definition key_lt {A} (a b : string * A) : Prop := String.ltb (fst a) (fst b) = true.

Lemma ltb_spec a b : String.ltb a b = true <-> String_as_OT.lt a b.
Proof.
  unfold String.ltb. rewrite <- String_as_OT.cmp_lt. unfold String_as_OT.cmp.
  destruct (String.compare a b); split; congruence.
Qed.

Lemma ltb_trans a b c : String.ltb a b = true -> String.ltb b c = true -> String.ltb a c = true.
Proof. rewrite !ltb_spec. apply String_as_OT.lt_trans. Qed.

Lemma ltb_irrefl a : String.ltb a a = false.
Proof. destruct (String.ltb a a) eqn:E; [|reflexivity]. apply ltb_spec in E. apply String_as_OT.lt_not_eq in E. destruct (E eq_refl). Qed.

Lemma ltb_total a b : String.eqb a b = false -> String.ltb a b = false -> String.ltb b a = true.
Proof.
  intros E L. unfold String.ltb in *. rewrite String.compare_antisym. destruct (String.compare a b) eqn:C; cbn; [|discriminate|reflexivity].
  apply String.compare_eq_iff in C as ->. rewrite String.eqb_refl in E. discriminate.
Qed.

Lemma mset_In {A} k (x : A) m : forall e, In e (mset k x m) -> e = (k, x) \/ In e m.
Proof.
  induction m as [|[k' v'] m IH]; intros e I; cbn [mset] in I.
  - destruct I as [<-|[]]. auto.
  - destruct (String.eqb k k'); [destruct I as [<-|I]; cbn; auto|]. destruct (String.ltb k k').
    + destruct I as [<-|I]; auto.
    + destruct I as [<-|I]; [right; left; reflexivity|]. destruct (IH e I); [auto|right; right; assumption].
Qed.

Lemma mset_sorted {A} k (x : A) m : StronglySorted key_lt m -> StronglySorted key_lt (mset k x m).
Proof.
  induction m as [|[k' v'] m IH]; intros S; cbn [mset].
  - constructor; constructor.
  - inversion S as [|? ? S1 S2]; subst. destruct (String.eqb k k') eqn:E.
    + apply String.eqb_eq in E as <-. constructor; assumption.
    + destruct (String.ltb k k') eqn:L.
      * constructor; [exact S|]. constructor; [exact L|]. rewrite Forall_forall in *. intros e I.
        unfold key_lt in *. cbn [fst] in *. eapply ltb_trans; [exact L|]. apply (S2 e I).
      * constructor; [apply IH, S1|]. rewrite Forall_forall in *. intros e I. apply mset_In in I as [->|I]; [|apply S2, I].
        unfold key_lt. cbn [fst]. apply ltb_total; assumption.
Qed.

Lemma sorted_map {A} (m : list (string * A)) : StronglySorted key_lt m -> is_map m.
Proof.
  induction 1 as [|[k x] m S IH F]; [constructor|]. cbn. constructor; [|exact IH].
  intros I. apply in_map_iff in I as [[k' x'] [E I]]. rewrite Forall_forall in F. apply F in I.
  unfold key_lt in I. cbn in *. subst. rewrite ltb_irrefl in I. discriminate.
Qed.

(** ** Values *)

Definition good_values (vs : dmap) : Prop :=
  is_map vs /\ forall w x, In (w, x) vs -> num x /\ (In w ["X"; "Y"; "Z"]%string -> fin x).

Lemma span_digits p s a b : span p s = (a, b) -> all_chars p a = true.
Proof.
  revert a b. induction s as [|c s IH]; intros a b E; cbn in E; [inv E; reflexivity|].
  destruct (p c) eqn:C; [|inv E; reflexivity]. destruct (span p s) as [a1 b1]. inv E. cbn. rewrite C. eapply IH. reflexivity.
Qed.

Lemma stod_fin s x : stod s = Ok x -> fin x.
Proof.
  unfold stod. destruct (span is_space s) as [a s1].
  destruct (match s1 with EmptyString => _ | String c r => _ end) as [neg s2]. destruct (span is_digit s2) as [ip s3] eqn:EI.
  destruct (match s3 with EmptyString => _ | String c r => _ end) as [fp s4] eqn:EF.
  destruct (_ =? _)%nat; [discriminate|]. apply span_digits in EI.
  assert (FD : all_chars is_digit fp = true).
  { destruct s3 as [|c r]; [inv EF; reflexivity|]. destruct (Ascii.eqb c "."); [apply span_digits in EF; exact EF|inv EF; reflexivity]. }
  pose proof (ratio_num neg (digits_val (ip ++ fp)%string) (10 ^ Z.of_nat (String.length fp)) (digits_val_nonneg _ ltac:(rewrite all_chars_app, EI, FD; reflexivity))
                ltac:(apply Z.pow_pos_nonneg; lia)) as N.
  destruct (d_of_ratio _ _ _) as [sx|sx| |sx mx ex]; intros H.
  - destruct (_ =? 0); inv H. exists sx, 1%positive, 0. auto.
  - discriminate.
  - exfalso. apply N. reflexivity.
  - inv H. exists sx, mx, ex. auto.
Qed.

Lemma fin_num x : fin x -> num x.
Proof. intros (s & m & e & [-> | ->]); discriminate. Qed.

Lemma reading_good d x : reading d x -> num x /\ (d_word d <> "P"%string -> fin x).
Proof.
  intros [_ (y & E & ->)]. apply stod_fin in E.
  destruct (String.eqb_spec (d_word d) "P") as [P|P]; cbn [andb]; [|split; [apply fin_num, E|auto]].
  destruct (d_dot d); [split; [apply fin_num, E|auto]|]. split; [|contradiction].
  apply ddiv_num; [exact E|]. vm_compute. eauto.
Qed.

Lemma found_good mc b v : foldM (visit_attr mc) found_init b = Ok v -> good_values (v_values v).
Proof.
  intros E. destruct (visit_values_fold mc b _ _ E) as [_ H].
  assert (G : StronglySorted key_lt (v_values v) /\
              forall w x, In (w, x) (v_values v) -> num x /\ (In w ["X"; "Y"; "Z"]%string -> fin x)).
  { apply (H eq_refl (fun m => StronglySorted key_lt m /\ forall w x, In (w, x) m -> num x /\ (In w ["X"; "Y"; "Z"]%string -> fin x))).
    - split; [constructor|intros w x []].
    - intros m d x I R [S F]. split; [apply mset_sorted, S|]. intros w y IM. apply mset_In in IM as [IM|IM]; [|apply F, IM].
      injection IM as -> ->. apply reading_good in R as [R1 R2]. split; [exact R1|]. intros W. apply R2. intros P. rewrite P in W.
      cbn in W. intuition discriminate. }
  destruct G as [G1 G2]. split; [apply sorted_map, G1|exact G2].
Qed.

(** ** One copying *)

(** [w] stays, or is now at [x]. *)
Definition step_of (w : string) (p p' : dmap) (r r' : word_range_map) : Prop :=
  (assoc w p' = assoc w p /\ assoc w r' = assoc w r) \/
  exists x, assoc w p' = Some x /\
    assoc w r' = Some (match assoc w r with Some t => widen t x | None => (x, x, x) end) /\
    ((forall t, assoc w r = Some t -> num (snd (fst t))) -> num x).

Lemma copy_one g prog other w x p r p' r' : num x -> (In w ["X"; "Y"; "Z"]%string -> fin x) ->
  copy_value g prog other (p, r) (w, x) = (p', r') ->
  step_of w p p' r r' /\ forall w', w' <> w -> assoc w' p' = assoc w' p /\ assoc w' r' = assoc w' r.
Proof.
  intros N F E. unfold copy_value in E.
  destruct (_ && (is_drill_cycle g || _)); [inv E; split; [left|]; auto|].
  destruct (_ || String.eqb w "L"); [inv E; split; [left|]; auto|].
  destruct (is_ignored other w); [inv E; split; [left|]; auto|].
  destruct (assoc w r) as [[[mn cur] mx]|] eqn:R; inv E; split.
  - right. rewrite !assoc_mset, String.eqb_refl, R. eexists. split; [reflexivity|]. split; [reflexivity|].
    intros H. specialize (H _ eq_refl). cbn in H. destruct (prog =? 91); cbn [andb]; [|exact N].
    match goal with |- num (if ?b then _ else _) => change b with (mem_str w ["X"; "Y"; "Z"]%string) end.
    destruct (mem_str w ["X"; "Y"; "Z"]) eqn:M; [|exact N]. apply dadd_num; [exact H|apply F]. apply mem_str_In, M.
  - intros w' W. apply String.eqb_neq in W. rewrite !assoc_mset, W. auto.
  - right. rewrite !assoc_mset, String.eqb_refl, R. exists x. auto.
  - intros w' W. apply String.eqb_neq in W. rewrite !assoc_mset, W. auto.
Qed.

Lemma copy_all g prog other vs : good_values vs -> forall p r p' r',
  fold_left (copy_value g prog other) vs (p, r) = (p', r') -> forall w, step_of w p p' r r'.
Proof.
  intros [ND G]. induction vs as [|[k x] vs IH]; intros p r p' r' E w; [inv E; left; auto|].
  cbn [fold_left] in E. destruct (copy_value g prog other (p, r) (k, x)) as [p1 r1] eqn:E1.
  destruct (G k x (or_introl eq_refl)) as [NX FX]. destruct (copy_one _ _ _ _ _ _ _ _ _ NX FX E1) as [S O].
  inversion ND as [|? ? NI ND']; subst.
  assert (IH' : forall w, step_of w p1 p' r1 r') by (apply (IH ND'); [intros; apply G; right; assumption|exact E]).
  destruct (String.string_dec w k) as [->|W].
  - assert (ST : assoc k p' = assoc k p1 /\ assoc k r' = assoc k r1).
    { clear IH IH' E1 S O ND ND' G NX FX. revert p1 r1 E. induction vs as [|[k' x'] vs IH]; intros p1 r1 E; [inv E; auto|].
      cbn [fold_left] in E. cbn in NI. destruct (copy_value g prog other (p1, r1) (k', x')) as [p2 r2] eqn:E2.
      assert (K : k <> k') by (intros ->; apply NI; left; reflexivity).
      destruct (IH (fun I => NI (or_intror I)) _ _ E) as [-> ->]. apply String.eqb_neq in K. unfold copy_value in E2.
      destruct (_ && (is_drill_cycle g || _)); [inv E2; auto|].
      destruct (_ || String.eqb k' "L"); [inv E2; auto|]. destruct (is_ignored other k'); [inv E2; auto|].
      destruct (assoc k' r1) as [[[mn cur] mx]|]; inv E2; rewrite !assoc_mset, K; auto. }
    unfold step_of in *. destruct ST as [-> ->]. exact S.
  - destruct (O w W) as [O1 O2]. specialize (IH' w). unfold step_of in *. rewrite O1, O2 in IH'. exact IH'.
Qed.

(** ** One block *)

Definition stands (c : calc) := (c_prev c, c_range c).

Section Range.
Variables atan log cabs : dbl -> dbl.
Variable stale : Z.
Variable mc : machine.
Hypothesis base : good_values (mc_base_point mc).
Hypothesis exchange : good_values (mc_exchange_point mc).

Definition one_step (c c' : calc) : Prop := forall w, step_of w (c_prev c) (c_prev c') (c_range c) (c_range c').

Lemma stays_step c c' : stands c' = stands c -> one_step c c'.
Proof. intros H w. unfold stands in H. injection H as -> ->. left. auto. Qed.

Lemma copy_step g prog other vs c c1 : good_values vs -> stands c1 = stands c -> one_step c (copy_on_return g prog other vs c1).
Proof.
  intros G E w. unfold stands in E. injection E as E1 E2. unfold copy_on_return.
  destruct (fold_left (copy_value g prog other) vs (c_prev c1, c_range c1)) as [p r] eqn:F. cbn [set_positions c_prev c_range].
  rewrite E1, E2 in F. exact (copy_all g prog other vs G _ _ _ _ F w).
Qed.

Lemma take_stands v t : keeps stands (take_tool mc v t).
Proof. unfold take_tool. keeps. apply keeps_upd. intros c. destruct (String.eqb _ _); reflexivity. Qed.

Lemma exchange_stands : keeps stands (exchange_times mc).
Proof. unfold exchange_times, add_time. keeps. Qed.

Lemma tool_stands v t c c' r : tool_change mc v t c = (c', r) ->
  stands c' = stands c \/ (r = Return /\ exists c1, stands c1 = stands c /\
    c' = copy_on_return (c_g c1) (c_prog c1) (v_other v) (v_values v) c1).
Proof.
  intros E. rewrite tool_change_parts in E. unfold mbind at 1 in E.
  pose proof (take_stands v t c) as K. destruct (take_tool mc v t c) as [c1 [a| |e]]; cbn [fst] in K;
    [|inv E; left; exact K|inv E; left; exact K].
  unfold mbind at 1 in E. 
  assert (K2 : keeps stands (when (cd_tool_executes (mc_cnc mc)) (exchange_times mc))) by (apply keeps_when, exchange_stands).
  specialize (K2 c1). destruct (when (cd_tool_executes (mc_cnc mc)) (exchange_times mc) c1) as [c2 [a2| |e]]; cbn [fst] in K2;
    [|inv E; left; congruence|inv E; left; congruence].
  unfold tool_restored, mbind, upd in E. destruct (tool_taken mc v); [inv E; left; transitivity (stands c2); [reflexivity|congruence]|].
  destruct (named_code v); [inv E; left; transitivity (stands c2); [reflexivity|congruence]|].
  unfold stop in E. injection E as <- <-. right. split; [reflexivity|].
  match goal with |- exists c1, _ /\ copy_on_return _ _ _ _ ?x = _ => exists x end. split; [|reflexivity]. transitivity (stands c2); [reflexivity|congruence].
Qed.

Lemma service_stands v : keeps stands (service_times mc v).
Proof. unfold service_times, exchange_times, add_time. keeps. Qed.

Lemma dwell_stands v : keeps stands (dwell v).
Proof. unfold dwell. keeps. Qed.

Lemma start_stands v c c' r : start_modes mc v c = (c', r) ->
  stands c' = stands c \/ (r = Return /\ exists c1, stands c1 = stands c /\
    c' = copy_on_return (c_g c1) (c_prog c1) (v_other v) (v_values v) c1).
Proof.
  unfold start_modes. intros E. unfold mbind at 1 in E.
  assert (K2 : keeps stands (when (to_exchange mc v || to_base v) (upd (set_g 0)))) by keeps.
  specialize (K2 c). destruct (when _ _ c) as [c2 [a2| |e]]; cbn [fst] in K2; [|inv E; auto|inv E; auto].
  unfold mbind at 1, get at 1 in E. destruct (c_auto c2 && _); [unfold mbind, upd in E; inv E; left; transitivity (stands c2); [reflexivity|congruence]|].
  destruct (_ && _); [|unfold ret in E; inv E; auto].
  unfold mbind, upd, stop in E. injection E as <- <-. right. split; [reflexivity|].
  match goal with |- exists c1, _ /\ copy_on_return _ _ _ _ ?x = _ => exists x end. split; [|reflexivity]. transitivity (stands c2); [reflexivity|congruence].
Qed.

Lemma opening_stands v c c' r : opening mc v c = (c', r) ->
  stands c' = stands c \/ (r = Return /\ exists c1, stands c1 = stands c /\
    c' = copy_on_return (c_g c1) (c_prog c1) (v_other v) (v_values v) c1).
Proof.
  unfold opening. intros E. destruct (service_time mc v c) as [c1 [E1 _]]. rewrite (bind_eq _ _ _ _ _ E1) in E.
  pose proof (service_stands v c) as K1. rewrite E1 in K1. cbn [fst] in K1.
  assert (D : forall c2, stands c2 = stands c -> (dwell v ;;; start_modes mc v) c2 = (c', r) ->
    stands c' = stands c \/ (r = Return /\ exists c1, stands c1 = stands c /\
      c' = copy_on_return (c_g c1) (c_prog c1) (v_other v) (v_values v) c1)).
  { intros c2 K2 E2. destruct (dwell_time v c2) as [c3 [E3 _]]. rewrite (bind_eq _ _ _ _ _ E3) in E2.
    pose proof (dwell_stands v c2) as K3. rewrite E3 in K3. cbn [fst] in K3.
    apply start_stands in E2 as [E2|[R [c4 [K4 E2]]]]; [left; congruence|right; split; [exact R|]]. exists c4. split; [congruence|exact E2]. }
  destruct (found_tool v) as [t|].
  - unfold mbind at 1 in E. destruct (tool_change mc v t c1) as [c2 r2] eqn:ET.
    apply tool_stands in ET as [K2|[-> [c3 [K3 E3]]]].
    + destruct r2; [apply (D c2); [congruence|exact E]|inv E; left; congruence|inv E; left; congruence].
    + inv E. right. split; [reflexivity|]. exists c3. split; [congruence|reflexivity].
  - unfold mbind at 1, ret at 1 in E. apply (D c1); [congruence|exact E].
Qed.

Lemma books_stands c c' : books c' = books c -> stands c' = stands c.
Proof. intros H. unfold books in H. unfold stands. congruence. Qed.

Lemma evaluate_step inch v c c' r : good_values (v_values v) ->
  evaluate_found atan log cabs stale mc inch v c = (c', r) -> one_step c c'.
Proof.
  intros G E. apply evaluate_cases in E as [[E NG]|[c1 [EO E]]].
  - apply opening_stands in E as [E|[_ [c2 [K E]]]]; [apply stays_step, E|]. subst c'. apply copy_step; [exact G|exact K].
  - apply opening_stands in EO as [K|[R _]]; [|discriminate].
    assert (B : forall c2 r2, motion atan log cabs mc v (current_modes mc v c1) c1 = (c2, r2) -> stands c2 = stands c).
    { intros c2 r2 E2. pose proof (motion_books atan log cabs mc v (current_modes mc v c1) c1) as B. rewrite E2 in B. cbn [fst] in B.
      rewrite <- K. apply books_stands, B. }
    destruct E as [[r1 [E R]]|[c2 [g [E EF]]]]; [apply stays_step, (B _ _ E)|].
    specialize (B _ _ E). apply finish_spec in EF as [c3 [E3 EF]].
    assert (K3 : stands c3 = stands c) by (rewrite <- B; subst c3; reflexivity). clear E3.
    destruct EF as [[-> _]|[_ ->]]; [apply stays_step, K3|].
    destruct (to_exchange mc v), (to_base v); apply copy_step; assumption.
Qed.

Lemma after_step s c : one_step c (fst (after atan log cabs stale mc s c)).
Proof.
  unfold after, evaluate. destruct (s_block s) as [|a b]; [apply stays_step; reflexivity|].
  destruct (foldM (visit_attr mc) found_init (a :: b)) as [v|e] eqn:EV; [|apply stays_step; reflexivity].
  destruct (evaluate_found atan log cabs stale mc (s_inch s) v (no_motion c)) as [c' r] eqn:E.
  apply evaluate_step in E; [exact E|apply (found_good mc _ _ EV)].
Qed.

(** ** Runs *)

Definition bounded (cs : list calc) (c : calc) (w : string) : Prop :=
  match assoc w (c_range c) with
  | None => forall c', In c' cs -> position w c' = None
  | Some (mn, cur, mx) =>
      num mn /\ num cur /\ num mx /\
      (forall c' y, In c' cs -> position w c' = Some y -> num y /\ dleb mn y = true /\ dleb y mx = true) /\
      position w c = Some cur /\
      (exists c', In c' cs /\ position w c' = Some mn) /\ (exists c', In c' cs /\ position w c' = Some mx)
  end.

Lemma bounded_step cs c c' : In c cs -> (forall w, bounded cs c w) -> one_step c c' -> forall w, bounded (cs ++ [c']) c' w.
Proof.
  intros IC B S w. specialize (B w). specialize (S w). unfold bounded in *.
  assert (IN : forall x, In x (cs ++ [c']) <-> In x cs \/ x = c').
  { intros x. rewrite in_app_iff. cbn. intuition congruence. }
  assert (LAST : In c' (cs ++ [c'])) by (apply IN; auto).
  destruct S as [[SP SR]|[x [SP [SR SN]]]].
  - rewrite SR. destruct (assoc w (c_range c)) as [[[mn cur] mx]|].
    + destruct B as (N1 & N2 & N3 & B1 & B2 & [c1 [I1 P1]] & [c2 [I2 P2]]).
      repeat (split; [assumption|]). split; [|split; [|split]].
      * intros x y I P. apply IN in I as [I| ->]; [apply (B1 x y I P)|]. apply (B1 c y IC). unfold position in *. congruence.
      * unfold position in *. congruence.
      * exists c1. split; [apply IN; auto|exact P1].
      * exists c2. split; [apply IN; auto|exact P2].
    + intros x I. apply IN in I as [I| ->]; [apply B, I|]. unfold position in *. rewrite SP. apply B, IC.
  - rewrite SR. destruct (assoc w (c_range c)) as [[[mn cur] mx]|].
    + destruct B as (N1 & N2 & N3 & B1 & B2 & [c1 [I1 P1]] & [c2 [I2 P2]]).
      assert (NX : num x) by (apply SN; intros t E; inv E; exact N2).
      destruct (B1 c cur IC B2) as (_ & LC & CL).
      assert (MM : dleb mn mx = true) by (exact (dleb_trans mn cur mx N1 N2 N3 LC CL)).
      unfold widen. destruct (dltb x mn) eqn:L.
      * apply dltb_leb in L. repeat (split; [assumption|]). split; [|split; [exact SP|split]].
        -- intros z y I P. apply IN in I as [I| ->].
           ++ destruct (B1 z y I P) as (NY & A1 & A2). split; [exact NY|split; [|exact A2]].
              exact (dleb_trans x mn y NX N1 NY L A1).
           ++ unfold position in P. rewrite SP in P. inv P. split; [exact NX|]. split; [apply dleb_refl, NX|].
              exact (dleb_trans y mn mx NX N1 N3 L MM).
        -- exists c'. split; [exact LAST|exact SP].
        -- exists c2. split; [apply IN; auto|exact P2].
      * apply (dltb_false x mn NX N1) in L. unfold dgtb. destruct (SFltb mx x) eqn:G.
        -- apply (dltb_leb mx x) in G. repeat (split; [assumption|]). split; [|split; [exact SP|split]].
           ++ intros z y I P. apply IN in I as [I| ->].
              ** destruct (B1 z y I P) as (NY & A1 & A2). split; [exact NY|split; [exact A1|]].
                 exact (dleb_trans y mx x NY N3 NX A2 G).
              ** unfold position in P. rewrite SP in P. inv P. split; [exact NX|]. split; [exact L|apply dleb_refl, NX].
           ++ exists c1. split; [apply IN; auto|exact P1].
           ++ exists c'. split; [exact LAST|exact SP].
        -- apply (dltb_false mx x N3 NX) in G. repeat (split; [assumption|]). split; [|split; [exact SP|split]].
           ++ intros z y I P. apply IN in I as [I| ->]; [exact (B1 z y I P)|].
              unfold position in P. rewrite SP in P. inv P. split; [exact NX|]. split; assumption.
           ++ exists c1. split; [apply IN; auto|exact P1].
           ++ exists c2. split; [apply IN; auto|exact P2].
    + assert (NX : num x) by (apply SN; intros t E; discriminate).
      repeat (split; [exact NX|]). split; [|split; [exact SP|split; exists c'; (split; [exact LAST|exact SP])]].
      intros z y I P. apply IN in I as [I| ->]; [rewrite (B z I) in P; discriminate|].
      unfold position in P. rewrite SP in P. inv P. split; [exact NX|]. split; apply dleb_refl, NX.
Qed.

Lemma bounded_run l : forall cs c, In c cs -> (forall w, bounded cs c w) ->
  forall w, bounded (cs ++ map fst (run atan log cabs stale mc c l)) (final c (run atan log cabs stale mc c l)) w.
Proof.
  induction l as [|s l IH]; intros cs c IC B w; cbn [run map].
  - rewrite app_nil_r. apply B.
  - rewrite final_cons. set (c1 := fst (after atan log cabs stale mc s c)).
    replace (cs ++ c1 :: map fst (run atan log cabs stale mc c1 l))
      with ((cs ++ [c1]) ++ map fst (run atan log cabs stale mc c1 l)) by (rewrite <- app_assoc; reflexivity).
    apply IH; [apply in_elt|]. apply (bounded_step cs c c1 IC B). apply after_step.
Qed.

Lemma bounded_fresh c : fresh mc c -> forall w, bounded [c] c w.
Proof.
  intros F.
  assert (S : exists c0, c_prev c0 = [] /\ c_range c0 = [] /\ one_step c0 c).
  { destruct F as [->|[c0 ->]]; unfold calc_new, calc_reset; eexists; (split; [|split; [|apply copy_step; [exact base|reflexivity]]]); reflexivity. }
  destruct S as (c0 & P0 & R0 & S). intros w.
  assert (B : forall w, bounded [c0] c0 w).
  { intros w0. unfold bounded. rewrite R0. cbn. intros c' [<-|[]]. unfold position. rewrite P0. reflexivity. }
  pose proof (bounded_step [c0] c0 c (or_introl eq_refl) B S w) as H. cbn [app] in H.
  unfold bounded in *. destruct (assoc w (c_range c)) as [[[mn cur] mx]|].
  - destruct H as (N1 & N2 & N3 & B1 & B2 & [c1 [I1 Q1]] & [c2 [I2 Q2]]). repeat (split; [assumption|]).
    assert (Z : forall x, position w c0 = Some x -> False) by (intros x; unfold position; rewrite P0; discriminate).
    split; [|split; [exact B2|split]].
    + intros c' y [<-|[]]. apply B1. right; left; reflexivity.
    + exists c. split; [left; reflexivity|]. destruct I1 as [<-|[<-|[]]]; [destruct (Z _ Q1)|exact Q1].
    + exists c. split; [left; reflexivity|]. destruct I2 as [<-|[<-|[]]]; [destruct (Z _ Q2)|exact Q2].
  - intros c' [<-|[]]. apply H. right; left; reflexivity.
Qed.

End Range.

Lemma points_good (m : dmap) : is_map m -> finite_points m -> good_values m.
Proof.
  intros N F. split; [exact N|]. intros w x I. destruct (F w x I) as (s & f & e & H).
  assert (G : fin x) by (exists s, f, e; exact H). split; [apply fin_num, G|auto].
Qed.

Theorem extremes_bracket : forall atan log cabs stale mc, is_map (mc_base_point mc) -> finite_points (mc_base_point mc) ->
  is_map (mc_exchange_point mc) -> finite_points (mc_exchange_point mc) ->
  forall c l w, fresh mc c ->
  let rs := run atan log cabs stale mc c l in
  let states := c :: map fst rs in
  match extremes w (final c rs) with
  | Some (mn, mx) =>
      (forall c' y, In c' states -> position w c' = Some y -> dleb mn y = true /\ dleb y mx = true) /\
      (exists c', In c' states /\ position w c' = Some mn) /\ (exists c', In c' states /\ position w c' = Some mx)
  | None => forall c', In c' states -> position w c' = None
  end.
Proof.
  intros atan log cabs stale mc M1 F1 M2 F2 c l w F rs states.
  pose proof (points_good _ M1 F1) as G1. pose proof (points_good _ M2 F2) as G2.
  pose proof (bounded_run atan log cabs stale mc G1 G2 l [c] c (or_introl eq_refl) (bounded_fresh mc G1 c F) w) as B.
  fold rs in B. change ([c] ++ map fst rs) with states in B. unfold bounded, extremes in *.
  destruct (assoc w (c_range (final c rs))) as [[[mn cur] mx]|]; [|exact B].
  destruct B as (_ & _ & _ & B1 & _ & B2 & B3). split; [|split; assumption].
  intros c' y I P. destruct (B1 c' y I P) as (_ & A). exact A.
Qed.
