(** The words of a line without brackets and macros have their numbers. *)
From Verif Require Import Model.Base Model.Attr Model.Double Model.Grammar Spec.Text Spec.GrammarSpec Spec.DocumentSpec Spec.EscapeSpec.
From Verif Require Import Proofs.Tactics Proofs.TextProofs Proofs.StringFacts Proofs.GrammarLex Proofs.GrammarTail Proofs.GrammarProofs Proofs.PrintProofs Proofs.StatusProofs.
Local Open Scope string_scope.
Local Open Scope Z_scope.

(** ** Numbers *)

Lemma in_set_pm c : in_set "-+" c = true -> c = "-"%char \/ c = "+"%char.
Proof. destruct c as [[] [] [] [] [] [] [] []]; (discriminate || auto). Qed.

Lemma stoi_reported s e : s <> "" -> all_chars is_digit s = true -> stoi s = Exc e -> e = EOutOfRange.
Proof.
  intros N A H. rewrite (stoi_denotes s (digits_val s)) in H by (repeat split; auto). destruct (_ <? _); inv H; reflexivity.
Qed.

(** [stod] finds a digit behind a sign and digits or a point. *)
Lemma stod_reported sg ip (dot : bool) fp e : match sg with Some c => in_set "-+" c = true | None => True end ->
  all_chars is_digit ip = true -> all_chars is_digit fp = true -> ip ++ (if dot then fp else "") <> "" ->
  stod (opt_chr sg ++ ip ++ (if dot then String "." fp else "")) = Exc e -> e = EOutOfRange.
Proof.
  intros S A B N. unfold stod. set (t := if dot then String "." fp else "").
  assert (NS : match ip ++ t with String c _ => is_space c = false /\ Ascii.eqb c "-" = false /\ Ascii.eqb c "+" = false | "" => False end).
  { destruct ip as [|c ip]; cbn.
    - unfold t. destruct dot; [repeat split|]. now contradiction N.
    - cbn in A. apply andb_true_iff in A as [A _]. split; [now apply digit_not_space|now apply digit_not_sign]. }
  assert (H1 : span is_space (opt_chr sg ++ ip ++ t) = ("", opt_chr sg ++ ip ++ t)).
  { apply span_none. destruct sg as [c|]; cbn [opt_chr append].
    - apply in_set_pm in S as [-> | ->]; reflexivity.
    - destruct (ip ++ t); [exact I|apply NS]. }
  rewrite H1.
  assert (H2 : exists neg, match opt_chr sg ++ ip ++ t with
               | "" => (false, opt_chr sg ++ ip ++ t)
               | String c r => if (c =? "-")%char then (true, r) else if (c =? "+")%char then (false, r) else (false, opt_chr sg ++ ip ++ t)
               end = (neg, ip ++ t)).
  { destruct sg as [c|]; cbn [opt_chr append].
    - apply in_set_pm in S as [-> | ->]; eexists; reflexivity.
    - destruct (ip ++ t) as [|c r]; [contradiction|]. destruct NS as (_ & -> & ->). eexists; reflexivity. }
  destruct H2 as [neg ->].
  rewrite (span_app is_digit ip t A) by (unfold t; destruct dot; exact I || reflexivity).
  assert (H3 : exists r, match t with
               | "" => ("", t)
               | String c r => if (c =? ".")%char then span is_digit r else ("", t)
               end = (if dot then fp else "", r)).
  { unfold t. destruct dot; [|eexists; reflexivity]. rewrite Ascii.eqb_refl, (span_all _ _ B). eexists; reflexivity. }
  destruct H3 as [r ->].
  destruct (Nat.eqb_spec (String.length ip + String.length (if dot then fp else "")) 0) as [L|L].
  { exfalso. apply N. destruct ip, (if dot then fp else ""); try discriminate. reflexivity. }
  intro H. destruct (d_of_ratio _ _ _); try destruct (_ =? 0); inv H; reflexivity.
Qed.

(** ** Places in a text *)

Definition suffix (r t : string) : Prop := exists b, t = b ++ r.

Lemma suffix_refl t : suffix t t. Proof. now exists "". Qed.
Lemma suffix_trans a b c : suffix a b -> suffix b c -> suffix a c.
Proof. intros [x ->] [y ->]. exists (y ++ x). now rewrite string_app_assoc. Qed.
Lemma suffix_skip t : suffix (skip t) t. Proof. destruct (skip_spec t) as (b & E & _). now exists b. Qed.
Lemma suffix_app a t : suffix t (a ++ t). Proof. now exists a. Qed.
Lemma suffix_cons c t : suffix t (String c t). Proof. now exists (String c ""). Qed.
Lemma suffix_span p t : suffix (snd (span p t)) t.
Proof. pose proof (span_spec p t) as S. destruct (span p t) as [a b]. destruct S as (-> & _). apply suffix_app. Qed.
Lemma suffix_length r t : suffix r t -> (String.length r <= String.length t)%nat.
Proof. intros [b ->]. rewrite string_app_length. lia. Qed.

Lemma contains_app_r w a b : contains w b = true -> contains w (a ++ b) = true.
Proof. intro H. induction a as [|c a IH]; [exact H|]. cbn [append contains]. rewrite IH. apply orb_true_r. Qed.

Lemma contains_head w b : contains w (w ++ b) = true.
Proof. pose proof (prefix_app w b) as P. destruct (w ++ b) as [|c r]; cbn [contains]; rewrite P; reflexivity. Qed.

Lemma g_code_suffix r t n : suffix r t -> g_code r n -> g_code t n.
Proof. intros [x ->] (a & g & ds & b & -> & H). exists (x ++ a), g, ds, b. rewrite string_app_assoc. auto. Qed.

Lemma gap_blank b : all_chars is_blank b = true -> all_chars gap b = true.
Proof. induction b as [|c b IH]; cbn; [auto|]. intro H. apply andb_true_iff in H as [H1 H2]. unfold gap at 1. now rewrite H1, IH. Qed.

(** ** The part behind the address *)

Lemma number_tail_places wo w asg r d rest : number_tail wo w asg r = (d, rest) -> d_open d = None -> d_macro d = None ->
  suffix rest r /\ exists g b, r = g ++ opt_str (d_value d) ++ b /\ all_chars gap g = true /\
    (forall c q, b = String c q -> is_digit c = false).
Proof.
  unfold number_tail. intros H.
  destruct (opt_char "-+" (skip r)) as [sg R0] eqn:E0.
  destruct (if wo then opt_run (Ascii.eqb "[") (skip R0) else (None, R0)) as [op R1] eqn:E1.
  destruct (opt_char "#" (skip R1)) as [mac R2] eqn:E2.
  destruct (opt_run is_digit (skip R2)) as [v R3] eqn:E3.
  destruct (opt_char "." R3) as [dot R4] eqn:E4.
  destruct (opt_run is_digit R4) as [v2 R5] eqn:E5.
  destruct (opt_run (Ascii.eqb "]") (skip R5)) as [cl R6] eqn:E6. inv H. cbn [d_open d_macro d_value]. intros -> M.
  assert (mac = None) as -> by (destruct mac; [discriminate|reflexivity]). clear M.
  apply opt_char_spec in E0 as (P0 & Q0). apply opt_char_spec in E2 as (P2 & _). apply opt_run_spec in E3 as (P3 & _ & D3).
  apply opt_char_spec in E4 as (P4 & _). apply opt_run_spec in E5 as (P5 & _). apply opt_run_spec in E6 as (P6 & _).
  assert (X1 : exists b, R0 = b ++ R1 /\ all_chars is_blank b = true).
  { destruct wo; [|inv E1; now exists ""]. apply opt_run_spec in E1 as (P1 & _). cbn in P1. destruct (skip_spec R0) as (b & -> & B & _). exists b. rewrite <- P1. auto. }
  destruct X1 as (b1 & -> & B1). cbn in P2.
  destruct (skip_spec r) as (b0 & Er & B0 & _). destruct (skip_spec R1) as (b2 & E1' & B2 & _). destruct (skip_spec R2) as (b3 & E2' & B3 & _).
  assert (R : r = (b0 ++ opt_chr sg ++ b1 ++ b2 ++ b3) ++ opt_str v ++ R3).
  { rewrite Er, P0. rewrite E1' at 1. rewrite P2. rewrite E2' at 1. rewrite P3. now rewrite !string_app_assoc. }
  split.
  - rewrite R. eapply suffix_trans; [|apply suffix_app]. eapply suffix_trans; [|apply suffix_app]. rewrite P4.
    eapply suffix_trans; [|apply suffix_app]. rewrite P5. eapply suffix_trans; [|apply suffix_app].
    eapply suffix_trans; [|apply suffix_skip]. rewrite P6. apply suffix_app.
  - exists (b0 ++ opt_chr sg ++ b1 ++ b2 ++ b3), R3. split; [exact R|]. split.
    + rewrite !all_chars_app, (gap_blank _ B0), (gap_blank _ B1), (gap_blank _ B2), (gap_blank _ B3), !andb_true_r. cbn [andb].
      destruct sg as [c|]; [|reflexivity]. apply in_set_pm in Q0 as [-> | ->]; reflexivity.
    + intros c q ->. exact D3.
Qed.

(** ** One word *)

Section Words.
Variable wm : word_map.
Variables dec asg : list string.
Hypothesis words : forall w, In w dec \/ In w asg -> w <> "".
Hypothesis numbers : forall w, address w -> In w dec \/ In w asg -> assoc w wm <> None.
Hypothesis decimals : forall w g, assoc w wm = Some g -> 0 <= g_dto g.

(** The parts of a number, and where it comes from. *)
Definition number_read (d : decimal) : Prop :=
  match d_sign d with Some c => in_set "-+" c = true | None => True end /\
  run_of is_digit (d_value d) /\ run_of is_digit (d_value2 d) /\
  (d_dot d = None \/ d_dot d = Some "."%char) /\ (d_dot d = None -> d_value2 d = None) /\
  d_macro d = None /\ d_word d <> "#" /\
  (address (d_word d) -> d_value d = None -> d_value2 d <> None).

Definition word_read (t : string) (a : attr) : Prop :=
  match a with
  | ADec d => number_read d /\ contains (d_word d) t = true /\
              (d_word d = "G" -> forall v, d_value d = Some v -> g_code t (digits_val v))
  | _ => True
  end.

Lemma word_read_suffix r t a : suffix r t -> word_read r a -> word_read t a.
Proof.
  intros S. destruct a as [d| |]; cbn; auto. intros (N & C & G). split; [exact N|]. split.
  - destruct S as [b ->]. now apply contains_app_r.
  - intros W v V. eapply g_code_suffix; [exact S|]. now apply G.
Qed.

Lemma address_plain w : address w -> w <> "=" /\ calc_word w = false /\ w <> "/" /\ w <> "#".
Proof.
  intros (c & -> & R). assert (N : forall x, ~ 65 <= code x <= 90 -> String c "" <> String x "").
  { intros x Hx E. injection E as ->. contradiction. }
  repeat split; try (apply N; vm_compute; intuition congruence).
  unfold calc_word. apply mem_str_not_In. cbn. intros [E|[E|[E|[E|[]]]]]; symmetry in E; revert E; apply N; vm_compute; intuition congruence.
Qed.

Lemma verify_exc d s s' e : d_open d = None -> d_macro d = None -> run_of is_digit (d_value d) -> run_of is_digit (d_value2 d) ->
  verify wm d s = (s', VExc e) -> e = EOutOfRange.
Proof.
  intros O M V V2. unfold verify. destruct (assoc (d_word d) wm) as [g|] eqn:T; [|discriminate]. apply decimals in T.
  destruct (_ && _); [discriminate|]. rewrite M. destruct (_ && _).
  - unfold verify_optional. destruct (d_value d) as [v|]; [|destruct (_ || _ : bool); discriminate].
    destruct (stoi v) eqn:E; [destruct (_ || _ : bool); [discriminate|]; destruct (_ || _ : bool); discriminate|].
    intro H. injection H as _ <-. destruct V. eapply stoi_reported; eauto.
  - assert (VM : forall s s', verify_missing g d s <> (s', VExc e)) by (intros; unfold verify_missing; destruct (_ || _ : bool); discriminate).
    assert (VR : forall s s', g_dto g <> 0 -> verify_rest g d s = (s', VExc e) -> e = EOutOfRange).
    { intros s0 s1 NZ. unfold verify_rest. replace (0 <? g_dto g) with true by lia. destruct (d_value2 d) as [v2|] eqn:E2; cbn [is_some negb andb].
      - unfold verify_decimals. rewrite E2. cbn [opt_str]. destruct (d_dot d) as [c|]; [|discriminate].
        assert (K : match stoi v2 with Exc e0 => (s0, VExc e0) | Ok n => if (to_u32 n <? g_dfrom g) || (g_dto g <? to_u32 n)
          then (add_message ["ValueAfterDecimalSeparatorNotInRange"; v2; z_to_string (g_dfrom g); z_to_string (g_dto g); g_word g] s0, VFalse) else (s0, VTrue) end = (s1, VExc e) -> e = EOutOfRange).
        { destruct (stoi v2) eqn:E; [destruct (_ || _); discriminate|]. intro H. injection H as _ <-. destruct V2. eapply stoi_reported; eauto. }
        destruct c as [[] [] [] [] [] [] [] []]; try discriminate; exact K.
      - destruct (negb _); [intro H; now apply VM in H|discriminate]. }
    unfold verify_value. destruct (d_value d) as [v|].
    + destruct (stoi v) eqn:E; [|intro H; injection H as _ <-; destruct V; eapply stoi_reported; eauto].
      destruct (_ || _); [discriminate|]. destruct (_ && _); [discriminate|]. destruct (_ && _); [discriminate|].
      destruct (Z.eqb_spec (g_dto g) 0); [destruct (is_some _); discriminate|]. now apply VR.
    + destruct (Z.eqb_spec (g_dto g) 0); [intro H; now apply VM in H|]. now apply VR.
Qed.

Lemma verify_number d s s' : quiet s -> d_open d = None -> d_macro d = None -> (d_dot d = None -> d_value2 d = None) ->
  address (d_word d) -> assoc (d_word d) wm <> None -> verify wm d s = (s', VTrue) -> d_value d = None -> d_value2 d <> None.
Proof.
  intros Q O M D A T V N V2. destruct (address_plain _ A) as (E1 & E2 & E3 & E4).
  apply String.eqb_neq in E1, E3, E4. revert V. unfold verify. rewrite O. cbn [str_len]. unfold quiet in Q. rewrite Q.
  destruct (assoc (d_word d) wm) as [g|] eqn:G; [|contradiction]. apply decimals in G. destruct (_ && _); [discriminate|]. rewrite M, E3. cbn [andb].
  set (s1 := set_status _ _). assert (OC : open_cnt (gs_status s1) = 0) by reflexivity.
  assert (VM : verify_missing g d s1 <> (s', VTrue)) by (unfold verify_missing; rewrite OC, E1, E2; discriminate).
  unfold verify_value. rewrite N. destruct (Z.eqb_spec (g_dto g) 0) as [Z0|Z0]; [intro H; now apply VM|].
  unfold verify_rest. rewrite V2, N. replace (0 <? g_dto g) with true by lia. cbn [is_some negb andb]. intro H. now apply VM.
Qed.

Definition rule_read (t : string) (x : gstate * rule_result) : Prop :=
  match snd x with
  | ROk a r => word_read t a /\ suffix r t /\ (String.length r < String.length t)%nat
  | RExc e => e = EOutOfRange
  | _ => True
  end.

Lemma orelse_read t x f : rest_free x -> rule_read t x -> (forall s, quiet s -> rule_read t (f s)) -> rule_read t (orelse x f).
Proof. intros [Q _] R F. unfold orelse. destruct x as [s [| | |]]; auto. Qed.

Lemma checked_read wo w asgn t x b d r s : quiet s -> all_chars mark_free t = true -> t = x ++ b -> contains w t = true -> x <> "" -> w <> "#" ->
  (address w -> assoc w wm <> None) -> (w = "G" -> exists p g, x = p ++ "G" ++ g /\ all_chars gap g = true) ->
  number_tail wo w asgn b = (d, r) -> rule_read t (checked wm d r s).
Proof.
  intros Q A E C X NH T G NT. assert (B : all_chars mark_free b = true) by (rewrite E, all_chars_app in A; now apply andb_true_iff in A).
  destruct (number_tail_chars _ _ _ _ _ _ _ NT B) as [A1 _]. pose proof (number_tail_spec _ _ _ _ _ _ NT) as (W & _ & OK & _).
  destruct (mark_free_tail _ _ OK A1) as (O & M & Cl). destruct (number_tail_places _ _ _ _ _ _ NT O M) as (S & g & q & Eb & Gg & Dq).
  destruct OK as (Sg & _ & _ & _ & V & Dt & V2 & DV & _). unfold checked, rule_read.
  destruct (verify wm d s) as [s' [| |e]] eqn:Ve; cbn [snd]; [| exact I|].
  - assert (SL : suffix r t) by (rewrite E; eapply suffix_trans; [exact S|apply suffix_app]).
    split; [|split; [exact SL|]].
    + split; [|split].
      * unfold number_read. repeat split; auto; [congruence|]. rewrite W. intros Aw N. rewrite <- W in *. eapply verify_number; eauto.
      * now rewrite W.
      * rewrite W. intros Ew v Hv. destruct (G Ew) as (p & g1 & Ex & G1). exists p, (g1 ++ g), v, q. rewrite Hv in Eb. cbn in Eb. split; [|split; [|split]].
        -- rewrite E, Ex, Eb. now rewrite !string_app_assoc.
        -- now rewrite all_chars_app, G1, Gg.
        -- rewrite Hv in V. destruct V. repeat split; auto.
        -- exact Dq.
    + apply suffix_length in S. rewrite E, string_app_length. destruct x; [contradiction|]. cbn. lia.
  - eapply verify_exc; eauto.
Qed.

Lemma attribute_read t s : quiet s -> all_chars mark_free t = true -> rule_read t (line_attribute wm dec asg t s).
Proof.
  intros Q A. destruct (skip_spec t) as (bl & Et & Bl & _). pose proof (chars_skip _ _ A) as AS.
  assert (ST : suffix (skip t) t) by apply suffix_skip.
  assert (NF : forall s r, quiet s -> rest_free (s, RFail) /\ rule_read t (s, @RFail) /\ rule_read t (s, RThrow r)) by (intros; repeat split; auto).
  assert (CH : forall w c, all_chars mark_free (String c w) = true -> c <> "#"%char) by (intros w c H ->; discriminate H).
  assert (AD : forall w b, skip t = w ++ b -> w <> "" -> contains w t = true /\ w <> "#" /\ bl ++ w <> "" /\ t = (bl ++ w) ++ b).
  { intros w b E N. rewrite Et, E. split; [apply contains_app_r, contains_head|]. split.
    - intros ->. rewrite E in AS. discriminate AS.
    - split; [destruct bl; [exact N|discriminate]|]. now rewrite string_app_assoc. }
  assert (SL : forall o s, quiet s -> rest_free (slash_rule wm o t s) /\ rule_read t (slash_rule wm o t s)).
  { intros o s1 Q1. unfold slash_rule. destruct (skip t) as [|c b] eqn:E; [split; [split; [exact Q1|exact I]|exact I]|].
    destruct (ascii_dec c "/") as [->|N]; [|destruct c as [[] [] [] [] [] [] [] []]; try (split; [split; [exact Q1|exact I]|exact I]); now contradiction N].
    destruct (AD "/" b eq_refl ltac:(discriminate)) as (C1 & C2 & C3 & C4). apply andb_true_iff in AS as [_ AB].
    assert (K : rest_free (let '(d, r') := number_tail o "/" None b in checked wm d r' s1) /\ rule_read t (let '(d, r') := number_tail o "/" None b in checked wm d r' s1)).
    { destruct (number_tail o "/" None b) as [d r] eqn:NT. split.
      - refine (checked_free _ _ "/" _ _ _ _ _ Q1 _ AB NT). reflexivity.
      - refine (checked_read _ "/" _ t _ b _ _ _ Q1 A C4 C1 C3 C2 _ _ NT); [|discriminate]. intros Ad. apply address_plain in Ad. intuition congruence. }
    destruct (skip b) as [|x y]; [exact K|]. destruct x as [[] [] [] [] [] [] [] []]; try exact K. split; [split; [exact Q1|exact I]|exact I]. }
  unfold line_attribute. apply orelse_read.
  { split; [exact Q|]. cbn [snd]. destruct (char_rule t) as [|a r| |] eqn:E; auto.
    unfold char_rule in E. destruct t as [|c t0]; [discriminate|]. assert (c = ","%char) by (destruct c as [[] [] [] [] [] [] [] []]; (discriminate E || reflexivity)). subst c.
    apply andb_true_iff in A as [_ A]. pose proof (chars_span mark_free is_blank t0 A) as [_ S]. destruct (span is_blank t0) as [[|? ?] r']; [discriminate|]. inv E. exact S. }
  { unfold rule_read. cbn [snd]. destruct (char_rule t) as [|a r| |] eqn:E; auto.
    - unfold char_rule in E. destruct t as [|c t0]; [discriminate|]. assert (c = ","%char) by (destruct c as [[] [] [] [] [] [] [] []]; (discriminate E || reflexivity)). subst c.
      pose proof (suffix_span is_blank t0) as S. destruct (span is_blank t0) as [[|? ?] r'] eqn:ES; [discriminate|]. inv E. cbn in S. split; [exact I|].
      split; [eapply suffix_trans; [exact S|apply suffix_cons]|]. apply suffix_length in S. cbn. lia.
    - unfold char_rule in E. destruct t as [|c t0]; [discriminate|]. destruct c as [[] [] [] [] [] [] [] []]; try discriminate E. destruct (span is_blank t0) as [[|? ?] ?]; discriminate E. }
  clear s Q. intros s Q.
  assert (DF : rest_free (decimal_rule wm dec asg t s) /\ rule_read t (decimal_rule wm dec asg t s)).
  { unfold decimal_rule. destruct (assign_ahead asg (skip t)); [split; apply (NF s "" Q)|].
    destruct (sym_match dec (skip t)) as [w|] eqn:M; [|split; apply (NF s "" Q)]. destruct (sym_free _ _ _ M AS) as [W D].
    apply sym_match_some in M as (Iw & P & _). apply prefix_iff in P as (b & E). rewrite E in D |- *. rewrite drop_app in D |- *.
    destruct (AD w b E (words w (or_introl Iw))) as (C1 & C2 & C3 & C4).
    destruct (number_tail true w None b) as [d r] eqn:NT. split.
    - exact (checked_free _ _ _ _ _ _ _ _ Q W D NT).
    - refine (checked_read _ w _ t _ b _ _ _ Q A C4 C1 C3 C2 _ _ NT); [intro Ad; apply numbers; auto|].
      intros ->. exists bl, "". now rewrite string_app_nil. }
  apply orelse_read; [apply DF|apply DF|]. clear s Q DF. intros s Q.
  apply orelse_read; [now apply SL|now apply SL|]. clear s Q. intros s Q.
  assert (AF : rest_free (assignable_rule wm asg t s) /\ rule_read t (assignable_rule wm asg t s)).
  { unfold assignable_rule. destruct (sym_match asg (skip t)) as [w|] eqn:M; [|split; apply (NF s "" Q)]. destruct (sym_free _ _ _ M AS) as [W D].
    apply sym_match_some in M as (Iw & P & _). apply prefix_iff in P as (b & E). rewrite E in D |- *. rewrite drop_app in D |- *.
    destruct (AD w b E (words w (or_intror Iw))) as (C1 & C2 & C3 & C4).
    pose proof (chars_skip _ _ D) as DS. destruct (skip_spec b) as (b2 & Eb & Bb & _).
    destruct (skip b) as [|x y] eqn:Esk; [split; [split; [exact Q|exact I]|exact I]|].
    destruct (ascii_dec x "=") as [->|N]; [|destruct x as [[] [] [] [] [] [] [] []]; try (split; [split; [exact Q|exact I]|exact I]); now contradiction N].
    apply andb_true_iff in DS as [_ DY]. destruct (number_tail true w (Some "="%char) y) as [d r] eqn:NT. split.
    - exact (checked_free _ _ _ _ _ _ _ _ Q W DY NT).
    - refine (checked_read _ w _ t (bl ++ w ++ b2 ++ "=") y _ _ _ Q A _ C1 _ C2 _ _ NT).
      + rewrite Et, E, Eb. now rewrite !string_app_assoc.
      + destruct bl; [|discriminate]. cbn. destruct w; [now contradiction (words "" (or_intror Iw))|discriminate].
      + intro Ad; apply numbers; auto.
      + intros ->. exists bl, (b2 ++ "="). split; [reflexivity|]. rewrite all_chars_app, (gap_blank _ Bb). reflexivity. }
  apply orelse_read; [apply AF|apply AF|]. clear s Q AF. intros s Q.
  apply orelse_read; [now apply SL|now apply SL|]. clear s Q SL AD. intros s Q.
  apply orelse_read.
  { split; [exact Q|]. cbn [snd]. destruct (comment_rule t) as [|a r| |] eqn:E; auto. unfold comment_rule in E. destruct (skip t) as [|c b]; [discriminate|].
    assert (c = "("%char) by (destruct c as [[] [] [] [] [] [] [] []]; (discriminate E || reflexivity)). subst c. apply andb_true_iff in AS as [_ AB].
    pose proof (chars_span mark_free (fun c => negb (Ascii.eqb c ")")) b AB) as [_ S]. destruct (span (fun c => negb (Ascii.eqb c ")")) b) as [v [|q z]]; [discriminate|]. inv E.
    now apply andb_true_iff in S. }
  { unfold rule_read. cbn [snd]. unfold comment_rule. pose proof (suffix_length _ _ ST) as L. destruct (skip t) as [|c b]; [exact I|].
    destruct (ascii_dec c "(") as [->|N]; [|destruct c as [[] [] [] [] [] [] [] []]; try exact I; now contradiction N].
    pose proof (suffix_span (fun c => negb (Ascii.eqb c ")")) b) as S. destruct (span (fun c => negb (Ascii.eqb c ")")) b) as [v [|q z]]; [exact I|]. cbn in S. split; [exact I|].
    pose proof (suffix_trans _ _ _ (suffix_cons q z) S) as S2. split; [eapply suffix_trans; [exact S2|]; eapply suffix_trans; [apply suffix_cons|exact ST]|].
    apply suffix_length in S2. cbn in L. lia. }
  clear s Q. intros s Q. apply orelse_read.
  { split; [exact Q|]. cbn [snd]. destruct (start_program_rule t) as [|a r| |] eqn:E; auto. unfold start_program_rule in E. destruct (skip t) as [|c b]; [discriminate|].
    assert (c = "%"%char) by (destruct c as [[] [] [] [] [] [] [] []]; (discriminate E || reflexivity)). subst c. destruct (skip b); [|discriminate]. inv E. reflexivity. }
  { unfold rule_read. cbn [snd]. unfold start_program_rule. pose proof (suffix_length _ _ ST) as L. destruct (skip t) as [|c b]; [exact I|].
    destruct c as [[] [] [] [] [] [] [] []]; try exact I. destruct (skip b); [|exact I]. split; [exact I|]. split; [exists t; now rewrite string_app_nil|]. cbn in *. lia. }
  clear s Q. intros s Q. unfold rule_read. cbn [snd]. unfold program_name_rule. pose proof (suffix_length _ _ ST) as L. destruct (skip t) as [|c b]; [exact I|].
  destruct (ascii_dec c "O") as [->|N]; [|destruct c as [[] [] [] [] [] [] [] []]; try exact I; now contradiction N].
  pose proof (suffix_span is_name_char b) as S. destruct (span is_name_char b) as [[|x y] z]; [exact I|]. cbn in S. split; [exact I|].
  assert (S2 : suffix (snd (span is_alpha (snd (span is_blank z)))) b).
  { eapply suffix_trans; [apply suffix_span|]. eapply suffix_trans; [apply suffix_span|exact S]. }
  split; [eapply suffix_trans; [exact S2|]; eapply suffix_trans; [apply suffix_cons|exact ST]|]. apply suffix_length in S2. cbn in L. lia.
Qed.

Lemma attributes_read t0 f : forall t v s s' V r, quiet s -> all_chars mark_free t = true -> suffix t t0 -> (String.length t < f)%nat ->
  Forall (word_read t0) v -> line_attributes wm dec asg f t v s = (s', V, r) ->
  Forall (word_read t0) V /\ (forall e, r = PExc e -> e = EOutOfRange).
Proof.
  induction f as [|f IH]; intros t v s s' V r Q A S L F H; [lia|]. cbn [line_attributes] in H.
  pose proof (attribute_free wm dec asg t s Q A) as [Q1 R1]. pose proof (attribute_read t s Q A) as W.
  destruct (line_attribute wm dec asg t s) as [s1 R]. unfold rule_read in W. cbn in Q1, R1, W. destruct R as [|a r'| |].
  - destruct v; [inv H; split; [exact F|discriminate]|]. destruct (skip t); inv H; (split; [exact F|discriminate]).
  - destruct W as (W & S1 & L1). eapply IH; [exact Q1|exact R1|eapply suffix_trans; eassumption|lia| |exact H].
    apply Forall_app. split; [exact F|]. constructor; [|constructor]. eapply word_read_suffix; eauto.
  - inv H. split; [exact F|discriminate].
  - injection H as <- <- <-. split; [exact F|]. intros e0 E. injection E as <-. exact W.
Qed.

Lemma phrase_read t s s' V r : quiet s -> all_chars mark_free t = true -> phrase_parse wm dec asg t s = (s', V, r) ->
  quiet s' /\ Forall (word_read t) V /\ (forall e, r = PExc e -> e = EOutOfRange).
Proof.
  unfold phrase_parse. intros Q A H. split; [eapply attributes_free; eauto|]. eapply attributes_read; [exact Q|exact A|apply suffix_refl| |constructor|exact H]. lia.
Qed.
End Words.
