(** Messages of a document and the place of the diagnostics. *)
From Verif Require Import Model.Base Model.Double Model.NCText Spec.Text Spec.NCTextSpec
  Proofs.Tactics Proofs.StringFacts Proofs.TextProofs Proofs.NCTextProofs.

(** ** Messages *)

Definition labelled (x : Z * string * string) : string := let '(n, l, m) := x in relabel n l m.

Lemma doc_summary_messages pr tr n a a' : doc_summary pr tr n a = Ok a' -> da_messages a' = da_messages a.
Proof.
  unfold doc_summary. destruct (dneqb _ _).
  - destruct (format_path_time _ _ _ _ _ _) as [s|]; cbn; [|discriminate]. intros H. injection H as <-. reflexivity.
  - intros H. injection H as <-. reflexivity.
Qed.

Lemma doc_messages p pt : forall lines n st a a', forall st', doc_loop p pt n lines st a = Ok (a', st') ->
  da_messages a' = (da_messages a ++ map labelled (rejected (verdicts p st (n + 1) lines)))%list.
Proof.
  induction lines as [|l lines IH]; intros n st a a' se H; cbn in *.
  - injection H as <- _. now rewrite app_nil_r.
  - destruct l as [|c l]; cbn.
    + now apply IH in H.
    + cbn [verdicts String.eqb]. destruct (lp_parse p st (n + 1) (String c l)) as [[[ret m] st']|] eqn:Ep; cbn [bind] in H; [|discriminate].
      set (a1 := if ret then a else _) in H.
      destruct (if pt then doc_summary _ _ _ _ else _) as [a2|] eqn:E2; cbn in H; [|discriminate].
      assert (M2 : da_messages a2 = da_messages a1).
      { destruct pt; [now apply doc_summary_messages in E2|now injection E2 as <-]. }
      apply IH in H. rewrite H, M2. subst a1. destruct ret; cbn; [reflexivity|].
      rewrite <- app_assoc. reflexivity.
Qed.

Lemma document_messages p pt st code ms su : forall st', parse_document p pt st code = Ok (ms, su, st') ->
  ms = map labelled (rejected (verdicts p st 1 (split_lines code))).
Proof.
  intros st'. unfold parse_document. destruct (doc_loop _ _ _ _ _ _) as [[a s]|] eqn:E; cbn; [|discriminate].
  intros H. injection H as <- _ _. apply doc_messages in E. exact E.
Qed.

(** Line numbers run from 1 to the number of lines. *)
Lemma rejected_lines p : forall lines st n x l m, In (x, l, m) (rejected (verdicts p st n lines)) ->
  n <= x < n + Z.of_nat (List.length lines) /\ nth_error lines (Z.to_nat (x - n)) = Some l /\ l <> "".
Proof.
  induction lines as [|l0 lines IH]; intros st n x l m H; cbn in H; [contradiction|].
  destruct (String.eqb_spec l0 "") as [->|Hl].
  - apply IH in H as (H1 & H2 & H3). cbn [List.length]. split; [lia|]. split; auto.
    replace (Z.to_nat (x - n)) with (S (Z.to_nat (x - (n + 1)))) by lia. exact H2.
  - destruct (lp_parse p st n l0) as [[[ok m0] st']|]; [|contradiction]. cbn in H.
    assert (Hr : In (x, l, m) (rejected (verdicts p st' (n + 1) lines)) \/ (x = n /\ l = l0)).
    { destruct ok; auto. destruct H as [H|H]; auto. injection H as <- <- _. auto. }
    destruct Hr as [Hr|[-> ->]].
    + apply IH in Hr as (H1 & H2 & H3). cbn [List.length]. split; [lia|]. split; auto.
      replace (Z.to_nat (x - n)) with (S (Z.to_nat (x - (n + 1)))) by lia. exact H2.
    + cbn [List.length]. split; [lia|]. rewrite Z.sub_diag. auto.
Qed.

(** ** Relabelling *)

Lemma prefix_app p s : prefix p s = true -> exists b, s = p ++ b.
Proof.
  revert s. induction p as [|c p IH]; intros s H; [now exists s|].
  destruct s as [|d s]; cbn in H; [discriminate|]. destruct (ascii_dec c d) as [->|]; [|discriminate].
  apply IH in H as (b & ->). now exists b.
Qed.

Lemma replace_none p q : forall s, ~ occurs p s -> replace_first p q s = None.
Proof.
  induction s as [|c s IH]; intros H; cbn [replace_first]; destruct (prefix p _) eqn:E.
  - exfalso. apply prefix_app in E as (b & E). apply H. exists "", b. exact E.
  - reflexivity.
  - exfalso. apply prefix_app in E as (b & E). apply H. exists "", b. exact E.
  - rewrite IH; [reflexivity|]. intros (a & b & Hs). apply H. exists (String c a), b. cbn. now rewrite Hs.
Qed.

(** ** Reading the numbers back *)

Lemma digits_without s c : all_chars is_digit s = true -> is_digit c = false -> without c s.
Proof.
  induction s as [|d s IH]; cbn; intros H Hc; [apply without_nil|]. apply andb_true_iff in H as [H1 H2].
  apply without_cons. split; auto. congruence.
Qed.

Lemma digits_trim s : all_chars is_digit s = true -> trim s = s.
Proof.
  intros H. unfold trim.
  assert (E : span is_space s = ("", s)).
  { apply span_none. destruct s as [|c s]; auto. cbn in H. apply andb_true_iff in H as [H _].
    now apply digit_not_space. }
  rewrite E. cbn. apply trimmed_id. intros (a & c & -> & Hc). rewrite all_chars_app in H. cbn in H.
  apply andb_true_iff in H as [_ H]. apply andb_true_iff in H as [H _]. apply digit_not_space in H. congruence.
Qed.

Lemma atoi_digits s n : denotes s n -> n <= int_max -> atoi s = Ok n.
Proof.
  intros (N & D & V) B. unfold atoi.
  assert (E : span is_space s = ("", s)).
  { apply span_none. destruct s as [|c s]; auto. cbn in D. apply andb_true_iff in D as [D _].
    now apply digit_not_space. }
  rewrite E. cbn [snd]. destruct s as [|c s]; [contradiction|].
  assert (Dc : is_digit c = true) by (cbn in D; apply andb_true_iff in D; tauto).
  destruct (digit_not_sign c Dc) as [H1 H2]. rewrite H1, H2. rewrite span_all by exact D. cbn [fst].
  rewrite V. assert (0 <= n) by (apply (denotes_nonneg (String c s)); split; auto).
  destruct (Z.leb_spec int_min n), (Z.leb_spec n int_max); cbn; auto; unfold int_min, int_max in *; lia.
Qed.

(** Any text that does not start with a number is 0. *)
Lemma atoi_text s : match s with "" => True
    | String c _ => is_space c = false /\ is_digit c = false /\ c <> "+"%char /\ c <> "-"%char end -> atoi s = Ok 0.
Proof.
  destruct s as [|c s]; intros H; [reflexivity|]. destruct H as (H1 & H2 & H3 & H4). unfold atoi. cbn. rewrite H1. cbn.
  destruct (Ascii.eqb_spec c "-"); [contradiction|]. destruct (Ascii.eqb_spec c "+"); [contradiction|]. cbn.
  rewrite H2. reflexivity.
Qed.

Lemma trim_head c s : is_space c = false -> exists t, trim (String c s) = String c t.
Proof.
  intros H. unfold trim. cbn. rewrite H. cbn. destruct (rtrim s); eauto. rewrite H. eauto.
Qed.

Lemma trim_space c s : is_space c = true -> trim (String c s) = trim s.
Proof. intros H. unfold trim. cbn. rewrite H. destruct (span is_space s). reflexivity. Qed.

Lemma trim_blank s : trim s = "" -> all_chars is_space s = true.
Proof.
  induction s as [|c s IH]; intros H; [reflexivity|]. cbn. destruct (is_space c) eqn:E; cbn.
  - apply IH. now rewrite trim_space in H.
  - destruct (trim_head c s E) as [t Ht]. congruence.
Qed.

(** ** One diagnostic *)

Lemma colon_digit : is_digit ":" = false. Proof. reflexivity. Qed.

Lemma pieces_cons d s r : without d s -> pieces d "" (s ++ String d r) = s :: pieces d "" r.
Proof. intros H. rewrite segments_pieces_joined; auto. apply without_nil. Qed.

(** "n: text" with a text that is no number. *)
Lemma diagnostic_text n ns a r : denotes ns n -> 1 <= n <= int_max ->
  is_space a = false -> is_digit a = false -> a <> "+"%char -> a <> "-"%char ->
  (1 < n \/ without ":" (String a r)) ->
  exists d, diagnostic_of (ns ++ ": " ++ String a r) = Ok (Some d) /\ dg_line d = n - 1 /\ dg_char d = 0.
Proof.
  intros D B A1 A2 A3 A4 Hn. destruct D as (N & D & V). unfold diagnostic_of.
  cbn [append]. rewrite pieces_cons by now apply digits_without.
  cbn [map]. rewrite (digits_trim ns D), (atoi_digits ns n (conj N (conj D V)) (proj2 B)).
  cbn [bind]. assert (Dn : decrement n = n - 1) by (unfold decrement; destruct (Z.ltb_spec 0 n); lia).
  rewrite Dn. set (m := String a r) in *.
  assert (NE : String " " m <> "") by discriminate.
  destruct (pieces ":" "" (String " " m)) as [|t1 rest] eqn:EP.
  { exfalso. destruct (pieces_spec ":" (String " " m) "" (without_nil ":")) as [_ [H|(i & l & H & _)]];
      rewrite EP in H; [discriminate H|destruct i; discriminate H]. }
  assert (T1 : exists k u, t1 = String " " u /\ (u = "" \/ exists v, u = String a v) /\ k = 0).
  { exists 0. destruct (pieces_spec ":" (String " " m) "" (without_nil ":")) as [_ H]. rewrite EP in H.
    assert (Hd : exists z, String " " m = t1 ++ z /\ (z = "" \/ exists y, z = String ":" y)).
    { destruct H as [H|(i & l & H1 & H2 & H3)].
      - exists (String ":" (joined ":" rest)). split; [|right; eauto].
        unfold joined in H. cbn in H. rewrite string_app_assoc in H. exact H.
      - destruct i as [|i0 i]; cbn in H1; injection H1 as -> H1.
        + exists "". rewrite string_app_nil. cbn in H3. auto.
        + exists (String ":" (joined ":" i ++ l)). split; [|right; eauto].
          unfold joined in H3. cbn in H3. rewrite !string_app_assoc in H3. exact H3. }
    destruct Hd as (z & Hz & Hz2). destruct t1 as [|x u].
    - exfalso. cbn in Hz. destruct Hz2 as [->|(y & ->)]; discriminate.
    - cbn in Hz. injection Hz as <- Hz. exists u. split; auto. split; auto.
      destruct u as [|b u]; auto. right. subst m. cbn in Hz. injection Hz as <- _. eauto. }
  destruct T1 as (_ & u & -> & Hu & _).
  assert (At : atoi (trim (String " " u)) = Ok 0).
  { rewrite trim_space by reflexivity. destruct Hu as [->|(v & ->)].
    - reflexivity.
    - destruct (trim_head a v A1) as [t ->]. now apply atoi_text. }
  cbn [map]. destruct rest as [|t2 rest]; cbn [map].
  - cbn [bind dg_line dg_char dg_text]. 
    assert (Hs : negb (n - 1 =? 0) || negb (0 =? 0) || negb (String.eqb (trim (String " " u)) "") = true).
    { destruct Hn as [Hn|Hn].
      - destruct (Z.eqb_spec (n - 1) 0); [lia|reflexivity].
      - assert (Ew : pieces ":" "" (String " " m) = [String " " m]).
        { apply pieces_last; [|discriminate]. apply without_cons. split; [discriminate|exact Hn]. }
        rewrite EP in Ew. injection Ew as ->. rewrite trim_space by reflexivity. subst m.
        destruct (trim_head a r A1) as [t ->]. cbn. now rewrite orb_true_r. }
    rewrite Hs. eauto.
  - rewrite At. cbn [bind decrement]. change (decrement 0) with 0. cbn [dg_line dg_char dg_text].
    assert (Hs : negb (n - 1 =? 0) || negb (0 =? 0) || negb (String.eqb (trim t2) "") = true).
    { destruct Hn as [Hn|Hn].
      - destruct (Z.eqb_spec (n - 1) 0); [lia|reflexivity].
      - exfalso. assert (Ew : pieces ":" "" (String " " m) = [String " " m]).
        { apply pieces_last; [|discriminate]. apply without_cons. split; [discriminate|exact Hn]. }
        rewrite EP in Ew. discriminate. }
    rewrite Hs. eauto.
Qed.

(** "n:c:text". *)
Lemma diagnostic_column n ns c cs text rest : denotes ns n -> 1 <= n <= int_max -> denotes cs c -> 1 <= c <= int_max ->
  without ":" text -> (rest = "" \/ exists r, rest = ":" ++ r) -> text ++ rest <> "" ->
  (1 < n \/ 1 < c \/ ~ all_chars is_space text = true) ->
  exists d, diagnostic_of (ns ++ ":" ++ cs ++ ":" ++ text ++ rest) = Ok (Some d) /\
    dg_line d = n - 1 /\ dg_char d = c - 1 /\ dg_text d = trim text.
Proof.
  intros (N & D & V) B (Nc & Dc & Vc) Bc W R NE Hs. unfold diagnostic_of.
  cbn [append]. rewrite pieces_cons by now apply digits_without. rewrite pieces_cons by now apply digits_without.
  cbn [map]. rewrite (digits_trim ns D), (atoi_digits ns n (conj N (conj D V)) (proj2 B)).
  rewrite (digits_trim cs Dc). cbn [bind].
  assert (Dn : decrement n = n - 1) by (unfold decrement; destruct (Z.ltb_spec 0 n); lia).
  assert (Dc' : decrement c = c - 1) by (unfold decrement; destruct (Z.ltb_spec 0 c); lia).
  assert (Pt : exists l, pieces ":" "" (text ++ rest) = text :: l).
  { destruct R as [->|(r & ->)].
    - rewrite string_app_nil in *. exists []. now apply pieces_last.
    - cbn [append]. rewrite pieces_cons by exact W. eauto. }
  destruct Pt as [l ->]. cbn [map]. rewrite (atoi_digits cs c (conj Nc (conj Dc Vc)) (proj2 Bc)).
  cbn [bind dg_line dg_char dg_text]. rewrite Dn, Dc'.
  assert (E : negb (n - 1 =? 0) || negb (c - 1 =? 0) || negb (String.eqb (trim text) "") = true).
  { destruct Hs as [Hs|[Hs|Hs]].
    - destruct (Z.eqb_spec (n - 1) 0); [lia|reflexivity].
    - destruct (Z.eqb_spec (c - 1) 0); [lia|]. cbn. now rewrite orb_true_r.
    - destruct (String.eqb_spec (trim text) ""); [exfalso; auto using trim_blank|]. cbn. now rewrite orb_true_r. }
  rewrite E. eauto.
Qed.

Lemma placed n l m ch : 1 <= n <= int_max -> located n l m ch ->
  exists d, diagnostic_of (relabel n l m) = Ok (Some d) /\ dg_line d = n - 1 /\ dg_char d = ch.
Proof.
  intros B H. pose proof (nat_to_string_spec n ltac:(lia)) as (N & D & V & _).
  assert (Dn : denotes (nat_to_string n) n) by (split; auto).
  destruct H as [-> Hw|c cs text rest -> Dc Bc W R Hs Ho NE|a r -> A1 A2 A3 A4 Hw Ho].
  - unfold relabel. cbn [replace_first prefix].
    change (nat_to_string n ++ ": '" ++ l ++ "'") with (nat_to_string n ++ ": " ++ String "'" (l ++ "'")).
    apply diagnostic_text; auto; try reflexivity; try discriminate.
    destruct Hw as [Hw|Hw]; auto. right. apply without_cons. split; [discriminate|].
    apply without_app; auto. apply without_cons. split; [discriminate|apply without_nil].
  - unfold relabel. rewrite replace_none by exact Ho. cbn [append]. rewrite Ascii.eqb_refl.
    destruct (diagnostic_column n _ c cs text rest Dn B Dc ltac:(unfold int_max; lia) W R NE Hs) as (d & H & H1 & H2 & _).
    exists d. auto.
  - unfold relabel. rewrite replace_none by exact Ho.
    destruct (Ascii.eqb_spec a "1") as [->|]; [discriminate|].
    now apply diagnostic_text.
Qed.

(** ** The whole document *)

Lemma diagnostics_map (l : list (Z * string * string)) :
  (forall n t m, In (n, t, m) l -> 1 <= n <= int_max /\ exists ch, located n t m ch) ->
  exists ds, diagnostics (map labelled l) = Ok ds /\
    Forall2 (fun '(n, t, m) d => dg_line d = n - 1 /\ located n t m (dg_char d)) l ds.
Proof.
  induction l as [|[[n t] m] l IH]; intros H.
  - exists []. split; [reflexivity|constructor].
  - destruct IH as (ds & E & F); [intros n0 t0 m0 Hi; apply H; now right|].
    destruct (H n t m ltac:(now left)) as (B & ch & Hc).
    destruct (placed n t m ch B Hc) as (d & Ed & E1 & E2).
    exists (d :: ds). cbn [map labelled diagnostics]. rewrite Ed. cbn [bind]. rewrite E. cbn [bind].
    split; [reflexivity|]. constructor; auto. split; auto. now rewrite E2.
Qed.

Lemma diagnostics_placed p pt st code ms su st' :
  parse_document p pt st code = Ok (ms, su, st') ->
  Z.of_nat (List.length (split_lines code)) <= int_max ->
  let r := rejected (verdicts p st 1 (split_lines code)) in
  (forall n l m, In (n, l, m) r -> exists ch, located n l m ch) ->
  (forall n l m, In (n, l, m) r -> nth_error (split_lines code) (Z.to_nat (n - 1)) = Some l) /\
  exists ds, diagnostics ms = Ok ds /\
    Forall2 (fun '(n, l, m) d => dg_line d = n - 1 /\ located n l m (dg_char d)) r ds.
Proof.
  intros H B r Hl. split.
  - intros n l m Hi. now apply rejected_lines in Hi as (_ & Hn & _).
  - rewrite (document_messages _ _ _ _ _ _ _ H). apply diagnostics_map. intros n l m Hi. split; [|eauto].
    apply rejected_lines in Hi as (Hn & _ & _). unfold int_max in *. lia.
Qed.
