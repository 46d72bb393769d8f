(** What [split_file] puts into its pieces. *)
From Verif Require Import Model.Base Model.Attr Model.Double Model.Macro Model.Verifiers Model.Grammar Model.Splitter Model.Renumberer.
From Verif Require Import Model.PathCalc Model.Parser.
From Verif Require Import Spec.SplitSpec Proofs.Tactics Proofs.SplitProofs.

Local Open Scope list_scope.

(** Two nested lists of the same shape. *)
Definition same_shape {A B} : list (list A) -> list (list B) -> Prop := Forall2 (fun a b => List.length a = List.length b).

Lemma shape_rest {A B} (r : A) (r' : B) a b : same_shape a b -> same_shape (fence_rest r a) (fence_rest r' b).
Proof.
  induction 1 as [|x y a b H F IH]; [constructor|]. destruct F as [|x2 y2 a b H2 F].
  - cbn. constructor; [cbn; lia|constructor].
  - change (fence_rest r (x :: x2 :: a)) with ((r :: x ++ [r]) :: fence_rest r (x2 :: a)).
    change (fence_rest r' (y :: y2 :: b)) with ((r' :: y ++ [r']) :: fence_rest r' (y2 :: b)).
    constructor; [cbn; rewrite !app_length; cbn; lia|exact IH].
Qed.

Lemma shape_fenced {A B} (rp : option A) (rp' : option B) a b : is_some rp = is_some rp' -> same_shape a b ->
  same_shape (fenced rp a) (fenced rp' b).
Proof.
  intros I S. destruct rp as [r|], rp' as [r'|]; try discriminate.
  - inversion S as [|x y a' b' H F]; subst; [constructor|]. destruct F as [|x2 y2 a b H2 F]; cbn [fenced]; [now constructor|].
    constructor; [rewrite !app_length; cbn; lia|]. apply shape_rest. now constructor.
  - destruct a, b; exact S.
Qed.

Lemma shape_partition {A B} (cores : list (list A)) : forall (data : list B), List.length (List.concat cores) = List.length data ->
  exists cores', List.concat cores' = data /\ same_shape cores cores'.
Proof.
  induction cores as [|c cores IH]; intros data L.
  - destruct data; [|discriminate]. exists []. split; [reflexivity|constructor].
  - cbn in L. rewrite app_length in L. destruct (IH (skipn (List.length c) data)) as (cs & C & S); [rewrite skipn_length; lia|].
    exists (firstn (List.length c) data :: cs). split; [cbn; rewrite C; apply firstn_skipn|]. constructor; [rewrite firstn_length; lia|exact S].
Qed.

Lemma shape_splits {A B} (rp : option A) (rp' : option B) (bs : list A) (data : list B) ps :
  splits rp bs ps -> List.length bs = List.length data -> is_some rp = is_some rp' ->
  exists ps', splits rp' data ps' /\ same_shape ps ps'.
Proof.
  intros (cores & (C & N & T) & ->) L I. rewrite <- C in L. destruct (shape_partition cores data L) as (cores' & C' & S).
  exists (fenced rp' cores'). split; [|now apply shape_fenced]. exists cores'. split; [|reflexivity]. split; [exact C'|]. split.
  - inversion S; subst; [contradiction|discriminate].
  - inversion S as [|x y a b H F]; subst; [constructor|]. cbn [tl] in *. clear - T F. induction F as [|x y a b H F IH]; [constructor|]. inv T. constructor; [|now apply IH].
    destruct y; [|discriminate]. destruct x; [contradiction|discriminate].
Qed.

Lemma shape_trans {A B C} (a : list (list A)) (b : list (list B)) (c : list (list C)) : same_shape a b -> same_shape b c -> same_shape a c.
Proof. intros S. revert c. induction S as [|x y a b H F IH]; intros c T; inversion T; subst; constructor; [congruence|now apply IH]. Qed.

Lemma shape_sym {A B} (a : list (list A)) (b : list (list B)) : same_shape a b -> same_shape b a.
Proof. induction 1; constructor; auto. Qed.

(** Only the first piece can be empty. *)
Lemma splits_nonempty {A} (rp : option A) data ps : splits rp data ps -> ps <> [] /\ Forall (fun c => c <> []) (tl ps).
Proof.
  intros (cores & (C & N & T) & ->). destruct rp as [r|]; [|destruct cores; now split]. destruct cores as [|c [|c2 cores]]; [contradiction|split; [discriminate|exact T]|].
  cbn [fenced tl]. split; [discriminate|]. clear. revert c2. induction cores as [|c cores IH]; intros c2.
  - constructor; [discriminate|constructor].
  - change (fence_rest r (c2 :: c :: cores)) with ((r :: c2 ++ [r]) :: fence_rest r (c :: cores)). constructor; [discriminate|apply IH].
Qed.

Section S.
Variable lit : string -> dbl.
Variable libm : string -> dbl -> dbl.
Variable atan log cabs : dbl -> dbl.
Variable stale : Z.
Variable cf : config.

Lemma renumber_lines_length rs l : forall m p p' vs m' e, renumber_lines cf rs l m p = (p', vs, m', e) -> List.length vs = List.length l.
Proof.
  induction l as [|t l IH]; intros m p p' vs m' e E; cbn [renumber_lines] in E; [now inv E|].
  destruct (renumber_line cf rs t p) as [[p1 v] [r m1|x]].
  - destruct (renumber_lines cf rs l (later m m1) p1) as [[[p2 vs2] m2] e2] eqn:R. inv E. cbn. f_equal. eapply IH. exact R.
  - inv E. cbn. now rewrite repeat_length.
Qed.

Lemma renumber_pieces_shape rs l : forall m p p' ps m', renumber_pieces cf rs l m p = (p', ps, Answer true m') -> same_shape ps l.
Proof.
  induction l as [|t l IH]; intros m p p' ps m' E; cbn [renumber_pieces] in E; [inv E; constructor|].
  destruct (renumber_lines cf rs t m p) as [[[p1 vs] m1] [e|]] eqn:R.
  - destruct e; cbn in E; inv E.
  - destruct (renumber_pieces cf rs l m1 p1) as [[p2 r] a] eqn:Q. inv E. constructor; [eapply renumber_lines_length; exact R|eapply IH; exact Q].
Qed.

Lemma renumber_program_length nw rs b : forall st st' b', renumber_program nw st rs b = (st', b') -> List.length b' = List.length b.
Proof.
  induction b as [|x b IH]; intros st st' b' E; cbn in E; [now inv E|].
  destruct (renumber nw st rs x) as [s1 b1]. destruct (renumber_program nw s1 rs b) as [s2 b2] eqn:R. inv E. cbn. f_equal. eapply IH; exact R.
Qed.

Lemma renumber_all_shape rs ps : forall p acc p' r,
  fold_left (fun '(p, acc) piece =>
    let '(ren, piece') := renumber_program (numbering_words (metric (cf_grammar cf))) (pr_ren p) rs piece in
    (with_ren ren p, (acc ++ [piece']))) ps (p, acc) = (p', r) ->
  exists ps', r = acc ++ ps' /\ same_shape ps' ps.
Proof.
  induction ps as [|x ps IH]; intros p acc p' r E; cbn [fold_left] in E.
  - inv E. exists []. split; [now rewrite app_nil_r|constructor].
  - destruct (renumber_program (numbering_words (metric (cf_grammar cf))) (pr_ren p) rs x) as [ren x'] eqn:R.
    apply IH in E. destruct E as (ps' & -> & S). exists (x' :: ps'). split; [now rewrite <- app_assoc|]. constructor; [eapply renumber_program_length; exact R|exact S].
Qed.

Lemma read_lines_length {A} read (report : parser -> A) data : forall x m p p' bs m', read_lines read report x data m p = (p', bs, m', None) ->
  List.length bs = List.length data.
Proof.
  induction data as [|t data IH]; intros x m p p' bs m' E; cbn [read_lines] in E; [now inv E|].
  destruct (if is_blank_line t then (p, [], Answer true MNone) else read x t p) as [[p1 v] [[|] m1|e]]; try discriminate.
  destruct (read_lines read report (x + 1) data (later m m1) p1) as [[[p2 r] m2] e2] eqn:R. inv E. cbn. f_equal. eapply IH. exact R.
Qed.

Lemma split_file_shape fs data p p' ps m :
  split_file lit libm atan log cabs stale cf fs data p = (p', ps, Answer true m) ->
  exists rp parts, is_some rp = negb (String.eqb (sp_plane fs) "") /\ splits rp data parts /\ same_shape ps parts.
Proof.
  unfold split_file. intros E.
  assert (T : forall rp : option block, is_some rp = negb (String.eqb (sp_plane fs) "") ->
     is_some rp = is_some (match sp_plane fs with EmptyString => None | t => Some t end)) by (intros rp ->; destruct (sp_plane fs); reflexivity).
  assert (Common : forall read, (match pr_calc p with
      | None => (p, [], Escapes (EUB "null path calculator"))
      | Some c =>
          match read_lines read work_report 0 data MNone p with
          | (p, _, _, Some (Answer _ m)) => (p, [], Answer false m)
          | (p, _, _, Some (Escapes e)) => (p, [], caught_range e)
          | (p, bs, m, None) =>
              match read_plane (sp_plane fs) p with
              | (p, _, Some (Answer _ m')) => (p, [], Answer false (later m m'))
              | (p, _, Some (Escapes e)) => (p, [], caught_range e)
              | (p, rp, None) =>
                  match split_blocks_of fs (split_defaults_of (mc_cnc (cl_machine c))) rp bs with
                  | Exc e => (p, [], caught_range e)
                  | Ok ps => let '(p, ps) := renumber_all cf (mkRS "N" 1 0 0 false false) ps p in (p, ps, Answer true m)
                  end
              end
          end
      end = (p', ps, Answer true m)) -> sp_type fs <> STText ->
      exists rp parts, is_some rp = negb (String.eqb (sp_plane fs) "") /\ splits rp data parts /\ same_shape ps parts).
  { intros read E' NT. destruct (pr_calc p) as [c|]; [|discriminate]. 
    destruct (read_lines read work_report 0 data MNone p) as [[[p1 bs] m1] [[r x|x]|]] eqn:R; [discriminate|destruct x; inv E'|].
    apply read_lines_length in R.
    destruct (read_plane (sp_plane fs) p1) as [[p2 rp] [[r x|x]|]] eqn:Q; [discriminate|destruct x; inv E'|].
    assert (I : is_some rp = negb (String.eqb (sp_plane fs) "")).
    { unfold read_plane in Q. destruct (sp_plane fs) as [|ch s]; [now inv Q|]. destruct (simple_parse (String ch s) p1) as [[q v] [[|] z|z]]; now inv Q. }
    destruct (split_blocks_of fs (split_defaults_of (mc_cnc (cl_machine c))) rp bs) as [ps0|x] eqn:B; [|destruct x; inv E'].
    destruct (renumber_all cf (mkRS "N" 1 0 0 false false) ps0 p2) as [p3 ps1] eqn:A. inv E'.
    unfold renumber_all in A. apply renumber_all_shape in A. destruct A as (ps' & -> & S). cbn [app] in *.
    assert (SP : splits rp (map fst bs) ps0).
    { unfold split_blocks_of in B. destruct (sp_type fs); [eapply blocks_splits|eapply tool_splits|eapply amount_splits|eapply amount_splits|contradiction]; exact B. }
    destruct (shape_splits rp (match sp_plane fs with EmptyString => None | t => Some t end) (map fst bs) data ps0 SP) as (parts & P1 & P2).
    - now rewrite map_length.
    - now apply T.
    - exists (match sp_plane fs with EmptyString => None | t => Some t end), parts. split; [destruct (sp_plane fs); reflexivity|]. split; [exact P1|]. eapply shape_trans; [exact S|exact P2]. }
  destruct (sp_type fs) eqn:TY; try (eapply Common; [exact E|discriminate]).
  apply renumber_pieces_shape in E. exists (match sp_plane fs with EmptyString => None | t => Some t end).
  eexists. split; [|split; [apply text_splits|exact E]]. destruct (sp_plane fs); reflexivity.
Qed.

Lemma shape_nonempty {A B} (a : list (list A)) (b : list (list B)) : same_shape a b -> b <> [] /\ Forall (fun c => c <> []) (tl b) ->
  a <> [] /\ Forall (fun c => c <> []) (tl a).
Proof.
  intros S [N T]. inversion S as [|x y a' b' H F]; subst; [contradiction|]. split; [discriminate|]. cbn [tl] in *. clear - F T.
  induction F as [|x y a b H F IH]; [constructor|]. inv T. constructor; [|now apply IH]. destruct x; [|discriminate]. destruct y; [contradiction|discriminate].
Qed.

Lemma split_file_nonempty fs data p p' ps m :
  split_file lit libm atan log cabs stale cf fs data p = (p', ps, Answer true m) -> ps <> [] /\ Forall (fun c => c <> []) (tl ps).
Proof.
  intros E. apply split_file_shape in E. destruct E as (rp & parts & _ & S & H). eapply shape_nonempty; [exact H|]. eapply splits_nonempty. exact S.
Qed.

End S.
