(** The read loop splits what the framing joins. *)
From Verif Require Import Model.Base Model.NCText Model.Framing Spec.Text Spec.FramingSpec
  Proofs.Tactics Proofs.StringFacts Proofs.TextProofs Proofs.NCTextProofs Proofs.DiagProofs.

Lemma span_app p a b : all_chars p a = true -> match b with String c _ => p c = false | "" => True end ->
  span p (a ++ b) = (a, b).
Proof.
  induction a as [|c a IH]; cbn; intros Ha Hb; [now apply span_none|].
  apply andb_true_iff in Ha as [-> Ha]. rewrite IH; auto.
Qed.

Lemma span_length p s : (String.length (snd (span p s)) <= String.length s)%nat.
Proof. induction s as [|c s IH]; cbn; auto. destruct (p c); cbn; auto. destruct (span p s). cbn in *. lia. Qed.

Lemma take_app a b : take (String.length a) (a ++ b) = (a, b).
Proof. induction a as [|c a IH]; cbn; [now destruct b|]. now rewrite IH. Qed.

Lemma take_length n : forall s, (String.length (snd (take n s)) <= String.length s)%nat.
Proof. induction n as [|n IH]; intros [|c s]; cbn; auto. specialize (IH s). destruct (take n s). cbn in *. lia. Qed.

Lemma find_header_app s : find_header "" (header ++ s) = Some s.
Proof. reflexivity. Qed.

Lemma find_header_shorter : forall s str s', find_header str s = Some s' -> (String.length s' < String.length s)%nat.
Proof.
  induction s as [|c s IH]; cbn; intros str s' H; [discriminate|].
  destruct (_ && _); [apply IH in H; lia|]. destruct (String.eqb _ _); [injection H as <-; lia|]. apply IH in H; lia.
Qed.

Lemma read_line_length s : (String.length (snd (read_line s)) <= String.length s)%nat.
Proof.
  unfold read_line. pose proof (span_length (fun c => negb (is_newline c)) s). destruct (span _ s) as [a [|c r]]; cbn in *; lia.
Qed.

Lemma read_body_length n s : (String.length (snd (read_body n s)) <= String.length s)%nat.
Proof.
  unfold read_body. pose proof (span_length is_newline s). destruct (snd (span is_newline s)) as [|c r]; cbn in *; [lia|].
  pose proof (take_length (Z.to_nat (n - 1)) r). destruct (take _ r); cbn in *. lia.
Qed.

Lemma next_shorter s m s' : next_message s = Ok (Some (m, s')) -> (String.length s' < String.length s)%nat.
Proof.
  unfold next_message. destruct (find_header "" s) as [s1|] eqn:E; [|discriminate].
  apply find_header_shorter in E. pose proof (read_line_length s1). destruct (read_line s1) as [str s2]. cbn in *.
  destruct (atoi str) as [a|]; cbn; [|discriminate]. destruct (_ =? 0).
  - intros K. injection K as _ <-. lia.
  - pose proof (read_body_length (to_u32 a) s2). destruct (read_body _ s2). cbn in *. intros K. injection K as _ <-. lia.
Qed.

(** More fuel than the length of the input changes nothing. *)
Lemma serve_fuel {H} (handle : H -> string -> res (H * list string * bool)) : forall f1 f2 h s,
  (String.length s < f1)%nat -> (String.length s < f2)%nat ->
  serve_loop handle f1 h s = serve_loop handle f2 h s.
Proof.
  induction f1 as [|f1 IH]; intros [|f2] h s H1 H2; try lia. cbn.
  destruct (next_message s) as [[[[b|] s']|]|] eqn:E; auto; apply next_shorter in E.
  - destruct (handle h b) as [[[h' out] []]|]; auto. rewrite (IH f2); auto; lia.
  - apply IH; lia.
Qed.

Lemma serve_step {H} (handle : H -> string -> res (H * list string * bool)) h s b s' :
  next_message s = Ok (Some (Some b, s')) ->
  serve handle h s = match handle h b with
    | Exc e => ([b], "", Crashed e)
    | Ok (h', out, true) => ([b], write_all out, Exited)
    | Ok (h', out, false) => let '(bs, o, e) := serve handle h' s' in (b :: bs, write_all out ++ o, e)
    end.
Proof.
  intros E. unfold serve at 1. cbn. rewrite E. apply next_shorter in E.
  destruct (handle h b) as [[[h' out] []]|]; auto. unfold serve.
  rewrite (serve_fuel handle (String.length s) (S (String.length s'))); auto; lia.
Qed.

Lemma digits_no_newline n : all_chars is_digit n = true -> all_chars (fun c => negb (is_newline c)) n = true.
Proof.
  induction n as [|c n IH]; cbn; auto. intros K. apply andb_true_iff in K as [K1 K2]. rewrite IH by auto.
  unfold is_newline. destruct (Ascii.eqb_spec c cr) as [->|]; [discriminate|].
  destruct (Ascii.eqb_spec c lf) as [->|]; [discriminate|]. reflexivity.
Qed.

(** One framed message. *)
Lemma next_framed b n s : denotes n (Z.of_nat (String.length b)) -> plain_body b ->
  next_message ("Content-Length: " ++ n ++ line_end ++ line_end ++ b ++ s) = Ok (Some (Some b, s)).
Proof.
  intros D (B & c & r & -> & C1 & C2). unfold next_message. change "Content-Length: " with header. rewrite find_header_app.
  pose proof D as (N & Dd & V).
  unfold read_line. rewrite span_app; [|now apply digits_no_newline|reflexivity].
  change (line_end ++ line_end ++ String c r ++ s) with (String cr (String lf (String cr (String lf (String c (r ++ s)))))).
  cbn iota. rewrite (atoi_digits n _ D) by (unfold int_max; lia). cbn [bind].
  rewrite to_u32_id by (unfold int_max; lia). cbn [String.length]. 
  destruct (Z.eqb_spec (Z.of_nat (S (String.length r))) 0); [lia|].
  unfold read_body.
  assert (E : snd (span is_newline (String lf (String cr (String lf (String c (r ++ s)))))) = String c (r ++ s)).
  { cbn. unfold is_newline at 1. destruct (Ascii.eqb_spec c cr); [contradiction|].
    destruct (Ascii.eqb_spec c lf); [contradiction|]. reflexivity. }
  rewrite E. replace (Z.to_nat (Z.of_nat (S (String.length r)) - 1)) with (String.length r) by lia.
  rewrite take_app. reflexivity.
Qed.

Lemma write_all_app o1 o2 : write_all (o1 ++ o2) = write_all o1 ++ write_all o2.
Proof. induction o1 as [|x o1 IH]; cbn [app write_all]; auto. rewrite IH, string_app_assoc. reflexivity. Qed.

Lemma write_framed out : framed out (write_all out).
Proof.
  induction out as [|b out IH]; [constructor|].
  change (write_all (b :: out)) with (frame b ++ write_all out). unfold frame. rewrite !string_app_assoc.
  change header with "Content-Length: ". change crlf with line_end. constructor; auto.
  destruct (nat_to_string_spec (Z.of_nat (String.length b)) ltac:(lia)) as (N & D & V & _). split; auto.
Qed.

Lemma framed_app b1 s1 b2 s2 : framed b1 s1 -> framed b2 s2 -> framed (b1 ++ b2) (s1 ++ s2).
Proof.
  intros F1 F2. induction F1; cbn [app]; auto. rewrite !string_app_assoc. now constructor.
Qed.

(** Input. *)
Lemma serve_framed {H} (handle : H -> string -> res (H * list string * bool)) bs s1 : framed bs s1 ->
  Forall plain_body bs -> forall h s2,
  exists o1, framed (snd (fst (fed handle h bs))) o1 /\
  match fed handle h bs with
  | (d, _, None) => exists e, serve handle h (s1 ++ s2) = (d, o1, e) /\ e <> Waiting
  | (d, _, Some h') => let '(d2, o2, e) := serve handle h' s2 in
                       serve handle h (s1 ++ s2) = ((d ++ d2)%list, o1 ++ o2, e)
  end.
Proof.
  intros F. induction F as [|b bs n s D F IH]; intros P h s2.
  - exists "". split; [constructor|]. cbn [fed append app].
    destruct (serve handle h s2) as [[d2 o2] e]. reflexivity.
  - apply Forall_cons_iff in P as [P1 P2]. rewrite !string_app_assoc.
    rewrite (serve_step handle h _ b (s ++ s2)) by now apply next_framed.
    cbn [fed]. destruct (handle h b) as [[[h' out] []]|].
    + exists (write_all out). split; [apply write_framed|]. eexists. split; [reflexivity|discriminate].
    + destruct (IH P2 h' s2) as (o1 & F1 & K). destruct (fed handle h' bs) as [[d o] [h''|]].
      * destruct (serve handle h'' s2) as [[d2 o2] e]. cbn [fst snd] in F1. exists (write_all out ++ o1). cbn [fst snd app].
        split; [apply framed_app; auto using write_framed|]. rewrite K. now rewrite string_app_assoc.
      * destruct K as (e & K & Ke). cbn [fst snd] in F1. exists (write_all out ++ o1). cbn [fst snd app].
        split; [apply framed_app; auto using write_framed|]. exists e. rewrite K. auto.
    + exists "". split; [constructor|]. eexists. split; [reflexivity|discriminate].
Qed.

(** Output, for any input. *)
Lemma serve_output_loop {H} (handle : H -> string -> res (H * list string * bool)) : forall f h s,
  let '(d, o, e) := serve_loop handle f h s in
  fst (fst (fed handle h d)) = d /\ framed (snd (fst (fed handle h d))) o.
Proof.
  induction f as [|f IH]; intros h s; cbn; [split; [reflexivity|constructor]|].
  destruct (next_message s) as [[[[b|] s']|]|]; cbn; try (split; [reflexivity|constructor]).
  - destruct (handle h b) as [[[h' out] []]|] eqn:Eh; cbn; rewrite ?Eh; cbn.
    + split; [reflexivity|apply write_framed].
    + specialize (IH h' s'). destruct (serve_loop handle f h' s') as [[d o] e]. cbn. rewrite Eh.
      destruct (fed handle h' d) as [[d' o'] e']. cbn in *. destruct IH as [-> IH]. split; auto.
      apply framed_app; auto using write_framed.
    + split; [reflexivity|constructor].
  - apply IH.
Qed.

Lemma serve_output {H} (handle : H -> string -> res (H * list string * bool)) h s :
  let '(d, o, e) := serve handle h s in
  fst (fst (fed handle h d)) = d /\ framed (snd (fst (fed handle h d))) o.
Proof. exact (serve_output_loop handle _ h s). Qed.

(** Unique decoding. *)
Lemma digits_then_cr : forall n1 n2 r1 r2, all_chars is_digit n1 = true -> all_chars is_digit n2 = true ->
  n1 ++ String "013" r1 = n2 ++ String "013" r2 -> n1 = n2 /\ r1 = r2.
Proof.
  induction n1 as [|c n1 IH]; intros [|d n2] r1 r2 H1 H2 E; cbn in *.
  - now injection E.
  - injection E as <- _. discriminate.
  - injection E as -> _. discriminate.
  - injection E as <- E. apply andb_true_iff in H1 as [_ H1], H2 as [_ H2]. destruct (IH n2 r1 r2) as [-> ->]; auto.
Qed.

Lemma app_same_length : forall a b c d : string, String.length a = String.length b -> a ++ c = b ++ d -> a = b /\ c = d.
Proof.
  induction a as [|x a IH]; intros [|y b] c d L E; cbn in *; try discriminate; auto.
  injection E as <- E. injection L as L. destruct (IH b c d) as [-> ->]; auto.
Qed.

Lemma framed_inv b2 s : framed b2 s -> (b2 = [] /\ s = "") \/
  exists b bs n s', b2 = b :: bs /\ s = header ++ n ++ line_end ++ line_end ++ b ++ s' /\
    denotes n (Z.of_nat (String.length b)) /\ framed bs s'.
Proof. intros [|b bs n s' D F]; [now left|]. right. exists b, bs, n, s'. auto. Qed.

Lemma framed_unique b1 s : framed b1 s -> forall b2, framed b2 s -> b1 = b2.
Proof.
  intros F1. induction F1 as [|b bs n s D F IH]; intros b2 F2.
  - apply framed_inv in F2 as [[-> _]|(b & bs & n & s' & _ & E & _)]; [reflexivity|discriminate].
  - apply framed_inv in F2 as [[_ E]|(b' & bs' & n' & s' & -> & E & D' & F')]; [discriminate|].
    destruct D as (N & Dd & V), D' as (N' & Dd' & V').
    change "Content-Length: " with header in E. apply string_app_inj_l in E.
    apply digits_then_cr in E as [-> E]; auto. rewrite V in V'. apply Nat2Z.inj in V'.
    unfold line_end in E. cbn [append] in E. injection E as E.
    apply app_same_length in E as [-> ->]; auto. f_equal. now apply IH.
Qed.
