From Verif Require Import Model.Base Model.Attr Model.Removers Spec.RemoverSpec Proofs.Tactics.

Lemma remove_comment_exact b :
  Forall (fun a => is_comment a = false) (remove_comment b) /\
  exists cs, Forall (fun a => is_comment a = true) cs /\ interleaved (remove_comment b) cs b.
Proof.
  induction b as [|a b [F (cs & C & I)]]; cbn.
  - split; [constructor|]. exists []. split; constructor.
  - destruct a as [d|w v|w c]; [|destruct (String.eqb w "(") eqn:E|].
    + split; [constructor; auto|]. exists cs. split; [assumption|now constructor].
    + split; [assumption|]. exists (AStr w v :: cs). split; [constructor; auto|now constructor].
    + split; [constructor; auto|]. exists cs. split; [assumption|now constructor].
    + split; [constructor; auto|]. exists cs. split; [assumption|now constructor].
Qed.

Lemma remove_comment_none b :
  Forall (fun a => is_comment a = false) b -> remove_comment b = b.
Proof.
  induction b as [|a b IH]; cbn; intro F; [reflexivity|]. inv F. rewrite IH by assumption.
  destruct a as [d|w v|w c]; cbn in *; try reflexivity. now rewrite H1.
Qed.

Lemma remove_comment_idem b : remove_comment (remove_comment b) = remove_comment b.
Proof. apply remove_comment_none, remove_comment_exact. Qed.

Lemma remove_optional_exact b : exists marks,
  b = (marks ++ remove_optional_block b)%list /\ Forall is_numbered_mark marks /\
  (forall a r, remove_optional_block b = a :: r -> ~ is_numbered_mark a).
Proof.
  induction b as [|a b (marks & E & F & N)]; cbn.
  - exists []. repeat split; [constructor|discriminate].
  - destruct a as [d|w v|w c].
    + destruct (String.eqb_spec (d_word d) "/") as [W|W]; cbn [andb].
      * destruct (d_value d) as [v|] eqn:V; cbn [is_some].
        -- exists (ADec d :: marks). cbn. repeat split; [congruence| |assumption].
           constructor; [|assumption]. exists d, v. auto.
        -- exists []. repeat split; [constructor|]. intros a r H. inv H.
           intros (d' & v & H & _ & V'). inv H. congruence.
      * exists []. repeat split; [constructor|]. intros a r H. inv H.
        intros (d' & v & H & W' & _). inv H. congruence.
    + exists []. repeat split; [constructor|]. intros a r H. inv H. intros (d' & x & H & _). discriminate.
    + exists []. repeat split; [constructor|]. intros a r H. inv H. intros (d' & x & H & _). discriminate.
Qed.

Lemma remove_optional_idem b :
  remove_optional_block (remove_optional_block b) = remove_optional_block b.
Proof.
  destruct (remove_optional_exact b) as (marks & _ & _ & N).
  destruct (remove_optional_block b) as [|a r] eqn:E; [reflexivity|].
  specialize (N a r eq_refl). destruct a as [d|w v|w c]; cbn; try reflexivity.
  destruct (String.eqb_spec (d_word d) "/") as [W|W]; [|reflexivity].
  destruct (d_value d) as [v|] eqn:V; [|reflexivity].
  exfalso. apply N. exists d, v. auto.
Qed.
