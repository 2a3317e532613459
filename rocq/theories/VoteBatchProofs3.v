(** Proofs: what is confirmed counts. *)
From Verif Require Import Base BaseLemmas StdModel RegistryTypes VerifierModel VerifierSpec VerifierProofs QueueModel QueueSpec QueueProofs QueueProofs2
  VoteBatchModel VoteBatchProofs.

Section Counts.
  Context (k : string -> string) (a : addr) (gas : list ballot -> N) (others : nat -> list vop) (height : nat -> N) (limit : N).
  Notation step := (verifier_step k).
  Notation est := (chain_estimate k a gas others height).
  Notation bro := (chain_broadcast k a others height).

  Definition counts (c : chain) (calls : list (call ballot)) (c' : chain) : Prop :=
    exists ops, ch_state c' = run step (ch_state c) ops /\
      forall bs, CBroadcast bs true ∈ calls -> forall b, b ∈ bs -> exists h out, (Vote h a b.1 b.2, out) ∈ log step (ch_state c) ops.

  Lemma counts_refl c : counts c [] c.
  Proof. exists []. split; [done|]. intros bs H. by apply elem_of_nil in H. Qed.
  Lemma counts_trans c1 l1 c2 l2 c3 : counts c1 l1 c2 -> counts c2 l2 c3 -> counts c1 (l1 ++ l2) c3.
  Proof.
    intros (o1 & E1 & H1) (o2 & E2 & H2). exists (o1 ++ o2). rewrite run_app, <- E1. split; [done|].
    intros bs Hbs b Hb. rewrite log_app, <- E1. apply elem_of_app in Hbs as [Hbs|Hbs].
    - destruct (H1 _ Hbs _ Hb) as (h & out & Hin). exists h, out. apply elem_of_app. by left.
    - destruct (H2 _ Hbs _ Hb) as (h & out & Hin). exists h, out. apply elem_of_app. by right.
  Qed.
  Lemma counts_est c ms : counts c [CEstimate ms (est c ms).2] (est c ms).1.
  Proof. exists (others (ch_requests c)). split; [done|]. intros bs H. apply elem_of_list_singleton in H. done. Qed.

  Lemma tx_run_log s ops s' op : tx_run step s ops = Some s' -> op ∈ ops -> exists out, (op, out) ∈ log step s ops.
  Proof.
    revert s. induction ops as [|x ops IH]; intros s Hr Hin; [by apply elem_of_nil in Hin|]. cbn in Hr |- *.
    unfold log1, exec. destruct (step s x) as [[s1 o]| |]; [|done..].
    apply elem_of_cons in Hin as [->|Hin]; [exists o; left|]. destruct (IH _ Hr Hin) as (out & Ho). exists out. by right.
  Qed.
  Lemma counts_bro c ms : counts c [CBroadcast ms (bro c ms).2] (bro c ms).1.
  Proof.
    unfold chain_broadcast. destruct (tx_run step (before k others c) (cast (height (ch_requests c)) a <$> ms)) as [s'|] eqn:E; cbn.
    - exists (others (ch_requests c) ++ (cast (height (ch_requests c)) a <$> ms)). rewrite run_app.
      split; [by apply tx_run_run|]. intros bs H b Hb. apply elem_of_list_singleton in H. injection H as ->.
      destruct (tx_run_log _ _ _ (cast (height (ch_requests c)) a b) E) as (out & Ho); [apply elem_of_list_fmap; eauto|].
      exists (height (ch_requests c)), out. rewrite log_app. apply elem_of_app. by right.
    - exists (others (ch_requests c)). split; [done|]. intros bs H. by apply elem_of_list_singleton in H.
  Qed.
  Lemma counts_all c q c' calls ok q' : broadcast_all bro c q = (c', calls, ok, q') -> counts c calls c'.
  Proof.
    unfold broadcast_all, mq_pop_all. destruct (mq_msgs q) as [|m ms] eqn:Em.
    - intros [= <- <- _ _]. apply counts_refl.
    - pose proof (counts_bro c (m :: ms)) as H. destruct (bro c (m :: ms)) as [c1 ok1]. intros [= <- <- _ _]. done.
  Qed.
  Lemma counts_step c q i c' calls o : qstep est bro limit c q i = (c', calls, o) -> counts c calls c'.
  Proof.
    destruct i as [m| | |]; cbn [qstep].
    - unfold on_msg. pose proof (counts_est c [m]) as H. destruct (est c [m]) as [c1 an]. cbn in H.
      destruct an as [g|]; [|by intros [= <- <- _]].
      destruct (add_u64 g (mq_gas q)) as [t| |]; [|by intros [= <- <- _]..].
      destruct (limit <=? t).
      + destruct (broadcast_all bro c1 q) as [[[c2 l2] ok] q2] eqn:E. apply counts_all in E.
        pose proof (counts_trans _ _ _ _ _ H E) as H2. cbn in H2.
        destruct ok; [destruct (mq_push q2 m g)|]; by intros [= <- <- _].
      + destruct (mq_push q m g); by intros [= <- <- _].
    - destruct (broadcast_all bro c q) as [[[c2 l2] ok] q2] eqn:E. apply counts_all in E. by intros [= <- <- _].
    - destruct (broadcast_all bro c q) as [[[c2 l2] ok] q2] eqn:E. apply counts_all in E. by intros [= <- <- _].
    - destruct (broadcast_all bro c q) as [[[c2 l2] ok] q2] eqn:E. apply counts_all in E. by intros [= <- <- _].
  Qed.
  Lemma counts_loop ins c q c' calls o : qloop est bro limit c q ins = (c', calls, o) -> counts c calls c'.
  Proof.
    revert c q c' calls o. induction ins as [|i ins IH]; intros c q c' calls o; cbn [qloop].
    { intros [= <- <- _]. apply counts_refl. }
    destruct (qstep est bro limit c q i) as [[c1 l1] o1] eqn:E. apply counts_step in E.
    destruct o1 as [q1| | |]; [|by intros [= <- <- _]..].
    destruct (qloop est bro limit c1 q1 ins) as [[c2 l2] o2] eqn:E2. intros [= <- <- _]. eapply counts_trans; [done|by eapply IH].
  Qed.
End Counts.

Lemma confirmed_counts k a gas others height limit cfg ops n ins c' calls o :
  qrun (chain_estimate k a gas others height) (chain_broadcast k a others height) limit
    {| ch_state := vrun k cfg ops; ch_requests := n |} ins = (c', calls, o) ->
  exists ops', ch_state c' = vrun k cfg (ops ++ ops') /\
    (forall b, b ∈ delivered calls -> exists h out, (Vote h a b.1 b.2, out) ∈ log (verifier_step k) (vrun k cfg ops) ops') /\
    (o = Finished -> forall b, b ∈ received ins -> exists h out, (Vote h a b.1 b.2, out) ∈ log (verifier_step k) (vrun k cfg ops) ops').
Proof.
  intros Hq. pose proof Hq as Hq'. apply counts_loop in Hq' as (ops' & Hs & Hc). cbn in Hs, Hc. exists ops'.
  assert (Hin : forall bs ok, (bs, ok) ∈ batches calls -> CBroadcast bs ok ∈ calls).
  { intros bs ok H. unfold batches in H. apply elem_of_list_omap in H as ([ms an|ms ok'] & H & E); [done|]. by injection E as -> ->. }
  split. { unfold vrun. by rewrite run_app. }
  split.
  - intros b Hb. unfold delivered in Hb. apply elem_of_list_In, in_concat in Hb as (bs & Hbs & Hb).
    apply elem_of_list_In in Hbs, Hb. apply elem_of_list_fmap in Hbs as ([bs' ok] & -> & Hf). apply elem_of_list_filter in Hf as [Hok Hf].
    cbn in *. destruct ok; [|done]. eapply Hc; [by apply Hin|done].
  - intros -> b Hb. apply c55_finished in Hq as [Hok Hr]. rewrite app_nil_r in Hr. rewrite <- Hr in Hb.
    unfold sent in Hb. apply elem_of_list_In, in_concat in Hb as (bs & Hbs & Hb).
    apply elem_of_list_In in Hbs, Hb. apply elem_of_list_fmap in Hbs as ([bs' ok] & -> & Hf).
    unfold all_ok in Hok. rewrite Forall_forall in Hok. specialize (Hok _ Hf). cbn in *. subst ok. eapply Hc; [by apply Hin|done].
Qed.
