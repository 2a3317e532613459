From Verif Require Import Base BaseLemmas Text QueueModel QueueSpec QueueProofs BroadcasterModel BroadcasterSpec BroadcasterProofs.

Lemma shift_seq s n j k : (fun i => s + N.of_nat n + N.of_nat i) <$> seq j k = (fun i => s + N.of_nat i) <$> seq (n + j) k.
Proof.
  revert j. induction k as [|k IH]; intros j; cbn; [done|]. f_equal; [lia|].
  rewrite (IH (S j)). by rewrite Nat.add_succ_r.
Qed.
Lemma consecutive_app s l1 l2 : consecutive s l1 -> consecutive (s + N.of_nat (length l1)) l2 -> consecutive s (l1 ++ l2).
Proof.
  unfold consecutive. intros H1 H2. rewrite app_length, seq_app, fmap_app. rewrite H1 at 1. f_equal. rewrite H2 at 1.
  rewrite shift_seq. by rewrite Nat.add_0_r.
Qed.
Lemma consecutive_nil s : consecutive s [].
Proof. done. Qed.
Lemma consecutive_one s : consecutive s [s].
Proof. unfold consecutive. cbn. f_equal. lia. Qed.

Section Queue.
  Context {W M : Type}.
  Context (simulate : W -> tx M -> W * option (option N)) (sign : W -> tx M -> W * bool).
  Context (broadcast_tx : W -> tx M -> W * option string) (get_tx : W -> string -> W * tx_answer) (cfg : bconfig).
  Context (limit : N).
  Notation qest := (queue_estimate simulate cfg).
  Notation qbc := (queue_broadcast simulate sign broadcast_tx get_tx cfg).
  Notation qstep := (qstep qest qbc limit).
  Notation qloop := (qloop qest qbc limit).
  Notation qrun := (qrun qest qbc limit).
  Notation client := (client (W:=W) (M:=M)).

  Definition one_tx (c c' : client) (new : list (rpc M)) (msgs : list M) (fine : bool) : Prop :=
    cl_log c' = cl_log c ++ new /\
    (txs new = [] \/ exists t, txs new = [t] /\ tx_seq t = cl_seq c /\ tx_msgs t = msgs) /\
    (fine = true -> cl_seq c' = cl_seq c + N.of_nat (length (txs new)) /\ concat (tx_msgs <$> txs new) = msgs).

  Lemma qest_spec (c c' : client) ms a : qest c ms = (c', a) ->
    cl_seq c' = cl_seq c /\ exists new, cl_log c' = cl_log c ++ new /\ txs new = [].
  Proof.
    unfold queue_estimate. destruct (estimate_fee simulate cfg c ms) as [c1 f] eqn:He.
    apply estimate_spec in He as (Hs & x & Hl & _). intros [= <- _]. split; [done|]. by eexists.
  Qed.

  Lemma qbc_spec (c c' : client) ms ok : qbc c ms = (c', ok) -> exists new, one_tx c c' new ms ok.
  Proof.
    unfold queue_broadcast. destruct (client_broadcast simulate sign broadcast_tx get_tx cfg c ms) as [c1 r] eqn:He.
    apply broadcast_log in He as (calls & Hl & Hb & _ & Hlen & Hok). intros [= <- <-]. exists calls.
    assert (H1 : txs calls = [] \/ exists t, txs calls = [t] /\ tx_seq t = cl_seq c /\ tx_msgs t = ms).
    { destruct (txs calls) as [|t [|]] eqn:Ht; [by left| |cbn in Hlen; lia]. right. exists t. split; [done|].
      assert (t ∈ txs calls) as Hin by (rewrite Ht; set_solver).
      unfold txs in Hin. apply elem_of_list_omap in Hin as (x & Hx & Hxt). destruct x as [| |t' a|]; try discriminate Hxt.
      injection Hxt as ->. apply elem_of_list_split in Hx as (l1 & l2 & Hx). destruct (Hb _ _ _ _ Hx) as (? & ? & _). done. }
    split; [done|]. split; [done|]. intros Hr. destruct (Hok Hr) as [Hl1 Hs].
    destruct H1 as [H1|(t & H1 & _ & Hm)]; rewrite H1 in *; [done|]. split; [cbn; lia|]. cbn. by rewrite Hm, app_nil_r.
  Qed.

  Lemma ball_spec (c : client) q c' calls ok q' : broadcast_all qbc c q = (c', calls, ok, q') ->
    exists new, one_tx c c' new (mq_msgs q) ok /\ sent calls = mq_msgs q.
  Proof.
    intros H. pose proof (broadcast_all_sent _ _ _ _ _ _ _ H) as Hs. revert H.
    unfold broadcast_all, mq_pop_all. destruct (mq_msgs q) as [|m ms] eqn:Hm.
    - intros [= <- <- <- _]. exists []. split; [|done]. split; [by rewrite app_nil_r|]. split; [by left|].
      intros _. cbn. split; [lia|done].
    - destruct (qbc c (m :: ms)) as [c1 k] eqn:Hb. apply qbc_spec in Hb as [new Hn]. intros [= <- <- <- _]. exists new.
      split; [done|]. done.
  Qed.

  Lemma qstep_client (c : client) q i c' calls o : qstep c q i = (c', calls, o) ->
    exists new, one_tx c c' new (sent calls) (match o with Running _ => true | _ => false end).
  Proof.
    destruct i as [m| | |]; cbn [QueueModel.qstep].
    - unfold on_msg. destruct (qest c [m]) as [c1 a] eqn:He. apply qest_spec in He as (Hs & n1 & Hl & Ht).
      assert (H0 : forall cs o, sent cs = [] -> one_tx c c1 n1 (sent cs) o).
      { intros cs x Hcs. split; [done|]. rewrite Ht, Hcs. split; [by left|]. intros _. cbn. split; [lia|done]. }
      destruct a as [g|]; [|intros [= <- <- <-]; exists n1; by apply H0].
      destruct (add_u64 g (mq_gas q)) as [total| |]; [|intros [= <- <- <-]; exists n1; by apply H0..].
      destruct (limit <=? total).
      + destruct (broadcast_all qbc c1 q) as [[[c2 cs] ok] q1] eqn:Hb. apply ball_spec in Hb as (n2 & (Hl2 & Ht2 & Hok2) & Hsent).
        assert (Hall : one_tx c c2 (n1 ++ n2) (mq_msgs q) ok).
        { split; [by rewrite Hl2, Hl, app_assoc|]. rewrite txs_app, Ht. cbn [app]. rewrite <- Hs. split; [done|]. done. }
        destruct ok.
        * destruct (mq_push q1 m g); intros [= <- <- <-]; exists (n1 ++ n2); cbn [sent];
          change (sent (CEstimate [m] (Some g) :: cs)) with (sent cs); rewrite Hsent.
          -- exact Hall.
          -- destruct Hall as (A1 & A2 & _). split; [done|]. split; [done|]. done.
          -- destruct Hall as (A1 & A2 & _). split; [done|]. split; [done|]. done.
        * intros [= <- <- <-]. exists (n1 ++ n2). change (sent (CEstimate [m] (Some g) :: cs)) with (sent cs). rewrite Hsent.
          exact Hall.
      + destruct (mq_push q m g); intros [= <- <- <-]; exists n1; by apply H0.
    - destruct (broadcast_all qbc c q) as [[[c1 cs] ok] q1] eqn:Hb. apply ball_spec in Hb as (n & Hn & Hsent).
      intros [= <- <- <-]. exists n. rewrite Hsent. by destruct ok.
    - destruct (broadcast_all qbc c q) as [[[c1 cs] ok] q1] eqn:Hb. apply ball_spec in Hb as (n & Hn & Hsent).
      intros [= <- <- <-]. exists n. rewrite Hsent. by destruct ok.
    - destruct (broadcast_all qbc c q) as [[[c1 cs] ok] q1] eqn:Hb. apply ball_spec in Hb as (n & (H1 & H2 & _) & Hsent).
      intros [= <- <- <-]. exists n. rewrite Hsent. split; [done|]. split; [done|]. by destruct ok.
  Qed.

  Lemma qloop_client (c : client) q ins c' calls o : qloop c q ins = (c', calls, o) ->
    exists new, cl_log c' = cl_log c ++ new /\ consecutive (cl_seq c) (tx_seq <$> txs new) /\
      (exists rest, sent calls = concat (tx_msgs <$> txs new) ++ rest) /\
      (forall q', o = Running q' -> cl_seq c' = cl_seq c + N.of_nat (length (txs new)) /\ concat (tx_msgs <$> txs new) = sent calls).
  Proof.
    revert c q. revert calls. induction ins as [|i ins IH]; intros calls c q; cbn [QueueModel.qloop].
    - intros [= <- <- <-]. exists []. rewrite app_nil_r. split; [done|]. split; [done|]. split; [by exists []|].
      intros q' _. cbn. split; [lia|done].
    - destruct (qstep c q i) as [[c1 cs1] o1] eqn:Hs. apply qstep_client in Hs as (n1 & Hl1 & Ht1 & Hr1).
      assert (Hend : (forall q', o1 <> Running q') -> exists new, cl_log c1 = cl_log c ++ new /\ consecutive (cl_seq c) (tx_seq <$> txs new) /\
         (exists rest, sent cs1 = concat (tx_msgs <$> txs new) ++ rest) /\
         (forall q', o1 = Running q' -> cl_seq c1 = cl_seq c + N.of_nat (length (txs new)) /\ concat (tx_msgs <$> txs new) = sent cs1)).
      { intros Hn. exists n1. split; [done|]. destruct Ht1 as [->|(t & -> & <- & Hm)].
        - split; [done|]. split; [by eexists|]. intros q' ->. by destruct (Hn q').
        - split; [apply consecutive_one|]. split; [exists []; cbn; by rewrite Hm, !app_nil_r|]. intros q' ->. by destruct (Hn q'). }
      destruct o1 as [q1| | |]; [|intros [= <- <- <-]; apply Hend; done..].
      destruct (qloop c1 q1 ins) as [[c2 cs2] o2] eqn:Hl. intros [= -> <- ->].
      destruct (IH _ _ _ Hl) as (n2 & Hl2 & Hc2 & [rest Hrest] & Hr2). destruct (Hr1 eq_refl) as [Hs1 Hsent1].
      exists (n1 ++ n2). split; [by rewrite Hl2, Hl1, app_assoc|]. rewrite txs_app, !fmap_app, concat_app, sent_app, app_length.
      split.
      { apply consecutive_app; [|by rewrite fmap_length, <- Hs1].
        destruct Ht1 as [->|(t & -> & <- & _)]; [done|apply consecutive_one]. }
      split; [exists rest; by rewrite Hsent1, Hrest, app_assoc|].
      intros q' Hq. destruct (Hr2 _ Hq) as [Hs2 Hsent2]. split; [lia|]. by rewrite Hsent1, Hsent2.
  Qed.

  Lemma c57_queue (c : client) ins c' calls o : qrun c ins = (c', calls, o) ->
    exists new, cl_log c' = cl_log c ++ new /\ consecutive (cl_seq c) (tx_seq <$> txs new) /\
      exists rest, received ins = concat (tx_msgs <$> txs new) ++ rest.
  Proof.
    intros H. destruct (c55_prefix _ _ _ _ _ _ _ _ H) as [r1 H1].
    apply qloop_client in H as (new & Hl & Hc & [r2 H2] & _). exists new. split; [done|]. split; [done|].
    exists (r2 ++ r1). by rewrite H1, H2, app_assoc.
  Qed.

  Lemma c57_queue_finished (c : client) ins c' calls : qrun c ins = (c', calls, Finished) ->
    exists new, cl_log c' = cl_log c ++ new /\ consecutive (cl_seq c) (tx_seq <$> txs new) /\
      received ins = concat (tx_msgs <$> txs new) /\ cl_seq c' = cl_seq c + N.of_nat (length (txs new)).
  Proof.
    intros H. pose proof (c55_finished _ _ _ _ _ _ _ H) as [Hok Hrec]. rewrite app_nil_r in Hrec.
    apply qloop_stops in H as (pre & i & post & b1 & c1 & q1 & c2 & -> & Hp & Hi & ->).
    pose proof (qstep_finished _ _ _ _ _ _ _ _ Hi) as (-> & _ & Hs2).
    apply qloop_client in Hp as (n1 & Hl1 & Hc1 & _ & Hr). destruct (Hr _ eq_refl) as [Hs1 Hsent1].
    cbn [QueueModel.qstep] in Hi. destruct (broadcast_all qbc b1 q1) as [[[c3 cs] ok] q3] eqn:Hb.
    apply ball_spec in Hb as (n2 & (Hl2 & Ht2 & Hok2) & Hsent2). destruct ok; [|done]. injection Hi as -> ->.
    destruct (Hok2 eq_refl) as [Hs3 Hm3].
    exists (n1 ++ n2). split; [by rewrite Hl2, Hl1, app_assoc|]. rewrite txs_app, !fmap_app, concat_app, app_length.
    split.
    { apply consecutive_app; [done|]. rewrite fmap_length, <- Hs1.
      destruct Ht2 as [->|(t & -> & <- & _)]; [done|apply consecutive_one]. }
    split; [|lia]. rewrite <- Hrec, sent_app. by rewrite Hsent1, Hsent2, Hm3.
  Qed.
End Queue.
