(** Proofs: batches of votes. *)
From Verif Require Import Base BaseLemmas StdModel RegistryTypes VerifierModel VerifierSpec VerifierProofs QueueModel MonitorProofs VoteBatchModel.

Section Batch.
  Context (k : string -> string).
  Notation step := (verifier_step k).

  Lemma vote_ok_iff s h a b :
    is_ok (step s (cast h a b)) = true <->
    exists vp p', v_polls s !! b.1 = Some vp /\ poll_cast_vote (vpoll_poll vp) h a b.2 = Ok p'.
  Proof.
    cbn. split.
    - intros H. destruct (verifier_vote s h a b.1 b.2) as [[s' o]| |] eqn:E; [|done..].
      apply verifier_vote_ok in E as (vp & p' & H1 & H2 & _). eauto.
    - intros (vp & p' & H1 & H2). unfold verifier_vote. rewrite H1. cbn.
      unfold vpoll_try_map. destruct vp; cbn in *; by rewrite H2.
  Qed.

  (** After an accepted vote, votes on other polls fare as before, a second
      one on the same poll is refused. *)
  Lemma vote_then s h a b s' o b' :
    step s (cast h a b) = Ok (s', o) ->
    is_ok (step s' (cast h a b')) = true <-> b'.1 <> b.1 /\ is_ok (step s (cast h a b')) = true.
  Proof.
    cbn. intros H. apply verifier_vote_ok in H as (vp & p' & H1 & H2 & -> & _).
    change (is_ok (verifier_vote ?s h a b'.1 b'.2)) with (is_ok (step s (cast h a b'))). rewrite !vote_ok_iff.
    destruct (decide (b'.1 = b.1)) as [E|E].
    - split; [|by intros []]. intros (vq & q & Hq & Hc). exfalso. rewrite E in Hq. cbn in Hq. rewrite lookup_insert in Hq.
      apply (inj Some) in Hq. subst vq. unfold poll_cast_vote in H2.
      apply rbind_ok in H2 as (pt & _ & H2). apply rbind_ok in H2 as (? & _ & H2). apply rbind_ok in H2 as (? & _ & H2).
      apply rbind_ok in H2 as (? & _ & H2). apply rbind_ok in H2 as (ts & _ & H2). injection H2 as <-.
      assert (Hp : forall p, vpoll_poll (match vp with MessagesPoll _ => MessagesPoll p | WorkerSetPoll _ => WorkerSetPoll p end) = p)
        by (by destruct vp).
      rewrite Hp in Hc. unfold poll_cast_vote in Hc. cbn in Hc. rewrite lookup_insert in Hc. cbn in Hc.
      apply rbind_ok in Hc as (? & _ & Hc). by apply rbind_ok in Hc as (? & _ & Hc).
    - cbn. rewrite lookup_insert_ne by done. by split; [|intros []].
  Qed.

  Lemma batch_iff s h a bs :
    is_Some (tx_run step s (cast h a <$> bs)) <->
    NoDup bs.*1 /\ Forall (fun b => is_ok (step s (cast h a b)) = true) bs.
  Proof.
    revert s. induction bs as [|b bs IH]; intros s.
    { cbn. split; [|by eauto]. intros _. by split; constructor. }
    rewrite fmap_cons. cbn [tx_run]. rewrite fmap_cons, NoDup_cons, Forall_cons.
    destruct (step s (cast h a b)) as [[s' o]| |] eqn:E.
    - rewrite IH. assert (G : Forall (fun b0 => is_ok (step s' (cast h a b0)) = true) bs <->
        b.1 ∉ bs.*1 /\ Forall (fun b0 => is_ok (step s (cast h a b0)) = true) bs).
      { rewrite !Forall_forall. split.
        - intros H. split.
          + intros (b0 & Hb & Hin)%elem_of_list_fmap. apply H, (vote_then _ _ _ _ _ _ _ E) in Hin as [? _]. congruence.
          + intros b0 Hin. by apply H, (vote_then _ _ _ _ _ _ _ E) in Hin as [_ ?].
        - intros [Hn H] b0 Hin. apply (vote_then _ _ _ _ _ _ _ E). split; [|by apply H].
          intros Hb. apply Hn, elem_of_list_fmap. by exists b0. }
      rewrite G. cbn [is_ok]. tauto.
    - split; [by intros []|]. by intros (_ & ? & _).
    - split; [by intros []|]. by intros (_ & ? & _).
  Qed.

  Lemma tx_run_run s ops s' : tx_run step s ops = Some s' -> s' = run step s ops.
  Proof.
    revert s. induction ops as [|op ops IH]; intros s; cbn; [by intros [= ->]|].
    unfold exec. destruct (step s op) as [[s1 o]| |]; [|done..]. apply IH.
  Qed.
End Batch.

Lemma late_sinks k c ops op s' out ops' id expires workers subj H a bs :
  verifier_step k (vrun k c ops) op = Ok (s', out) -> opens c (op, out) id expires workers subj -> expires <= H -> id ∈ bs.*1 ->
  tx_run (verifier_step k) (vrun k c (ops ++ op :: ops')) (cast H a <$> bs) = None.
Proof.
  intros Hs Ho Hle (b & -> & Hb)%elem_of_list_fmap. destruct (tx_run _ _ _) as [s1|] eqn:E; [|done]. exfalso.
  assert (Hx : is_Some (tx_run (verifier_step k) (vrun k c (ops ++ op :: ops')) (cast H a <$> bs))) by (rewrite E; eauto).
  apply batch_iff in Hx as [_ Hx]. rewrite Forall_forall in Hx. specialize (Hx b Hb).
  destruct (verifier_step k (vrun k c (ops ++ op :: ops')) (cast H a b)) as [r| |] eqn:Er; [|done..].
  by eapply (late_refused k c ops op s' out ops' b.1 expires workers subj H a b.2 r).
Qed.

(** The queue's turn to broadcast. *)
Lemma flush_effect k a gas others height limit c q i : (i = QTick \/ i = QForce) -> mq_msgs q <> [] ->
  let bs := mq_msgs q in let s := before k others c in let h := height (ch_requests c) in
  let '(c', calls, o) := qstep (chain_estimate k a gas others height) (chain_broadcast k a others height) limit c q i in
  ch_requests c' = S (ch_requests c) /\
  ((NoDup bs.*1 /\ Forall (fun b => is_ok (verifier_step k s (cast h a b)) = true) bs) /\
     calls = [CBroadcast bs true] /\ o = Running mq_new /\ ch_state c' = run (verifier_step k) s (cast h a <$> bs) \/
   ~ (NoDup bs.*1 /\ Forall (fun b => is_ok (verifier_step k s (cast h a b)) = true) bs) /\
     calls = [CBroadcast bs false] /\ o = Stopped EBroadcast /\ ch_state c' = s).
Proof.
  intros Hi Hne bs s h. pose proof (batch_iff k s h a bs) as Hb.
  assert (Hq : qstep (chain_estimate k a gas others height) (chain_broadcast k a others height) limit c q i =
    let '(b', calls, ok, q') := broadcast_all (chain_broadcast k a others height) c q in
    (b', calls, if ok then Running q' else Stopped EBroadcast)) by (by destruct Hi as [-> | ->]).
  rewrite Hq. clear Hq. unfold broadcast_all, mq_pop_all. fold bs. destruct bs as [|b0 bs0] eqn:Ebs; [done|]. rewrite <- Ebs in *.
  unfold chain_broadcast. fold s h. destruct (tx_run (verifier_step k) s (cast h a <$> bs)) as [s1|] eqn:E; cbn.
  - split; [done|]. left. split; [apply Hb; eauto|]. do 2 (split; [done|]). by apply tx_run_run.
  - split; [done|]. right. split; [|done]. intros Hx%Hb. by destruct Hx.
Qed.

(** With a vote in the queue that has become late, all are lost and the queue
    stops. *)
Lemma flush_late k a gas others height limit cfg ops op s' out ops' id expires workers subj c q i :
  verifier_step k (vrun k cfg ops) op = Ok (s', out) -> opens cfg (op, out) id expires workers subj ->
  ch_state c = vrun k cfg (ops ++ op :: ops') -> expires <= height (ch_requests c) -> id ∈ (mq_msgs q).*1 ->
  (i = QTick \/ i = QForce) ->
  let '(c', calls, o) := qstep (chain_estimate k a gas others height) (chain_broadcast k a others height) limit c q i in
  o = Stopped EBroadcast /\ calls = [CBroadcast (mq_msgs q) false] /\
  ch_state c' = vrun k cfg (ops ++ op :: ops' ++ others (ch_requests c)).
Proof.
  intros Hs Ho Hc Hle Hin Hi.
  assert (Hne : mq_msgs q <> []) by (intros E; rewrite E in Hin; by apply elem_of_nil in Hin).
  pose proof (flush_effect k a gas others height limit c q i Hi Hne) as He. cbn zeta in He.
  assert (Hb : before k others c = vrun k cfg (ops ++ op :: (ops' ++ others (ch_requests c)))).
  { unfold before. rewrite Hc. unfold vrun. rewrite <- run_app. by rewrite <- app_assoc. }
  destruct (qstep _ _ _ _ _ _) as [[c' calls] o]. destruct He as (_ & [(Hx & _)|(_ & H1 & H2 & H3)]).
  - exfalso. rewrite Hb in Hx. apply batch_iff in Hx.
    rewrite (late_sinks _ _ _ _ _ _ _ _ _ _ _ _ _ _ Hs Ho Hle Hin) in Hx. by destruct Hx.
  - by rewrite H3, Hb.
Qed.
