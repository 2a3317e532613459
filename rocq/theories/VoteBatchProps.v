(** C114: votes sent together. Vocabulary: VoteBatchModel.v. *)
From Verif Require Import Base StdModel RegistryTypes VerifierModel VerifierSpec VerifierExamples LivenessExamples QueueModel QueueSpec VoteBatchModel
  VoteBatchProofs VoteBatchProofs2 VoteBatchProofs3 VoteBatchExamples.

(** A transaction of votes is accepted exactly if no poll is in it twice and
    each vote would be accepted alone; then it has the effect of the votes one
    after the other. *)
Theorem C114_batch_iff : forall k s h a bs,
  is_Some (tx_run (verifier_step k) s (cast h a <$> bs)) <->
  NoDup bs.*1 /\ Forall (fun b => is_ok (verifier_step k s (cast h a b)) = true) bs.
Proof. exact batch_iff. Qed.
Print Assumptions C114_batch_iff.

(** What a worker's queue does when it is time to broadcast, whatever others
    did before: either every vote counts and the queue goes on, or none does
    and the queue stops for good. *)
Theorem C114_all_or_none : forall k a gas others height limit c q i, (i = QTick \/ i = QForce) -> mq_msgs q <> [] ->
  let bs := mq_msgs q in let s := before k others c in let h := height (ch_requests c) in
  let '(c', calls, o) := qstep (chain_estimate k a gas others height) (chain_broadcast k a others height) limit c q i in
  ch_requests c' = S (ch_requests c) /\
  ((NoDup bs.*1 /\ Forall (fun b => is_ok (verifier_step k s (cast h a b)) = true) bs) /\
     calls = [CBroadcast bs true] /\ o = Running mq_new /\ ch_state c' = run (verifier_step k) s (cast h a <$> bs) \/
   ~ (NoDup bs.*1 /\ Forall (fun b => is_ok (verifier_step k s (cast h a b)) = true) bs) /\
     calls = [CBroadcast bs false] /\ o = Stopped EBroadcast /\ ch_state c' = s).
Proof. exact flush_effect. Qed.
Print Assumptions C114_all_or_none.

(** Over any run of the queue, the verifier took every vote that was confirmed,
    and every vote handed over if the queue ended without error. *)
Theorem C114_confirmed_counts : forall k a gas others height limit cfg ops n ins c' calls o,
  qrun (chain_estimate k a gas others height) (chain_broadcast k a others height) limit
    {| ch_state := vrun k cfg ops; ch_requests := n |} ins = (c', calls, o) ->
  exists ops', ch_state c' = vrun k cfg (ops ++ ops') /\
    (forall b, b ∈ delivered calls -> exists h out, (Vote h a b.1 b.2, out) ∈ log (verifier_step k) (vrun k cfg ops) ops') /\
    (o = Finished -> forall b, b ∈ received ins -> exists h out, (Vote h a b.1 b.2, out) ∈ log (verifier_step k) (vrun k cfg ops) ops').
Proof. exact confirmed_counts. Qed.
Print Assumptions C114_confirmed_counts.

(** In particular, one poll that expired while its vote was waiting takes all
    votes waiting with it. *)
Theorem C114_late_loses_all : forall k a gas others height limit cfg ops op s' out ops' id expires workers subj c q i,
  verifier_step k (vrun k cfg ops) op = Ok (s', out) -> opens cfg (op, out) id expires workers subj ->
  ch_state c = vrun k cfg (ops ++ op :: ops') -> expires <= height (ch_requests c) -> id ∈ (mq_msgs q).*1 ->
  (i = QTick \/ i = QForce) ->
  let '(c', calls, o) := qstep (chain_estimate k a gas others height) (chain_broadcast k a others height) limit c q i in
  o = Stopped EBroadcast /\ calls = [CBroadcast (mq_msgs q) false] /\
  ch_state c' = vrun k cfg (ops ++ op :: ops' ++ others (ch_requests c)).
Proof. exact flush_late. Qed.
Print Assumptions C114_late_loses_all.

(** A vote that reaches the queue after its poll expired, or after this
    worker's vote on the poll was taken (as after a restart), stops the queue at
    once, and what was waiting is never sent. *)
Theorem C114_arrival_stops : forall k a gas others height limit cfg ops l1 e l2 id expires workers subj vs c q,
  before k others c = vrun k cfg ops -> vlog k cfg ops = l1 ++ e :: l2 -> opens cfg e id expires workers subj ->
  (expires <= height (ch_requests c) \/ exists h' vs' o, (Vote h' a id vs', o) ∈ l2) ->
  qstep (chain_estimate k a gas others height) (chain_broadcast k a others height) limit c q (QMsg (id, vs)) =
  ({| ch_state := vrun k cfg ops; ch_requests := S (ch_requests c) |}, [CEstimate [(id, vs)] None], Stopped EEstimateFee).
Proof. exact arrival_unfit. Qed.
Print Assumptions C114_arrival_stops.

(** So a vote that is handed over and sent in time need not count, even if it
    would be accepted alone at every height concerned and settle the poll. *)
Theorem C114_in_time_refuted : exists k cfg ops a gas height limit (b : ballot) ins m,
  let c := {| ch_state := vrun k cfg ops; ch_requests := 0 |} in
  let '(c', calls, o) := qrun (chain_estimate k a gas (fun _ => []) height) (chain_broadcast k a (fun _ => []) height) limit c ins in
  (** the vote is handed over, and would be taken at every height there is *)
  QMsg b ∈ ins /\ (forall n, is_ok (verifier_step k (vrun k cfg ops) (cast (height n) a b)) = true) /\
  (forall n, message_status k (run (verifier_step k) (vrun k cfg ops) [cast (height n) a b]) m = Ok Verified) /\
  (** it was sent, yet it does not count, and no more is sent *)
  (exists bs, b ∈ bs /\ CBroadcast bs false ∈ calls) /\
  message_status k (ch_state c') m = Ok StatusInProgress /\ o = Stopped EBroadcast.
Proof. exact vb_refuted. Qed.
Print Assumptions C114_in_time_refuted.

Example C114_ex_accepted :
  is_Some (tx_run (verifier_step lx_k) (vrun lx_k ex_cfg vb_ops) (cast 14 "w1" <$> [(1, [SucceededOnChain]); (2, [SucceededOnChain])])) /\
  ~ is_Some (tx_run (verifier_step lx_k) (vrun lx_k ex_cfg vb_ops) (cast 14 "w1" <$> [(1, [SucceededOnChain]); (1, [SucceededOnChain])])).
Proof. exact vb_accepted. Qed.
(** Sent one block earlier, both votes count. *)
Example C114_ex_in_time : (vb_run 14).2 = Running mq_new /\
  message_status lx_k (ch_state (vb_run 14).1.1) ex_m1 = Ok StatusInProgress /\
  message_status lx_k (ch_state (vb_run 14).1.1) ex_m2 = Ok Verified.
Proof. exact vb_in_time. Qed.
Example C114_ex_opens : exists op s' out subj, verifier_step lx_k (vrun lx_k ex_cfg []) op = Ok (s', out) /\
  opens ex_cfg (op, out) 1 15 lx_workers subj /\ vb_ops = [] ++ op :: skipn 1 vb_ops.
Proof. exact vb_opens. Qed.
(** The vote on poll 1 was waiting and is lost, though it would be accepted. *)
Example C114_ex_again : vb_again.1.2 = [CEstimate [(1, [SucceededOnChain])] (Some 100); CEstimate [(2, [SucceededOnChain])] None] /\
  vb_again.2 = Stopped EEstimateFee /\
  is_ok (verifier_step lx_k (ch_state vb_again.1.1) (cast 14 "w2" (1, [SucceededOnChain]))) = true.
Proof. exact vb_again_stops. Qed.
Example C114_ex_finishes :
  let r := qrun (chain_estimate lx_k "w1" (fun _ => 100) (fun _ => []) (vb_height 14)) (chain_broadcast lx_k "w1" (fun _ => []) (vb_height 14))
    1000 vb_chain [QMsg (1, [SucceededOnChain]); QMsg (2, [SucceededOnChain]); QClose] in
  r.2 = Finished /\ message_status lx_k (ch_state r.1.1) ex_m2 = Ok Verified.
Proof. exact vb_finishes. Qed.
