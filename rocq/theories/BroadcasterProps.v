(** C57: the client that broadcasts a worker's transactions. *)
From Verif Require Import Base Text QueueModel QueueSpec BroadcasterModel BroadcasterSpec BroadcasterProofs
  BroadcasterProofs2 BroadcasterExamples.

(** One broadcast: which calls it makes, what it answers, and that the number
    advances by one exactly if the answer is a confirmation with code 0. *)
Theorem C57_broadcast : forall W M simulate sign broadcast_tx get_tx cfg (c : client (W:=W) (M:=M)) ms c' r,
  client_broadcast simulate sign broadcast_tx get_tx cfg c ms = (c', r) ->
  bc_max_retries cfg + 1 < U32 -> cl_seq c + 1 < U64 ->
  exists calls, cl_log c' = cl_log c ++ calls /\ broadcast_calls cfg (cl_seq c) ms calls r /\
    cl_seq c' = cl_seq c + (if is_ok r then 1 else 0).
Proof. exact @broadcast_spec. Qed.
Print Assumptions C57_broadcast.

(** Over any requests: every transaction handed to the node carries the first
    number plus the confirmations seen before it, and so does the client
    afterwards (unless it panicked). *)
Theorem C57_sequence : forall W M simulate sign broadcast_tx get_tx cfg (c : client (W:=W) (M:=M)) rs c' alive,
  requests simulate sign broadcast_tx get_tx cfg c rs = (c', alive) ->
  exists new, cl_log c' = cl_log c ++ new /\
    (forall l1 t a l2, new = l1 ++ RBroadcast t a :: l2 -> tx_seq t = cl_seq c + confirmations l1) /\
    (alive = true -> cl_seq c' = cl_seq c + confirmations new).
Proof. exact @requests_seq. Qed.
Print Assumptions C57_sequence.

(** Behind the queue, which stops at the first failure, the numbers are
    consecutive: none is used twice. The transactions carry the messages
    received, in order. *)
Theorem C57_queue : forall W M simulate sign broadcast_tx get_tx cfg limit (c : client (W:=W) (M:=M)) ins c' calls o,
  qrun (queue_estimate simulate cfg) (queue_broadcast simulate sign broadcast_tx get_tx cfg) limit c ins = (c', calls, o) ->
  exists new, cl_log c' = cl_log c ++ new /\ consecutive (cl_seq c) (tx_seq <$> txs new) /\
    exists rest, received ins = concat (tx_msgs <$> txs new) ++ rest.
Proof. exact @c57_queue. Qed.
Print Assumptions C57_queue.

(** And all of them if the queue ends without error. *)
Theorem C57_queue_finished : forall W M simulate sign broadcast_tx get_tx cfg limit (c : client (W:=W) (M:=M)) ins c' calls,
  qrun (queue_estimate simulate cfg) (queue_broadcast simulate sign broadcast_tx get_tx cfg) limit c ins = (c', calls, Finished) ->
  exists new, cl_log c' = cl_log c ++ new /\ consecutive (cl_seq c) (tx_seq <$> txs new) /\
    received ins = concat (tx_msgs <$> txs new) /\ cl_seq c' = cl_seq c + N.of_nat (length (txs new)).
Proof. exact @c57_queue_finished. Qed.
Print Assumptions C57_queue_finished.

(** Without the queue, a number is used again after a failure. *)
Theorem C57_number_used_again_after_failure : exists (W M : Type) simulate sign broadcast_tx get_tx cfg
    (c : client (W:=W) (M:=M)) rs c' t1 t2 l1 l2 l3,
  requests simulate sign broadcast_tx get_tx cfg c rs = (c', true) /\
  txs (cl_log c') = l1 ++ t1 :: l2 ++ t2 :: l3 /\ tx_seq t1 = tx_seq t2 /\ tx_msgs t1 <> tx_msgs t2.
Proof. exact c57_reused. Qed.
Print Assumptions C57_number_used_again_after_failure.

(** The hypotheses above are met by these values. *)
Example C57_ex_ok : ex_bc (ex_client [TUnavailable; TMissing; TCode 0]) [1] =
  ({| cl_seq := 12; cl_world := [];
      cl_log := [RSimulate (dummy_tx [1] 11) (Some (Some 100)); RSign (ex_tx [1] 11) true;
                 RBroadcast (ex_tx [1] 11) (Some "hash"); RGetTx "hash" TUnavailable; RGetTx "hash" TMissing;
                 RGetTx "hash" (TCode 0)] |}, Ok tt).
Proof. exact ex_bc_ok. Qed.
Example C57_ex_retries : exists c,
  ex_bc (ex_client [TMissing; TMissing; TMissing; TCode 0]) [1] = (c, Err BTxConfirmation) /\
  cl_seq c = 11 /\ cl_world c = [TCode 0].
Proof. exact ex_bc_retries. Qed.
Example C57_ex_execution : exists c, ex_bc (ex_client [TMissing; TCode 5; TCode 0]) [1] = (c, Err (BExecution 5)) /\
  cl_seq c = 11 /\ cl_world c = [TCode 0].
Proof. exact ex_bc_execution. Qed.
Example C57_ex_queue : exists c calls, ex_queue (ex_client [TCode 0; TUnavailable; TCode 0; TCode 0])
    [QMsg 1; QMsg 2; QMsg 3; QClose] = (c, calls, Finished) /\
  txs (cl_log c) = [ex_tx [1] 11; ex_tx [2] 12; ex_tx [3] 13] /\ cl_seq c = 14.
Proof. exact ex_queue_finishes. Qed.
