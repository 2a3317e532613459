(** C55, C56: the queue of a worker's transactions. *)
From Verif Require Import Base Text QueueModel QueueSpec QueueProofs QueueProofs2 QueueExamples.

(** While the queue runs, the batches broadcast so far, all successfully, and
    then the queued messages, are the messages received, in order. *)
Theorem C55_running : forall B M (estimate : B -> list M -> B * option N) (broadcast : B -> list M -> B * bool)
    limit b ins b' calls q,
  qrun estimate broadcast limit b ins = (b', calls, Running q) -> accounted ins calls (mq_msgs q).
Proof. exact @c55_running. Qed.
Print Assumptions C55_running.

(** When it has ended without error, everything received was broadcast. *)
Theorem C55_finished : forall B M (estimate : B -> list M -> B * option N) (broadcast : B -> list M -> B * bool)
    limit b ins b' calls,
  qrun estimate broadcast limit b ins = (b', calls, Finished) -> accounted ins calls [].
Proof. exact @c55_finished. Qed.
Print Assumptions C55_finished.

(** Tick, forced broadcast and end of input broadcast exactly the queued
    messages, as one batch; the task goes on, ends or stops accordingly. *)
Theorem C55_next : forall B M (estimate : B -> list M -> B * option N) (broadcast : B -> list M -> B * bool)
    limit b ins b' calls q i,
  qrun estimate broadcast limit b ins = (b', calls, Running q) -> i = QTick \/ i = QForce \/ i = QClose ->
  exists b'' ok o, qrun estimate broadcast limit b (ins ++ [i]) = (b'', calls ++ one_batch (mq_msgs q) ok, o) /\
    (mq_msgs q = [] -> ok = true) /\
    o = if ok then (match i with QClose => Finished | _ => Running mq_new end) else Stopped EBroadcast.
Proof. exact @c55_next. Qed.
Print Assumptions C55_next.

(** Whatever happens, what is broadcast is the beginning of what was received. *)
Theorem C55_prefix : forall B M (estimate : B -> list M -> B * option N) (broadcast : B -> list M -> B * bool)
    limit b ins b' calls o,
  qrun estimate broadcast limit b ins = (b', calls, o) -> exists rest, received ins = sent calls ++ rest.
Proof. exact @c55_prefix. Qed.
Print Assumptions C55_prefix.

(** What is lost when the task stops: after a failed broadcast, that batch and
    the message being handled, if it was one; after a failed estimate, the
    whole queue and the message. *)
Theorem C55_lost : forall B M (estimate : B -> list M -> B * option N) (broadcast : B -> list M -> B * bool)
    limit b ins b' calls e,
  qrun estimate broadcast limit b ins = (b', calls, Stopped e) ->
  exists pre i post pending,
    ins = pre ++ i :: post /\ received (pre ++ [i]) = delivered calls ++ pending ++ received [i] /\
    match e with
    | EBroadcast => exists calls', calls = calls' ++ [CBroadcast pending false] /\ all_ok calls' /\ pending <> []
    | EEstimateFee => exists calls' m, calls = calls' ++ [CEstimate [m] None] /\ all_ok calls' /\ i = QMsg m
    end.
Proof. exact @c55_lost. Qed.
Print Assumptions C55_lost.

(** So more can be lost than the failed batch ... *)
Theorem C55_lost_only_batch_refuted : exists (B M : Type) (estimate : B -> list M -> B * option N)
    (broadcast : B -> list M -> B * bool) limit b ins b' calls calls' batch,
  qrun estimate broadcast limit b ins = (b', calls, Stopped EBroadcast) /\ calls = calls' ++ [CBroadcast batch false] /\
  received ins <> delivered calls ++ batch.
Proof. exact c55_lost_only_batch_refuted. Qed.
Print Assumptions C55_lost_only_batch_refuted.

(** ... and queued messages are lost although no broadcast failed. *)
Theorem C55_lost_without_failure_refuted : exists (B M : Type) (estimate : B -> list M -> B * option N)
    (broadcast : B -> list M -> B * bool) limit b ins b' calls,
  qrun estimate broadcast limit b ins = (b', calls, Stopped EEstimateFee) /\
  all_ok calls /\ sent calls = [] /\ (2 < length (received ins))%nat.
Proof. exact c55_estimate_drops_queue. Qed.
Print Assumptions C55_lost_without_failure_refuted.

(** Every batch is of messages whose estimates were obtained, one each and in
    order; none is empty; two or more messages are below the limit together. *)
Theorem C56_gas : forall B M (estimate : B -> list M -> B * option N) (broadcast : B -> list M -> B * bool)
    limit b ins b' calls o,
  qrun estimate broadcast limit b ins = (b', calls, o) ->
  Forall (fun '(ms, est) => ms <> [] /\ fst <$> est = ms /\ ((2 <= length ms)%nat -> total_gas est < limit))
    (priced [] calls).
Proof. exact @c56_gas. Qed.
Print Assumptions C56_gas.

(** [priced] leaves out no batch. *)
Theorem C56_all_batches : forall M known (calls : list (call M)),
  fst <$> priced known calls = fst <$> batches calls.
Proof. exact @priced_batches. Qed.
Print Assumptions C56_all_batches.

(** A message that fits causes no broadcast. *)
Theorem C56_no_early_broadcast : forall B M (estimate : B -> list M -> B * option N)
    (broadcast : B -> list M -> B * bool) limit b ins b1 calls q m g b2,
  qrun estimate broadcast limit b ins = (b1, calls, Running q) -> estimate b1 [m] = (b2, Some g) ->
  g + total_gas (unsent [] calls) < limit -> limit <= U64 ->
  exists q', qrun estimate broadcast limit b (ins ++ [QMsg m]) =
      (b2, calls ++ [CEstimate [m] (Some g)], Running q') /\
    mq_msgs q' = mq_msgs q ++ [m].
Proof. exact @c56_no_early. Qed.
Print Assumptions C56_no_early_broadcast.

(** The task panics only if estimates overflow. *)
Theorem C56_crash : forall B M (estimate : B -> list M -> B * option N) (broadcast : B -> list M -> B * bool)
    limit b ins b' calls,
  qrun estimate broadcast limit b ins = (b', calls, Crashed) ->
  exists calls' m g, calls = calls' ++ [CEstimate [m] (Some g)] /\ U64 <= g + total_gas (unsent [] calls').
Proof. exact @c56_crash. Qed.
Print Assumptions C56_crash.

(** The condition on two or more messages is needed: one message goes out
    whatever its estimate. *)
Theorem C56_single_message_above_limit : exists (B M : Type) (estimate : B -> list M -> B * option N)
    (broadcast : B -> list M -> B * bool) limit b ins b' calls m g,
  qrun estimate broadcast limit b ins = (b', calls, Finished) /\ limit < g /\ ([m], [(m, g)]) ∈ priced [] calls.
Proof. exact c56_single_above. Qed.
Print Assumptions C56_single_message_above_limit.

(** The hypotheses above are met by these values. *)
Example C55_ex_finishes : ex_run ex_answers ex_ins =
  (([], []), [CEstimate [1] (Some 40); CEstimate [2] (Some 50); CEstimate [3] (Some 10); CBroadcast [1; 2] true;
              CBroadcast [3] true; CEstimate [4] (Some 200); CEstimate [5] (Some 1); CBroadcast [4] true;
              CBroadcast [5] true], Finished).
Proof. exact ex_finishes. Qed.
Example C55_ex_running : exists b calls q,
  ex_run ex_answers (take 3 ex_ins) = (b, calls, Running q) /\ mq_msgs q = [1; 2].
Proof. exact ex_goes_on. Qed.
Example C55_ex_broadcast_fails : ex_run ([Some 40; Some 50; Some 10], [false]) [QMsg 1; QMsg 2; QMsg 3] =
  (([], []), [CEstimate [1] (Some 40); CEstimate [2] (Some 50); CEstimate [3] (Some 10); CBroadcast [1; 2] false],
   Stopped EBroadcast).
Proof. exact ex_broadcast_fails. Qed.
Example C56_ex_crash : ex_run ([Some (2 ^ 64 - 1); Some 1], []) [QMsg 1; QMsg 2] =
  (([], []), [CEstimate [1] (Some (2 ^ 64 - 1)); CEstimate [2] (Some 1)], Crashed).
Proof. exact ex_crashes. Qed.
