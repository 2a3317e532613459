(** ampd/src/queue: the task that collects a worker's transactions and
    broadcasts them in batches. *)
From Verif Require Import Base Text.

(** msg_queue.rs:3-7 [MsgQueue] *)
Record msg_queue (M : Type) := { mq_msgs : list M; mq_gas : N }.
Arguments mq_msgs {M}. Arguments mq_gas {M}. Arguments Build_msg_queue {M}.

(** [MsgQueue::default] *)
Definition mq_new {M} : msg_queue M := {| mq_msgs := []; mq_gas := 0 |}.

(** msg_queue.rs:10-13 [push]; [+=] on u64 panics on overflow
    (Cargo.toml:40 overflow-checks) *)
Definition mq_push {M E} (q : msg_queue M) (m : M) (gas : N) : res E (msg_queue M) :=
  let? g := add_u64 (mq_gas q) gas in
  Ok {| mq_msgs := mq_msgs q ++ [m]; mq_gas := g |}.

(** msg_queue.rs:15-21 [pop_all] *)
Definition mq_pop_all {M} (q : msg_queue M) : list M * msg_queue M := (mq_msgs q, mq_new).

(** What [select!] can find ready (queued_broadcaster.rs:114-144): a message
    from one of the clients, the interval's tick, a forced broadcast (or the
    driver's end closed, which is always ready), all clients gone. Which of
    several ready branches is taken is not determined, so a run is any list of
    these. The channel delivers the messages in the order they were sent (tokio,
    not modelled), and an interval's reset has no effect on what is done at a
    tick. *)
Inductive input (M : Type) := QMsg (m : M) | QTick | QForce | QClose.
Arguments QMsg {M}. Arguments QTick {M}. Arguments QForce {M}. Arguments QClose {M}.

(** The calls of trait [Broadcaster] (broadcaster.rs:82-85), with their answers *)
Inductive call (M : Type) :=
| CEstimate (ms : list M) (answer : option N)
| CBroadcast (ms : list M) (ok : bool).
Arguments CEstimate {M}. Arguments CBroadcast {M}.

(** queued_broadcaster.rs:18-25 [Error] *)
Inductive qerr := EEstimateFee | EBroadcast.

(** How far [run] has come: in the loop, returned [Ok], returned an error,
    panicked. *)
Inductive outcome (M : Type) :=
| Running (q : msg_queue M) | Finished | Stopped (e : qerr) | Crashed.
Arguments Running {M}. Arguments Finished {M}. Arguments Stopped {M}. Arguments Crashed {M}.

Section Queue.
  (** Any broadcaster: its state, its answers to [estimate_fee] (the gas limit
      of the fee, the rest is not used) and [broadcast]. *)
  Context {B M : Type}.
  Context (estimate : B -> list M -> B * option N).
  Context (broadcast : B -> list M -> B * bool).
  Context (batch_gas_limit : N).

  (** queued_broadcaster.rs:158-176 [broadcast_all] *)
  Definition broadcast_all (b : B) (q : msg_queue M) : B * list (call M) * bool * msg_queue M :=
    let (ms, q') := mq_pop_all q in
    match ms with
    | [] => (b, [], true, q')
    | _ => let (b', ok) := broadcast b ms in (b', [CBroadcast ms ok], ok, q')
    end.

  (** queued_broadcaster.rs:116-136, the branch of a received message *)
  Definition on_msg (b : B) (q : msg_queue M) (m : M) : B * list (call M) * outcome M :=
    let (b1, answer) := estimate b [m] in
    let c := CEstimate [m] answer in
    match answer with
    | None => (b1, [c], Stopped EEstimateFee)
    | Some gas =>
        match add_u64 (E:=qerr) gas (mq_gas q) with
        | Err _ | Panic => (b1, [c], Crashed)
        | Ok total =>
            let '(b2, calls, ok, q') :=
              if batch_gas_limit <=? total then broadcast_all b1 q else (b1, [], true, q) in
            if ok then
              match mq_push (E:=qerr) q' m gas with
              | Ok q'' => (b2, c :: calls, Running q'')
              | _ => (b2, c :: calls, Crashed)
              end
            else (b2, c :: calls, Stopped EBroadcast)
        end
    end.

  (** queued_broadcaster.rs:137-142 (tick and force), 115 and 147 (close) *)
  Definition qstep (b : B) (q : msg_queue M) (i : input M) : B * list (call M) * outcome M :=
    match i with
    | QMsg m => on_msg b q m
    | QTick | QForce =>
        let '(b', calls, ok, q') := broadcast_all b q in
        (b', calls, if ok then Running q' else Stopped EBroadcast)
    | QClose =>
        let '(b', calls, ok, _) := broadcast_all b q in
        (b', calls, if ok then Finished else Stopped EBroadcast)
    end.

  (** queued_broadcaster.rs:113-145, the loop *)
  Fixpoint qloop (b : B) (q : msg_queue M) (ins : list (input M)) : B * list (call M) * outcome M :=
    match ins with
    | [] => (b, [], Running q)
    | i :: ins =>
        match qstep b q i with
        | (b', calls, Running q') => let '(b'', calls', o) := qloop b' q' ins in (b'', calls ++ calls', o)
        | stop => stop
        end
    end.

  (** queued_broadcaster.rs:104-150 [run] *)
  Definition qrun (b : B) (ins : list (input M)) : B * list (call M) * outcome M := qloop b mq_new ins.
End Queue.
