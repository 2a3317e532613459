(** contracts/batching: a contract that forwards lists of messages, and the
    host that executes them.

    The host is the wasm module of the chain (wasmd, not in this repository):
    it executes the messages of a response one after the other, each in a
    sandbox whose effects are kept if the message succeeds and dropped if it
    fails; calls the contract's [reply] if that was asked for; fails the
    whole transaction if a message fails whose failure was not asked for, or
    if the reply fails; and refuses responses whose events it does not
    accept. Simplifications: the state and the messages are arbitrary types,
    executing a message is an arbitrary function of the state, and a
    message's events are those the host shows the contract. *)
From Verif Require Import Base Text.

Record event := { ev_type : string; ev_attrs : list (string * string) }.
Global Instance event_eq_dec : EqDecision event.
Proof. solve_decision. Defined.

(** cosmwasm_std [ReplyOn], [SubMsg] *)
Inductive reply_on := ReplyNever | ReplyAlways.
Record submsg (M : Type) := { sm_id : N; sm_msg : M; sm_reply : reply_on }.
Arguments sm_id {M}. Arguments sm_msg {M}. Arguments sm_reply {M}. Arguments Build_submsg {M}.

(** msg.rs:12-16 [BatchMsg] *)
Record batch_msg (M : Type) := { bm_must : list M; bm_can : list M }.
Arguments bm_must {M}. Arguments bm_can {M}. Arguments Build_batch_msg {M}.

(** [Iterator::enumerate], [as u64] *)
Fixpoint enumerate {M} (n : N) (l : list M) : list (N * M) :=
  match l with [] => [] | x :: l => (n, x) :: enumerate (N.succ n) l end.

(** contract.rs:43-52 [dispatch]; [add_messages] asks for no reply *)
Definition dispatch {M} (b : batch_msg M) : list (submsg M) :=
  ((fun m => Build_submsg 0 m ReplyNever) <$> bm_must b) ++
  ((fun '(i, m) => Build_submsg i m ReplyAlways) <$> enumerate 0 (bm_can b)).

(** contract.rs:32-41 [reply]: the events of the response. It never fails. *)
Definition reply_events (id : N) (result : res string (list event)) : list event :=
  match result with
  | Ok evs => evs
  | Err e => [{| ev_type := "failed_msg"; ev_attrs := [(dec id, e)] |}]
  | Panic => [{| ev_type := "failed_msg"; ev_attrs := [(dec id, "")] |}]
  end.

Section Host.
  Context {S M : Type} (exec : S -> M -> res string (S * list event)) (accepts : list event -> bool).

  (** One message of the response; the events it adds to the transaction. *)
  Definition host_one (s : S) (m : submsg M) : res string (S * list event) :=
    match exec s (sm_msg m), sm_reply m with
    | Ok (s', evs), ReplyNever => Ok (s', evs)
    | Ok (s', evs), ReplyAlways =>
        let r := reply_events (sm_id m) (Ok evs) in
        if accepts r then Ok (s', evs ++ r) else Err "invalid event"
    | Err e, ReplyNever => Err e
    | Err e, ReplyAlways =>
        let r := reply_events (sm_id m) (Err e) in
        if accepts r then Ok (s, r) else Err "invalid event"
    | Panic, ReplyNever => Err "panic"
    | Panic, ReplyAlways =>
        let r := reply_events (sm_id m) Panic in
        if accepts r then Ok (s, r) else Err "invalid event"
    end.
  Fixpoint host_all (s : S) (l : list (submsg M)) : res string (S * list event) :=
    match l with
    | [] => Ok (s, [])
    | m :: l => let? (s1, e1) := host_one s m in
                let? (s2, e2) := host_all s1 l in
                Ok (s2, e1 ++ e2)
    end.

  (** contract.rs:20-30 [execute]: a transaction that sends a batch *)
  Definition host_batch (s : S) (b : batch_msg M) : res string (S * list event) := host_all s (dispatch b).
End Host.
