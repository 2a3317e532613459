(** Polls that a worker's handler leaves out. *)
From Verif Require Import Base Text StdModel RouterTypes OperatorsModel EncodingModel VerifierModel EventsModel HandlersModel HandlersSpec.

(** The event says: poll [poll] of this handler's contract, until [expires],
    and this worker takes part. *)
Definition listed (cfg : hconfig) (ev : event) (ty : string) (poll expires : N) : Prop :=
  has_attr ev ty "_contract_address" (JStr (hc_contract cfg)) /\
  (exists x, has_attr ev ty "poll_id" (JStr x) /\ parse_u64 x = Some poll) /\
  (exists l, has_attr ev ty "participants" (JArr l) /\ JStr (hc_worker cfg) ∈ l) /\
  has_attr ev ty "expires_at" (JNum expires).

(** The handler for events of this type sends nothing, at this height, whatever
    its node would answer; the EVM handlers if the event is about their chain. *)
Inductive passes (acc : string -> bool) (b58 : string -> option string) (cfg : hconfig) (height : N) (ev : event) : string -> Prop :=
| pass_evm_messages open rpc : evm_msg_handler acc cfg height open rpc ev = Ok None ->
    poll_of_chain cfg ev "wasm-messages_poll_started" -> passes acc b58 cfg height ev "wasm-messages_poll_started"
| pass_evm_set open rpc : evm_ws_handler acc cfg height open rpc ev = Ok None ->
    poll_of_chain cfg ev "wasm-worker_set_poll_started" -> passes acc b58 cfg height ev "wasm-worker_set_poll_started"
| pass_sui_messages open rpc : sui_msg_handler acc b58 cfg height open rpc ev = Ok None ->
    passes acc b58 cfg height ev "wasm-messages_poll_started"
| pass_sui_set open rpc : sui_ws_handler acc b58 cfg height open rpc ev = Ok None ->
    passes acc b58 cfg height ev "wasm-worker_set_poll_started".
