(** What is asked of each of the five handlers across runs of the daemon. *)
From Verif Require Import Base Text StdModel RouterTypes MultisigTypes EventsModel HandlersModel HandlersSpec
  SubscriptionModel QueueModel SystemModel DaemonModel.

(** The event asks this worker to do something, as the handler [c] has to see
    it: an open poll about messages or about a worker set, of the configured
    contract and chain; or a signing session. *)
Definition concerns (worker : addr) (c : handler_config) (height : N) (ev : event) : Prop :=
  match c with
  | EvmMsgVerifier a n => let cfg := {| hc_worker := worker; hc_contract := a; hc_chain := evm_chain_of n |} in
      exists poll, poll_for cfg height ev "wasm-messages_poll_started" poll /\ poll_of_chain cfg ev "wasm-messages_poll_started"
  | EvmWorkerSetVerifier a n => let cfg := {| hc_worker := worker; hc_contract := a; hc_chain := evm_chain_of n |} in
      exists poll, poll_for cfg height ev "wasm-worker_set_poll_started" poll /\ poll_of_chain cfg ev "wasm-worker_set_poll_started"
  | SuiMsgVerifier a => exists poll, poll_for {| hc_worker := worker; hc_contract := a; hc_chain := OtherChain "" |} height ev "wasm-messages_poll_started" poll
  | SuiWorkerSetVerifier a => exists poll, poll_for {| hc_worker := worker; hc_contract := a; hc_chain := OtherChain "" |} height ev "wasm-worker_set_poll_started" poll
  | MultisigSigner a => has_attr ev "wasm-signing_started" "_contract_address" (JStr a) /\
      exists l v, has_attr ev "wasm-signing_started" "pub_keys" (JObj l) /\ (worker, v) ∈ l
  end.
(** The transaction does it: right votes on what was polled, or a signature
    with the listed key over the digest. *)
Definition does (b58 : string -> option string) (de_key : jval -> option string) (worker : addr) (c : handler_config) (v : call_env)
    (ev : event) (tx : wasm_tx) : Prop :=
  match c with
  | EvmMsgVerifier a n => exists x poll confs gw y js votes,
      has_attr ev "wasm-messages_poll_started" "poll_id" (JStr x) /\ parse_u64 x = Some poll /\
      has_attr ev "wasm-messages_poll_started" "confirmation_height" (JNum confs) /\
      has_attr ev "wasm-messages_poll_started" "source_gateway_address" (JStr y) /\ hex_bytes 20 y gw /\
      has_attr ev "wasm-messages_poll_started" "messages" (JArr js) /\
      tx = {| wt_sender := worker; wt_contract := a; wt_body := BodyVote poll votes |} /\
      Forall2 (evm_message_vote (evm_chain_of n) confs (ce_evm v) gw) js votes
  | EvmWorkerSetVerifier a n => exists x poll confs gw y j vote,
      has_attr ev "wasm-worker_set_poll_started" "poll_id" (JStr x) /\ parse_u64 x = Some poll /\
      has_attr ev "wasm-worker_set_poll_started" "confirmation_height" (JNum confs) /\
      has_attr ev "wasm-worker_set_poll_started" "source_gateway_address" (JStr y) /\ hex_bytes 20 y gw /\
      has_attr ev "wasm-worker_set_poll_started" "worker_set" j /\
      tx = {| wt_sender := worker; wt_contract := a; wt_body := BodyVote poll [vote] |} /\
      evm_worker_set_vote (evm_chain_of n) confs (ce_evm v) gw j vote
  | SuiMsgVerifier a => exists x poll gw y js votes ids bs,
      has_attr ev "wasm-messages_poll_started" "poll_id" (JStr x) /\ parse_u64 x = Some poll /\
      has_attr ev "wasm-messages_poll_started" "source_gateway_address" (JStr y) /\ hex_bytes 32 y gw /\
      has_attr ev "wasm-messages_poll_started" "messages" (JArr js) /\
      tx = {| wt_sender := worker; wt_contract := a; wt_body := BodyVote poll votes |} /\
      sr_blocks (ce_sui v) ids = Some bs /\ Forall2 (sui_message_vote b58 bs gw) js votes
  | SuiWorkerSetVerifier a => exists x poll gw y j vote,
      has_attr ev "wasm-worker_set_poll_started" "poll_id" (JStr x) /\ parse_u64 x = Some poll /\
      has_attr ev "wasm-worker_set_poll_started" "source_gateway_address" (JStr y) /\ hex_bytes 32 y gw /\
      has_attr ev "wasm-worker_set_poll_started" "worker_set" j /\
      tx = {| wt_sender := worker; wt_contract := a; wt_body := BodyVote poll [vote] |} /\
      sui_worker_set_vote b58 (ce_sui v) gw j vote
  | MultisigSigner a => exists session l w pk x digest sig,
      has_attr ev "wasm-signing_started" "session_id" (JNum session) /\
      has_attr ev "wasm-signing_started" "pub_keys" (JObj l) /\ (worker, w) ∈ l /\ de_key w = Some pk /\
      has_attr ev "wasm-signing_started" "msg" (JStr x) /\ of_hex x = Some digest /\ String.length digest = 32%nat /\
      ce_sign v a digest pk = Some sig /\
      tx = {| wt_sender := worker; wt_contract := a; wt_body := BodySignature session sig |}
  end.
