(** C58, C60, C67: what the handlers of a worker vote for and sign, when they
    do, and which events stop them. *)
From Verif Require Import Base Text StdModel StdSpec RouterTypes RegistryTypes OperatorsModel EncodingModel VerifierModel
  VerifierSpec VerifierExamples EventsModel HandlersModel HandlersSpec HandlersProofs HandlersProofs2 HandlersProofs3
  WorkersSpec HandlersExamples.

(** ** C58 *)

(** Messages of an EVM chain: one vote per message, in order, each right. *)
Theorem C58_evm_messages : forall acc cfg height open rpc ev tx,
  evm_msg_handler acc cfg height open rpc ev = Ok (Some tx) ->
  exists poll confs gw js votes,
    poll_for cfg height ev "wasm-messages_poll_started" poll /\
    poll_of_chain cfg ev "wasm-messages_poll_started" /\
    has_attr ev "wasm-messages_poll_started" "confirmation_height" (JNum confs) /\
    (exists x, has_attr ev "wasm-messages_poll_started" "source_gateway_address" (JStr x) /\ hex_bytes 20 x gw) /\
    has_attr ev "wasm-messages_poll_started" "messages" (JArr js) /\
    tx = {| wt_sender := hc_worker cfg; wt_contract := hc_contract cfg; wt_body := BodyVote poll votes |} /\
    Forall2 (evm_message_vote (hc_chain cfg) confs rpc gw) js votes.
Proof. exact evm_msg_votes. Qed.
Print Assumptions C58_evm_messages.

Theorem C58_evm_worker_set : forall acc cfg height open rpc ev tx,
  evm_ws_handler acc cfg height open rpc ev = Ok (Some tx) ->
  exists poll confs gw j vote,
    poll_for cfg height ev "wasm-worker_set_poll_started" poll /\
    poll_of_chain cfg ev "wasm-worker_set_poll_started" /\
    has_attr ev "wasm-worker_set_poll_started" "confirmation_height" (JNum confs) /\
    (exists x, has_attr ev "wasm-worker_set_poll_started" "source_gateway_address" (JStr x) /\ hex_bytes 20 x gw) /\
    has_attr ev "wasm-worker_set_poll_started" "worker_set" j /\
    tx = {| wt_sender := hc_worker cfg; wt_contract := hc_contract cfg; wt_body := BodyVote poll [vote] |} /\
    evm_worker_set_vote (hc_chain cfg) confs rpc gw j vote.
Proof. exact evm_ws_vote. Qed.
Print Assumptions C58_evm_worker_set.

(** The same for Sui; the node is asked for exactly the transactions of the
    messages. *)
Theorem C58_sui_messages : forall acc b58 cfg height open rpc ev tx,
  sui_msg_handler acc b58 cfg height open rpc ev = Ok (Some tx) ->
  exists poll gw js votes ids bs,
    poll_for cfg height ev "wasm-messages_poll_started" poll /\
    (exists x, has_attr ev "wasm-messages_poll_started" "source_gateway_address" (JStr x) /\ hex_bytes 32 x gw) /\
    has_attr ev "wasm-messages_poll_started" "messages" (JArr js) /\
    tx = {| wt_sender := hc_worker cfg; wt_contract := hc_contract cfg; wt_body := BodyVote poll votes |} /\
    sr_blocks rpc ids = Some bs /\
    (set_order (sr_order rpc) -> NoDup ids /\ forall t, t ∈ ids <->
       exists j x, j ∈ js /\ has_field j "tx_id" (JStr x) /\ b58 x = Some t) /\
    Forall2 (sui_message_vote b58 bs gw) js votes.
Proof. exact sui_msg_votes. Qed.
Print Assumptions C58_sui_messages.

Theorem C58_sui_worker_set : forall acc b58 cfg height open rpc ev tx,
  sui_ws_handler acc b58 cfg height open rpc ev = Ok (Some tx) ->
  exists poll gw j vote,
    poll_for cfg height ev "wasm-worker_set_poll_started" poll /\
    (exists x, has_attr ev "wasm-worker_set_poll_started" "source_gateway_address" (JStr x) /\ hex_bytes 32 x gw) /\
    has_attr ev "wasm-worker_set_poll_started" "worker_set" j /\
    tx = {| wt_sender := hc_worker cfg; wt_contract := hc_contract cfg; wt_body := BodyVote poll [vote] |} /\
    sui_worker_set_vote b58 rpc gw j vote.
Proof. exact sui_ws_vote. Qed.
Print Assumptions C58_sui_worker_set.

(** What counts as final depends on the spelling of the configured name: two
    spellings that accept the same polls give different votes. *)
Theorem C58_spelling_decides_finality : exists name name' ev rpc,
  lower name = lower name' /\ honest_receipts rpc /\ set_order (er_order rpc) /\
  let cfg n := {| hc_worker := "w1"; hc_contract := "verifier"; hc_chain := evm_chain_of n |} in
  let tx vs := Ok (Some {| wt_sender := "w1"; wt_contract := "verifier"; wt_body := BodyVote 7 vs |}) in
  evm_msg_handler hx_acc (cfg name) 49 true rpc ev = tx [NotFound; NotFound] /\
  evm_msg_handler hx_acc (cfg name') 49 true rpc ev = tx [SucceededOnChain; NotFound].
Proof. exact c58_spelling. Qed.
Print Assumptions C58_spelling_decides_finality.

(** The handlers answer with votes on these values. *)
Example C58_ex_evm :
  evm_msg_handler hx_acc (hx_cfg "w1") 49 true hx_node hx_poll =
    Ok (Some {| wt_sender := "w1"; wt_contract := "verifier"; wt_body := BodyVote 7 [SucceededOnChain; NotFound] |}) /\
  evm_ws_handler hx_acc (hx_cfg "w1") 49 true hx_node hx_ws_poll =
    Ok (Some {| wt_sender := "w1"; wt_contract := "verifier"; wt_body := BodyVote 7 [SucceededOnChain] |}).
Proof. exact hx_votes. Qed.
Example C58_ex_node : honest_receipts hx_node /\ set_order (er_order hx_node).
Proof. exact (conj hx_honest hx_order). Qed.
Example C58_ex_sui :
  sui_msg_handler hx_acc hs_b58 (hs_cfg "w1") 49 true hs_node hs_poll =
    Ok (Some {| wt_sender := "w1"; wt_contract := "sui verifier"; wt_body := BodyVote 8 [SucceededOnChain] |}) /\
  sui_ws_handler hx_acc hs_b58 (hs_cfg "w1") 49 true hs_node hs_ws_poll =
    Ok (Some {| wt_sender := "w1"; wt_contract := "sui verifier"; wt_body := BodyVote 8 [SucceededOnChain] |}) /\
  sui_msg_handler hx_acc hs_b58 (hs_cfg "w3") 49 true hs_node hs_poll = Ok None /\
  sui_ws_handler hx_acc hs_b58 (hs_cfg "w1") 50 true hs_node hs_ws_poll = Ok None.
Proof. exact hs_votes. Qed.

(** ** C60 *)

(** A signature is submitted only for a session of the configured multisig
    that lists this worker, with the listed key, over the digest given. *)
Theorem C60_signing : forall acc de_key cfg open sign ev tx,
  multisig_handler acc de_key cfg open sign ev = Ok (Some tx) ->
  exists session l v pk x digest sig,
    has_attr ev "wasm-signing_started" "_contract_address" (JStr (hc_contract cfg)) /\
    has_attr ev "wasm-signing_started" "session_id" (JNum session) /\
    has_attr ev "wasm-signing_started" "pub_keys" (JObj l) /\ (hc_worker cfg, v) ∈ l /\ de_key v = Some pk /\
    has_attr ev "wasm-signing_started" "msg" (JStr x) /\ of_hex x = Some digest /\ String.length digest = 32%nat /\
    sign (hc_contract cfg) digest pk = Some sig /\
    tx = {| wt_sender := hc_worker cfg; wt_contract := hc_contract cfg; wt_body := BodySignature session sig |}.
Proof. exact multisig_submits. Qed.
Print Assumptions C60_signing.

(** An event that is passed over is no open poll for this worker, and nothing
    the node or the queue could answer changes that. (That what is voted on is
    one: [C58_evm_messages] and its likes.) *)
Theorem C60_evm_messages_ignored : forall acc cfg height open rpc ev,
  evm_msg_handler acc cfg height open rpc ev = Ok None ->
  (forall poll, poll_for cfg height ev "wasm-messages_poll_started" poll ->
     poll_of_chain cfg ev "wasm-messages_poll_started" -> False) /\
  forall open' rpc', evm_msg_handler acc cfg height open' rpc' ev = Ok None.
Proof. exact evm_msg_ignored. Qed.
Print Assumptions C60_evm_messages_ignored.

Theorem C60_evm_worker_set_ignored : forall acc cfg height open rpc ev,
  evm_ws_handler acc cfg height open rpc ev = Ok None ->
  (forall poll, poll_for cfg height ev "wasm-worker_set_poll_started" poll ->
     poll_of_chain cfg ev "wasm-worker_set_poll_started" -> False) /\
  forall open' rpc', evm_ws_handler acc cfg height open' rpc' ev = Ok None.
Proof. exact evm_ws_ignored. Qed.
Print Assumptions C60_evm_worker_set_ignored.

Theorem C60_sui_messages_ignored : forall acc b58 cfg height open rpc ev,
  sui_msg_handler acc b58 cfg height open rpc ev = Ok None ->
  (forall poll, poll_for cfg height ev "wasm-messages_poll_started" poll -> False) /\
  forall open' rpc', sui_msg_handler acc b58 cfg height open' rpc' ev = Ok None.
Proof. exact sui_msg_ignored. Qed.
Print Assumptions C60_sui_messages_ignored.

Theorem C60_sui_worker_set_ignored : forall acc b58 cfg height open rpc ev,
  sui_ws_handler acc b58 cfg height open rpc ev = Ok None ->
  (forall poll, poll_for cfg height ev "wasm-worker_set_poll_started" poll -> False) /\
  forall open' rpc', sui_ws_handler acc b58 cfg height open' rpc' ev = Ok None.
Proof. exact sui_ws_ignored. Qed.
Print Assumptions C60_sui_worker_set_ignored.

Theorem C60_signing_ignored : forall acc de_key cfg open sign ev,
  multisig_handler acc de_key cfg open sign ev = Ok None ->
  (forall l v, has_attr ev "wasm-signing_started" "_contract_address" (JStr (hc_contract cfg)) ->
     has_attr ev "wasm-signing_started" "pub_keys" (JObj l) -> (hc_worker cfg, v) ∈ l -> False) /\
  forall open' sign', multisig_handler acc de_key cfg open' sign' ev = Ok None.
Proof. exact multisig_ignored. Qed.
Print Assumptions C60_signing_ignored.

(** A poll the verifier opens about messages in EVM form is voted on by every
    participant, if its node knows what is final. *)
Theorem C60_participants_vote : forall acc cfg height open rpc json es meta gw h,
  acc (hc_contract cfg) = true -> Forall (fun a => acc a = true) (pm_participants meta) ->
  json (hc_contract cfg) = None -> json (pm_chain meta) = None -> json (pm_gateway meta) = None ->
  wf_chain (pm_chain meta) -> hex_bytes 20 (pm_gateway meta) gw ->
  pm_poll_id meta < 2 ^ 64 -> pm_confirmations meta < 2 ^ 64 -> pm_expires_at meta < 2 ^ 64 ->
  Forall evm_form es ->
  lower (evm_chain_str (hc_chain cfg)) = pm_chain meta -> hc_worker cfg ∈ pm_participants meta ->
  height < pm_expires_at meta ->
  finalized_height (hc_chain cfg) (pm_confirmations meta) rpc = Ok h -> open = true ->
  exists votes,
    evm_msg_handler acc cfg height open rpc (messages_poll_event json (hc_contract cfg) es meta) =
    Ok (Some {| wt_sender := hc_worker cfg; wt_contract := hc_contract cfg;
                wt_body := BodyVote (pm_poll_id meta) votes |}) /\ length votes = length es.
Proof. exact messages_handled. Qed.
Print Assumptions C60_participants_vote.

Example C60_ex_ignored :
  evm_msg_handler hx_acc (hx_cfg "w3") 49 true hx_node hx_poll = Ok None /\
  evm_msg_handler hx_acc (hx_cfg "w1") 50 true hx_node hx_poll = Ok None /\
  evm_ws_handler hx_acc (hx_cfg "w3") 49 true hx_node hx_ws_poll = Ok None /\
  evm_ws_handler hx_acc (hx_cfg "w1") 49 true hx_node hx_poll = Ok None.
Proof. exact hx_ignored. Qed.
Example C60_ex_signing :
  multisig_handler hx_acc hm_key (hm_cfg "w2") true hm_sign hm_event =
    Ok (Some {| wt_sender := "w2"; wt_contract := "multisig"; wt_body := BodySignature 5 (hx_hash +:+ "key2") |}) /\
  multisig_handler hx_acc hm_key (hm_cfg "w3") true hm_sign hm_event = Ok None.
Proof. exact hm_signs. Qed.

(** ** C67 *)

(** The property is false: one call anyone can make has the verifier emit an
    event on which every EVM message handler ends with an error. *)
Theorem C67_message_id_stops_handler_refuted : exists c op ev,
  valid_vconfig c /\
  (forall k json, emitted json "verifier" <$> vlog k c [op] = [Some (ev json)]) /\
  forall json acc cfg height open rpc, evm_msg_handler acc cfg height open rpc (ev json) = Err DeserializeEvent.
Proof. exact c67_bad_id. Qed.
Print Assumptions C67_message_id_stops_handler_refuted.

(** In general, any message of a poll whose id does not start with a
    transaction hash does, whichever contract the handler is for. *)
Theorem C67_message_id_stops_handler : forall acc cfg height open rpc json contract es meta e,
  e ∈ es -> (forall t, ~ hex_bytes 32 (te_tx_id e) t) ->
  evm_msg_handler acc cfg height open rpc (messages_poll_event json contract es meta) = Err DeserializeEvent.
Proof. exact bad_id_stops_evm. Qed.
Print Assumptions C67_message_id_stops_handler.

(** Polls of EVM chains stop the Sui handlers and the other way round. *)
Theorem C67_evm_poll_stops_sui : forall acc b58 cfg height open rpc json contract es tx idx o meta gw,
  json (pm_gateway meta) = None -> hex_bytes 20 (pm_gateway meta) gw ->
  sui_msg_handler acc b58 cfg height open rpc (messages_poll_event json contract es meta) = Err DeserializeEvent /\
  sui_ws_handler acc b58 cfg height open rpc (worker_set_poll_event json contract tx idx o meta) = Err DeserializeEvent.
Proof. exact evm_poll_stops_sui. Qed.
Print Assumptions C67_evm_poll_stops_sui.
Theorem C67_sui_poll_stops_evm : forall acc cfg height open rpc json contract es tx idx o meta gw,
  json (pm_gateway meta) = None -> hex_bytes 32 (pm_gateway meta) gw ->
  evm_msg_handler acc cfg height open rpc (messages_poll_event json contract es meta) = Err DeserializeEvent /\
  evm_ws_handler acc cfg height open rpc (worker_set_poll_event json contract tx idx o meta) = Err DeserializeEvent.
Proof. exact sui_poll_stops_evm. Qed.
Print Assumptions C67_sui_poll_stops_evm.

(** So do a source chain and a digest that read as a JSON number. *)
Theorem C67_numeric_chain_stops_handler : forall acc cfg height open rpc json contract es tx idx o meta n,
  json (pm_chain meta) = Some (JNum n) ->
  evm_msg_handler acc cfg height open rpc (messages_poll_event json contract es meta) = Err DeserializeEvent /\
  evm_ws_handler acc cfg height open rpc (worker_set_poll_event json contract tx idx o meta) = Err DeserializeEvent.
Proof. exact numeric_chain_stops_evm. Qed.
Print Assumptions C67_numeric_chain_stops_handler.
Theorem C67_numeric_digest_stops_handler : forall acc de_key cfg open sign json contract session keys digest v,
  json (to_hex digest) = Some v -> (v = JOtherNum \/ exists n, v = JNum n) ->
  multisig_handler acc de_key cfg open sign (signing_event json contract session keys digest) = Err DeserializeEvent.
Proof. exact numeric_digest_stops. Qed.
Print Assumptions C67_numeric_digest_stops_handler.

(** And a poll that asks for more confirmations than its chain has blocks
    makes the handler of a proof-of-work chain panic. *)
Theorem C67_young_chain_panics : forall acc cfg height open rpc ev s attrs p n,
  hc_chain cfg = OtherChain s -> ev = Abci "wasm-messages_poll_started" attrs ->
  de_evm_messages acc attrs = Some p -> evm_relevant cfg height p = true ->
  er_latest rpc = Some n -> n < ep_confirmations p ->
  evm_msg_handler acc cfg height open rpc ev = Panic.
Proof. exact young_chain_panics. Qed.
Print Assumptions C67_young_chain_panics.
