(** C60, the other direction, for worker sets and Sui: every participant votes.
    Vocabulary: ParticipantsSpec.v. C60_participants_vote (HandlersProps.v)
    says it of messages of EVM chains. *)
From Verif Require Import Base Text StdModel RouterTypes OperatorsModel EncodingModel VerifierModel EventsModel HandlersModel
  HandlersSpec HandlersExamples ParticipantsSpec ParticipantsProofs ParticipantsExamples.

(** A participant of an open worker set poll casts one vote, once its node
    answers. *)
Theorem C60_participants_vote_worker_set : forall acc cfg height rpc json tx t idx o meta gw h r,
  plain_poll acc json cfg meta -> hex_bytes 20 (pm_gateway meta) gw ->
  hex_bytes 32 tx t -> idx < 2 ^ 64 -> evm_operators_form o ->
  lower (evm_chain_str (hc_chain cfg)) = pm_chain meta -> hc_worker cfg ∈ pm_participants meta ->
  height < pm_expires_at meta ->
  finalized_height (hc_chain cfg) (pm_confirmations meta) rpc = Ok h -> er_receipt rpc t = Some r ->
  exists vote,
    evm_ws_handler acc cfg height true rpc (worker_set_poll_event json (hc_contract cfg) tx idx o meta) =
    Ok (Some {| wt_sender := hc_worker cfg; wt_contract := hc_contract cfg; wt_body := BodyVote (pm_poll_id meta) [vote] |}).
Proof. exact worker_set_handled. Qed.
Print Assumptions C60_participants_vote_worker_set.

(** So does a participant of a poll on a Sui chain: one vote for each message, *)
Theorem C60_participants_vote_sui : forall acc b58 cfg height rpc json es meta gw,
  plain_poll acc json cfg meta -> hex_bytes 32 (pm_gateway meta) gw -> Forall (sui_form b58) es ->
  hc_worker cfg ∈ pm_participants meta -> height < pm_expires_at meta ->
  (forall ids, is_Some (sr_blocks rpc ids)) ->
  exists votes,
    sui_msg_handler acc b58 cfg height true rpc (messages_poll_event json (hc_contract cfg) es meta) =
    Ok (Some {| wt_sender := hc_worker cfg; wt_contract := hc_contract cfg;
                wt_body := BodyVote (pm_poll_id meta) votes |}) /\ length votes = length es.
Proof. exact sui_messages_handled. Qed.
Print Assumptions C60_participants_vote_sui.

(** and one for a worker set. *)
Theorem C60_participants_vote_sui_worker_set : forall acc b58 cfg height rpc json tx t idx o meta gw,
  plain_poll acc json cfg meta -> hex_bytes 32 (pm_gateway meta) gw ->
  b58 tx = Some t -> idx < 2 ^ 64 -> sui_operators_form o ->
  hc_worker cfg ∈ pm_participants meta -> height < pm_expires_at meta -> is_Some (sr_block rpc t) ->
  exists vote,
    sui_ws_handler acc b58 cfg height true rpc (worker_set_poll_event json (hc_contract cfg) tx idx o meta) =
    Ok (Some {| wt_sender := hc_worker cfg; wt_contract := hc_contract cfg; wt_body := BodyVote (pm_poll_id meta) [vote] |}).
Proof. exact sui_worker_set_handled. Qed.
Print Assumptions C60_participants_vote_sui_worker_set.

(** And a worker listed in a signing session signs the digest with the key
    listed for it, once its key daemon does. *)
Theorem C60_participants_sign : forall acc (de_key : jval -> option string) cfg sign json session keys digest v pk sig,
  acc (hc_contract cfg) = true -> json (hc_contract cfg) = None -> json (to_hex digest) = None ->
  session < 2 ^ 64 -> String.length digest = 32%nat ->
  Forall (fun kv : string * jval => acc kv.1 = true /\ is_Some (de_key kv.2)) keys -> NoDup keys.*1 ->
  (hc_worker cfg, v) ∈ keys -> de_key v = Some pk -> sign (hc_contract cfg) digest pk = Some sig ->
  multisig_handler acc de_key cfg true sign (signing_event json (hc_contract cfg) session keys digest) =
  Ok (Some {| wt_sender := hc_worker cfg; wt_contract := hc_contract cfg; wt_body := BodySignature session sig |}).
Proof. exact signing_handled. Qed.
Print Assumptions C60_participants_sign.

Example C60_ex_worker_set :
  exists vote, evm_ws_handler hx_acc (hx_cfg "w1") 49 true hx_node hx_ws_poll =
    Ok (Some {| wt_sender := "w1"; wt_contract := "verifier"; wt_body := BodyVote 7 [vote] |}).
Proof. exact px_worker_set. Qed.
Example C60_ex_sui :
  (exists votes, sui_msg_handler hx_acc hs_b58 (hs_cfg "w1") 49 true hs_node hs_poll =
    Ok (Some {| wt_sender := "w1"; wt_contract := "sui verifier"; wt_body := BodyVote 8 votes |}) /\ length votes = 1%nat) /\
  exists vote, sui_ws_handler hx_acc hs_b58 (hs_cfg "w1") 49 true hs_node hs_ws_poll =
    Ok (Some {| wt_sender := "w1"; wt_contract := "sui verifier"; wt_body := BodyVote 8 [vote] |}).
Proof. exact px_sui. Qed.
Example C60_ex_signs : multisig_handler hx_acc hm_key (hm_cfg "w2") true hm_sign hm_event =
  Ok (Some {| wt_sender := "w2"; wt_contract := "multisig"; wt_body := BodySignature 5 (hx_hash +:+ "key2") |}).
Proof. exact px_signs. Qed.
