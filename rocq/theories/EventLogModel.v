(** The events the contracts add to their responses, letter by letter: type
    and attributes as [cosmwasm_std::Event] holds them. The wasm module puts
    ["wasm-"] before the type and the address of the contract before the
    attributes (see JsonModel); neither is repeated here. Maps that the code
    keeps in a [HashMap] are written in the order of their keys. *)
From Verif Require Import Base Text StdModel RouterTypes RegistryTypes OperatorsModel RouterModel GatewayModel
  MultisigTypes MultisigModel EncodingModel ProverModel VerifierModel EventsModel JsonModel WireModel.

Definition emitted := (string * text)%type.

(** contracts/connection-router/src/events.rs:104-119 and 121-124
    [make_message_event] *)
Definition message_attrs (m : message) : text :=
  [("id", cc_id (m_cc m)); ("source_chain", cc_chain (m_cc m)); ("source_addresses", m_src m);
   ("destination_chain", m_dchain m); ("destination_addresses", m_daddr m); ("payload_hash", to_hex (m_hash m))].
Definition message_event (ty : string) (m : message) : emitted := (ty, message_attrs m).

(** contracts/connection-router/src/events.rs:46-52 and contract.rs:33-39:
    the nexus gateway is left out *)
Definition router_instantiated (c : rtconfig) : emitted :=
  ("router_instantiated", [("admin_address", rc_admin c); ("governance_address", rc_governance c)]).
(** events.rs:54-75, 92-96, 126-130 with contract/execute.rs:36, 65-73, 88,
    103, 192-194 *)
Definition router_events (o : rtout) : list emitted :=
  match o with
  | EvChainRegistered name gateway => [("chain_registered", [("name", name); ("gateway", gateway)])]
  | EvGatewayUpgraded chain gateway => [("gateway_upgraded", [("chain", chain); ("gateway_address", gateway)])]
  | EvChainFrozen name => [("chain_frozen", [("name", name)])]
  | OutRouted _ ms => message_event "message_routed" <$> ms
  end.

(** contracts/gateway/src/events.rs:12-26 with contract/execute.rs:94-97,
    106-127 *)
Definition gateway_events (o : gwout) : list emitted :=
  (message_event "message_routed" <$> go_routed o) ++ (message_event "message_routing_failed" <$> go_failed o).

(** contracts/multisig/src/events.rs:44-99 with contract.rs:122-132, 252-296 *)
Definition multisig_events (o : mout) : list emitted :=
  match o with
  | OutStarted id wsid keys msg chain =>
      [("signing_started",
        [("session_id", dec id); ("worker_set_id", wsid);
         ("pub_keys", to_json (JObj ((fun p => (p.1, e_public_key p.2)) <$> btree_iter keys)));
         ("msg", to_hex msg); ("chain", chain)])]
  | OutSigned _ id signer sg completed =>
      ("signature_submitted",
       [("session_id", dec id); ("participant", signer); ("signature", to_hex (sig_bytes sg))]) ::
      match completed with
      | Some h => [("signing_completed", [("session_id", dec id); ("completed_at", dec h)])]
      | None => []
      end
  | OutNone => []
  | OutKey worker key =>
      [("public_key_registered", [("worker", to_json (JStr worker)); ("public_key", to_json (e_public_key key))])]
  | OutCaller authorized caller =>
      [(if authorized then "caller_authorized" else "caller_unauthorized", [("contract_address", caller)])]
  end.

(** contracts/voting-verifier/src/events.rs:15-39 with contract.rs:31 *)
Definition verifier_instantiated (c : vconfig) : emitted :=
  ("instantiated",
   [("service_name", vc_service c); ("service_registry_contract", vc_registry c);
    ("source_gateway_address", vc_gateway c); ("voting_threshold", to_json (e_threshold (vc_threshold c)));
    ("block_expiry", dec (vc_expiry c)); ("confirmation_height", dec (vc_confirmations c))]).
(** events.rs:60-109, 179-213 with execute.rs:50-64, 132-146, 165-172,
    207-214 *)
Definition verifier_events (o : vout) : list emitted :=
  match o with
  | OutVerify _ None => []
  | OutVerify _ (Some (es, m)) =>
      [("messages_poll_started", ("messages", to_json (JArr (message_json <$> es))) :: metadata_text m)]
  | OutWorkerSet tx idx o m =>
      [("worker_set_poll_started", ("worker_set", to_json (worker_set_json tx idx o)) :: metadata_text m)]
  | OutVoted id voter => [("voted", [("poll_id", to_json (e_uint id)); ("voter", voter)])]
  | OutEnded _ result =>
      [("poll_ended", [("poll_id", to_json (e_uint (ps_poll_id result)));
                       ("results", to_json (e_list (e_opt e_vote) (ps_results result)))])]
  end.

(** contracts/multisig-prover/src/events.rs:13-33 with reply.rs:26-33;
    types.rs:31-37 [BatchId] *)
Definition prover_events (o : pout) : list emitted :=
  match px_event o with
  | Some (batch, session) =>
      [("proof_under_construction", [("command_batch_id", to_json (e_hex batch));
                                     ("multisig_session_id", to_json (e_uint session))])]
  | None => []
  end.
