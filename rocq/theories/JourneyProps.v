(** C86, C87: the whole way, from what workers' nodes show of the source chain
    to the messages served and proved for the destination chain. *)
From Verif Require Import Base Text StdModel StdSpec RegistryTypes RouterTypes MultisigTypes OperatorsModel RouterModel
  GatewayModel NexusModel VerifierModel VerifierSpec MultisigModel MultisigExamples EncodingModel EncodingSpec EncodingExamples
  ProverModel ProverSpec ProverExamples SigningModel SigningSpec SigningExamples EventsModel HandlersModel HandlersSpec WorkersSpec
  HandlersExamples SystemModel SystemSpec SystemProofs9 SystemExamples JourneySpec JourneyProofs3 JourneyExamples.

(** Whatever anybody sends to the contracts: if the workers that run ampd are
    enough for the others not to decide a poll, a message is served at its
    destination only if a node of one of those workers shows the message sent
    from the source chain's gateway, finally; unless it is from the nexus
    module. *)
Theorem C86_served_messages_were_sent : forall keccak wshash sec1 crypto acc json b58 dep txs watches,
  well_watched keccak acc json b58 watches dep (history keccak wshash sec1 crypto dep txs) ->
  forall d gs id m rc,
  sysrun keccak wshash sec1 crypto dep txs !! d = Some (CGateway gs) ->
  GatewayModel.get_messages gs [id] = Ok [m] -> dep !! gc_router (gw_config gs) = Some (DRouter rc) ->
  id = m_cc m /\
  came b58 watches dep (gc_router (gw_config gs)) rc d (history keccak wshash sec1 crypto dep txs) m.
Proof. exact c86_served. Qed.
Print Assumptions C86_served_messages_were_sent.
(** The same for the messages of a proof: the commands of a proof are for
    such messages, sent before the proof was asked for. *)
Theorem C86_proved_messages_were_sent : forall keccak wshash sec1 crypto acc json b58 dep txs watches,
  well_watched keccak acc json b58 watches dep (history keccak wshash sec1 crypto dep txs) ->
  forall recover p c g r n,
  dep !! p = Some (DProver c) -> dep !! pc_multisig c = Some (DMultisig g r n) ->
  forall s id resp gc rc,
  dep !! pc_gateway c = Some (DGateway gc) -> dep !! gc_router gc = Some (DRouter rc) ->
  pair_state (sysrun keccak wshash sec1 crypto dep txs) p c s -> system_proof keccak sec1 recover c s id = Ok resp ->
  exists pre k post msgs ts cs, history keccak wshash sec1 crypto dep txs = pre ++ k :: post /\ k_to k = p /\
    (sb_body (k_sub k) = BProver (ConstructProof (m_cc <$> msgs)) \/
     sb_body (k_sub k) = BProver UpdateWorkerSet /\ msgs = []) /\
    pr_ids resp = m_cc <$> msgs /\ d_chain (pr_data resp) = pc_chain_id c /\ d_commands (pr_data resp) = ts ++ cs /\
    (ts = [] \/ exists t ws, ts = [t] /\ make_transfer keccak wshash sec1 (pc_encoder c) ws = Ok t /\
       is_active_set c (prover_env keccak (k_env k) (k_index k) (k_chain k)) ws) /\
    Forall2 (fun m x => make_command keccak (pc_encoder c) m = Ok x) msgs cs /\
    Forall (fun m => m_dchain m = pc_chain c /\ came b58 watches dep (gc_router gc) rc (pc_gateway c) pre m) msgs.
Proof. exact c86_proof. Qed.
Print Assumptions C86_proved_messages_were_sent.

Example C86_watched : well_watched ex_keccak hx_acc hx_json hs_b58 jx_watches jx_dep (jx_history jx_txs).
Proof. exact jx_watched. Qed.
Example C86_served : exists gs, jx_run jx_txs !! "gateway" = Some (CGateway gs) /\
  GatewayModel.get_messages gs [m_cc jx_m1] = Ok [jx_m1] /\ is_ok (GatewayModel.get_messages gs [m_cc jx_m2]) = false /\
  jx_dep !! gc_router (gw_config gs) = Some (DRouter sys_rc).
Proof. exact jx_served. Qed.
Example C86_proved : exists s resp d, pair_state (jx_run jx_txs) "prover" (pcfg Bcs) s /\
  system_proof ex_keccak ex_sec1 sys_recover (pcfg Bcs) s 1 = Ok resp /\ pr_status resp = PfCompleted d /\
  pr_ids resp = [m_cc jx_m1].
Proof. exact jx_proof. Qed.
(** the other worker of the example votes as no node shows; with one more like
    it there would be no such assurance *)
Example C86_other_worker :
  ampd_check ex_keccak hx_acc hx_json hs_b58 (EvmNode (OtherChain "Ethereum") jx_node) "ver-eth" "carol" [] (jx_history jx_txs) = false /\
  few_check ex_keccak hx_json ["alice"] "ver-eth" jx_eth (jx_history jx_txs) = false.
Proof. exact (conj jx_carol jx_too_many). Qed.

(** The worker set whose signatures a prover asks for is the first one or one
    that the destination chain's gateway was shown to have taken, by a node of
    a worker that runs ampd, before it was confirmed. *)
Theorem C87_current_worker_set_took_over : forall keccak wshash sec1 crypto acc json b58 dep txs watches,
  well_watched keccak acc json b58 watches dep (history keccak wshash sec1 crypto dep txs) ->
  forall p c g r n,
  dep !! p = Some (DProver c) -> dep !! pc_multisig c = Some (DMultisig g r n) ->
  forall s ws,
  pair_state (sysrun keccak wshash sec1 crypto dep txs) p c s -> query_worker_set (sy_prover s) = Ok ws ->
  ws_threshold ws < U256 ->
  exists pre k post, history keccak wshash sec1 crypto dep txs = pre ++ k :: post /\ k_to k = p /\
    ConfirmWorkerSet ∉ prover_calls p post /\
    ((sb_body (k_sub k) = BProver UpdateWorkerSet /\ prover_calls p pre = [] /\
      is_active_set c (prover_env keccak (k_env k) (k_index k) (k_chain k)) ws) \/
     (sb_body (k_sub k) = BProver ConfirmWorkerSet /\
      exists o, make_operators keccak sec1 (pc_encoder c) ws = Ok o /\
        forall vc w trusted, dep !! pc_verifier c = Some (DVerifier vc) -> watches (pc_verifier c) = Some (w, trusted) ->
          exists k0 mid, k0 ∈ pre /\ k_to k0 = pc_verifier c /\ sb_body (k_sub k0) = BVerifyWorkerSet mid o /\
            took_over b58 w vc mid o)).
Proof. exact c87. Qed.
Print Assumptions C87_current_worker_set_took_over.

Example C87_confirmed : exists s ws, pair_state (jx_run jx_txs) "prover" (pcfg Bcs) s /\ query_worker_set (sy_prover s) = Ok ws /\
  ws_created ws = 31 /\ ws_threshold ws = 2 /\ sg_addr <$> members ws = ["dave"; "bob"; "alice"].
Proof. exact jx_set. Qed.
