(** C61, C80-C85: all contracts together. Transactions by anybody, in any
    order, with any other contracts. *)
From Verif Require Import Base Text StdModel RegistryTypes RouterTypes MultisigTypes OperatorsModel RouterModel RouterSpec
  GatewayModel GatewaySpec NexusModel RewardsModel RewardsSpec RegistryModel VerifierModel VerifierSpec MultisigModel MultisigSpec
  EncodingModel EncodingSpec EncodingExamples MultisigExamples ProverModel ProverSpec ProverExamples
  SigningModel SigningSpec SigningExamples SystemModel SystemSpec
  SystemProofs6 SystemProofs7 SystemProofs8 SystemProofs9 SystemExamples.

(** A gateway of a modelled router serves a message only if the router sent it
    there, having it from the gateway of its source chain or the nexus
    gateway; a modelled gateway had it reported verified by its verifier,
    after a quorum; the nexus gateway had it from the nexus module. *)
Theorem C61_served_messages_arrived : forall keccak wshash sec1 crypto dep txs d gs id m rc,
  sysrun keccak wshash sec1 crypto dep txs !! d = Some (CGateway gs) ->
  GatewayModel.get_messages gs [id] = Ok [m] -> dep !! gc_router (gw_config gs) = Some (DRouter rc) ->
  id = m_cc m /\
  arrived keccak dep (gc_router (gw_config gs)) rc d (history keccak wshash sec1 crypto dep txs) m.
Proof. exact c61_served. Qed.
Print Assumptions C61_served_messages_arrived.

Example C61_served : exists gs, sys_run sys_all !! "gateway" = Some (CGateway gs) /\
  GatewayModel.get_messages gs [m_cc (sys_m 1)] = Ok [sys_m 1] /\
  GatewayModel.get_messages gs [m_cc (from_nexus sys_n)] = Ok [from_nexus sys_n] /\
  is_ok (GatewayModel.get_messages gs [m_cc (sys_m 2)]) = false /\
  sys_dep !! gc_router (gw_config gs) = Some (DRouter sys_rc).
Proof. exact sys_served. Qed.

(** Whatever else happens, a contract's state is that after the calls it got,
    each of which it accepts; it is so at the end and at each call; nothing
    appears elsewhere. *)
Theorem C80_contracts_as_alone : forall keccak wshash sec1 crypto dep txs a,
  as_alone keccak wshash crypto (dep !! a) a (history keccak wshash sec1 crypto dep txs)
    (sysrun keccak wshash sec1 crypto dep txs !! a).
Proof. exact c80. Qed.
Print Assumptions C80_contracts_as_alone.
Theorem C80_during_calls : forall keccak wshash sec1 crypto dep txs pre k post a,
  history keccak wshash sec1 crypto dep txs = pre ++ k :: post ->
  as_alone keccak wshash crypto (dep !! a) a pre (k_chain k !! a).
Proof. exact c80_during. Qed.
Print Assumptions C80_during_calls.
(** The same for a prover with its multisig, replies included. *)
Theorem C80_prover_with_multisig : forall keccak wshash sec1 crypto dep txs p c g r n,
  dep !! p = Some (DProver c) -> dep !! pc_multisig c = Some (DMultisig g r n) ->
  let ops := signing_ops keccak p c (history keccak wshash sec1 crypto dep txs) in
  pair_state (sysrun keccak wshash sec1 crypto dep txs) p c (srun keccak wshash sec1 crypto c p g r n ops) /\
  (slog keccak wshash sec1 crypto c p g r n ops).*1 = ops.
Proof. exact pair_run. Qed.
Print Assumptions C80_prover_with_multisig.

Example C80_counts : length sys_all = 40%nat /\
  length (syslog ex_keccak ex_wshash ex_sec1 ex_crypto sys_dep sys_all) = 38%nat /\ length (sys_history sys_all) = 53%nat.
Proof. exact sys_counts. Qed.

(** Anybody routing messages through a gateway gets those reported verified,
    and no others, to the gateways of their destination chains, where they
    are served from then on; nothing else changes. *)
Theorem C81_verified_messages_delivered : forall keccak wshash sec1 crypto dep txs G gc rc,
  dep !! G = Some (DGateway gc) -> dep !! gc_router gc = Some (DRouter rc) ->
  let st := sysrun keccak wshash sec1 crypto dep txs in
  forall vs rs, st !! gc_verifier gc = Some (CVerifier vs) -> st !! gc_router gc = Some (CRouter rs) ->
  forall g e a ms, dep !! a = None -> distinct_ids ms -> is_ok (is_verified keccak vs ms) = true ->
  let v := filter (fun m => status_verified keccak vs m = true) ms in
  may_send rs G v ->
  Forall (fun m => exists d, goes_to rs G (m_dchain m) = Some d /\ takes_from (gc_router gc) (st !! d)) v ->
  exists st' l,
    system_step keccak wshash sec1 crypto st
      {| tx_gas := S (S (S g)); tx_env := e; tx_sender := a; tx_sub := plain G (BRoute ms) |} = Ok (st', l) /\
    forall d, st' !! d = with_messages (filter (fun m => goes_to rs G (m_dchain m) = Some d) v) (st !! d).
Proof. exact c81. Qed.
Print Assumptions C81_verified_messages_delivered.
(** But one verified message that cannot go on stops the whole call. *)
Theorem C81_one_stops_all : forall keccak wshash sec1 crypto dep txs G gc rc,
  dep !! G = Some (DGateway gc) -> dep !! gc_router gc = Some (DRouter rc) ->
  let st := sysrun keccak wshash sec1 crypto dep txs in
  forall vs rs, st !! gc_verifier gc = Some (CVerifier vs) -> st !! gc_router gc = Some (CRouter rs) ->
  forall g e a ms r, dep !! a = None -> distinct_ids ms -> is_verified keccak vs ms = Ok r ->
  let v := filter (fun m => status_verified keccak vs m = true) ms in
  v <> [] -> ~ (may_send rs G v /\ Forall (fun m => is_Some (goes_to rs G (m_dchain m))) v) ->
  is_ok (system_step keccak wshash sec1 crypto st
      {| tx_gas := g; tx_env := e; tx_sender := a; tx_sub := plain G (BRoute ms) |}) = false.
Proof. exact c81_blocked. Qed.
Print Assumptions C81_one_stops_all.

Example C81_may_route : routing_check (sys_setup ++ sys_voting) [sys_m 2; sys_m 1] = true.
Proof. exact sys_may_route. Qed.
Example C81_blocked : routing_check sys_frozen [sys_m 2; sys_m 1] = false /\
  is_ok (system_step ex_keccak ex_wshash ex_sec1 ex_crypto (sys_run sys_frozen) (send 22 "relayer" "gw-eth" (BRoute [sys_m 2; sys_m 1]))) = false.
Proof. exact sys_blocked. Qed.

(** What the rewards contract counts for a verifier is attendance of its
    polls: a worker's record is there if and only if the worker voted in line
    with all results of a poll that was ended; once per poll. *)
Theorem C82_polls_attended : forall keccak wshash sec1 crypto dep txs V vc g0 d0 p0 h0,
  dep !! V = Some (DVerifier vc) -> dep !! vc_rewards vc = Some (DRewards g0 d0 p0 h0) ->
  let i := {| ri_gov := g0; ri_denom := d0; ri_params := p0; ri_height := h0 |} in
  let l := history keccak wshash sec1 crypto dep txs in
  let ops := rewards_ops (vc_rewards vc) l in
  (forall ev w, (V, ev, w) ∈ records (rlog i ops) <-> exists id, ev = dec id /\ poll_attended V l id w) /\
  NoDup (pool_records V (rlog i ops)) /\
  (valid_rinit i -> Forall valid_rop ops -> forall n w,
   exists rs ids, sysrun keccak wshash sec1 crypto dep txs !! vc_rewards vc = Some (CRewards rs) /\
     NoDup ids /\ (forall id, id ∈ ids <-> poll_attended V l id w /\ first_seen i ops V (dec id) n) /\
     participated rs V n w = N.of_nat (length ids) /\ participated rs V n w <= event_count rs V n).
Proof. exact c82_polls. Qed.
Print Assumptions C82_polls_attended.
(** For a multisig it is signatures submitted to sessions, once per session. *)
Theorem C82_sessions_attended : forall keccak wshash sec1 crypto dep txs M g r n g0 d0 p0 h0,
  dep !! M = Some (DMultisig g r n) -> dep !! r = Some (DRewards g0 d0 p0 h0) ->
  let i := {| ri_gov := g0; ri_denom := d0; ri_params := p0; ri_height := h0 |} in
  let l := history keccak wshash sec1 crypto dep txs in
  let ops := rewards_ops r l in
  (forall ev w, (M, ev, w) ∈ records (rlog i ops) <-> exists id, ev = dec id /\ session_attended M l id w) /\
  NoDup (pool_records M (rlog i ops)) /\
  (valid_rinit i -> Forall valid_rop ops -> forall n w,
   exists rs ids, sysrun keccak wshash sec1 crypto dep txs !! r = Some (CRewards rs) /\
     NoDup ids /\ (forall id, id ∈ ids <-> session_attended M l id w /\ first_seen i ops M (dec id) n) /\
     participated rs M n w = N.of_nat (length ids) /\ participated rs M n w <= event_count rs M n).
Proof. exact c82_sessions. Qed.
Print Assumptions C82_sessions_attended.

Example C82_attendance : attendance (sys_run sys_all) "ver-eth" 0 = ([1; 1; 0; 0], 1) /\
  attendance (sys_run sys_all) "multisig" 0 = ([2; 2; 0; 0], 2) /\
  (rlog sys_ri (rewards_ops "rewards" (sys_history sys_all))) !! 7%nat = Some (Distribute 310 "ver-eth" None, [("alice", 30); ("bob", 30)]).
Proof. exact sys_attendance. Qed.
Example C82_valid : valid_rinit sys_ri /\ Forall valid_rop (rewards_ops "rewards" (sys_history sys_all)).
Proof. exact sys_valid. Qed.

(** What a proof says: commands for messages that were asked for and that
    arrived at the prover's gateway before, for its chain, and possibly a
    transfer to the worker set active when it was asked for. *)
Theorem C83_proof_contents : forall keccak wshash sec1 recover crypto dep txs p c g r n,
  dep !! p = Some (DProver c) -> dep !! pc_multisig c = Some (DMultisig g r n) ->
  forall s id resp gc rc,
  dep !! pc_gateway c = Some (DGateway gc) -> dep !! gc_router gc = Some (DRouter rc) ->
  pair_state (sysrun keccak wshash sec1 crypto dep txs) p c s -> system_proof keccak sec1 recover c s id = Ok resp ->
  exists pre k post msgs ts cs, history keccak wshash sec1 crypto dep txs = pre ++ k :: post /\ k_to k = p /\
    (sb_body (k_sub k) = BProver (ConstructProof (m_cc <$> msgs)) \/
     sb_body (k_sub k) = BProver UpdateWorkerSet /\ msgs = []) /\
    pr_ids resp = m_cc <$> msgs /\ d_chain (pr_data resp) = pc_chain_id c /\ d_commands (pr_data resp) = ts ++ cs /\
    (ts = [] \/ exists t ws, ts = [t] /\ make_transfer keccak wshash sec1 (pc_encoder c) ws = Ok t /\
       is_active_set c (prover_env keccak (k_env k) (k_index k) (k_chain k)) ws) /\
    Forall2 (fun m x => make_command keccak (pc_encoder c) m = Ok x) msgs cs /\
    Forall (fun m => m_dchain m = pc_chain c /\ arrived keccak dep (gc_router gc) rc (pc_gateway c) pre m) msgs.
Proof. exact c83. Qed.
Print Assumptions C83_proof_contents.

(** Whose signatures a prover asks for: its worker set is that active when it
    was first set, or one that was active when proposed, since when no other
    was confirmed, and that a quorum of the workers of its own chain's
    verifier saw take effect there. *)
Theorem C84_current_worker_set : forall keccak wshash sec1 crypto dep txs p c g r n,
  dep !! p = Some (DProver c) -> dep !! pc_multisig c = Some (DMultisig g r n) ->
  forall s ws,
  pair_state (sysrun keccak wshash sec1 crypto dep txs) p c s -> query_worker_set (sy_prover s) = Ok ws ->
  exists pre k post, history keccak wshash sec1 crypto dep txs = pre ++ k :: post /\ k_to k = p /\
    ConfirmWorkerSet ∉ prover_calls p post /\
    ((sb_body (k_sub k) = BProver UpdateWorkerSet /\ prover_calls p pre = [] /\
      is_active_set c (prover_env keccak (k_env k) (k_index k) (k_chain k)) ws) \/
     (sb_body (k_sub k) = BProver ConfirmWorkerSet /\
      (exists la k0 lb, pre = la ++ k0 :: lb /\ k_to k0 = p /\ ConfirmWorkerSet ∉ prover_calls p lb /\
         is_active_set c (prover_env keccak (k_env k0) (k_index k0) (k_chain k0)) ws) /\
      exists o, make_operators keccak sec1 (pc_encoder c) ws = Ok o /\
        forall vc, dep !! pc_verifier c = Some (DVerifier vc) -> valid_vconfig vc ->
          operators_quorum keccak (pc_verifier c) vc pre o)).
Proof. exact c84_set. Qed.
Print Assumptions C84_current_worker_set.

(** Who signed a completed proof: members of the prover's worker set at the
    moment the session was started, each in a call of their own, with good
    signatures, reaching the threshold. *)
Theorem C85_proof_signers : forall keccak wshash sec1 recover crypto dep txs p c g r n,
  dep !! p = Some (DProver c) -> dep !! pc_multisig c = Some (DMultisig g r n) ->
  let l := history keccak wshash sec1 crypto dep txs in
  let trace x := prover_trace (slog keccak wshash sec1 crypto c p g r n (signing_ops keccak p c x)) in
  forall s id resp d,
  (forall x, String.length (keccak x) = 32%nat) -> (forall w, String.length (wshash w) = 32%nat) ->
  pc_chain_id c < U256 -> hashes_apart wshash (pc_multisig c) l ->
  pair_state (sysrun keccak wshash sec1 crypto dep txs) p c s -> system_proof keccak sec1 recover c s id = Ok resp ->
  pr_status resp = PfCompleted d ->
  exists pre k post s0 cur b0 digest l1 e l2 sel,
    l = pre ++ k :: post /\ k_to k = p /\ k_chain k !! p = Some (CProver c s0) /\ query_worker_set s0 = Ok cur /\
    trace l = l1 ++ e :: l2 /\ l1 = trace pre /\
    sb_body (k_sub k) = BProver (po_call e.1) /\ asks_to_sign keccak wshash c e.2 cur b0 id /\
    msg_digest keccak b0 = Ok digest /\
    (not_rebuilt keccak wshash sec1 c (l1 ++ [e]) l2 (b_id b0) -> pr_data resp = b_data b0 /\ pr_ids resp = b_ids b0 /\
       (set_ok cur -> fits (pc_encoder c) d -> proof_shows keccak sec1 recover b0 (ws_threshold cur) sel d)) /\
    Forall (fun x => ws_signers cur !! sg_addr x.1 = Some x.1 /\ good_signature crypto x.2 digest (sg_key x.1) /\
      exists k', k' ∈ l /\ k_to k' = pc_multisig c /\ k_sender k' = sg_addr x.1 /\
        sb_body (k_sub k') = BSubmitSignature id (sig_bytes x.2)) (signed sel) /\
    NoDup (sg_addr ∘ fst <$> signed sel) /\ ws_threshold cur <= weight_of (signed sel).
Proof. exact c85. Qed.
Print Assumptions C85_proof_signers.

(** A completed proof of a message from ethereum and one from nexus, and the
    worker sets before and after a change. *)
Example C83_C85_completed : exists s resp d, pair_state (sys_run sys_all) "prover" (pcfg Abi) s /\
  system_proof ex_keccak ex_sec1 sys_recover (pcfg Abi) s 1 = Ok resp /\ pr_status resp = PfCompleted d /\
  pr_ids resp = [m_cc (sys_m 1); m_cc (from_nexus sys_n)].
Proof. exact sys_completed. Qed.
Example C85_apart : hashes_apart ex_wshash "multisig" (sys_history sys_all).
Proof. exact sys_apart. Qed.
Example C84_sets : created (sys_run sys_txs) = Some (3, ["bob"; "alice"; "carol"]) /\
  created (sys_run sys_all) = Some (31, ["dave"; "bob"; "alice"]).
Proof. exact sys_sets. Qed.
