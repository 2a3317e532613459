(** C109, and what holds of C63 in the whole system. Vocabulary:
    SameCallSpec.v, JourneySpec.v, SystemSpec.v. *)
From Verif Require Import Base BaseLemmas Text StdModel RouterTypes RegistryTypes OperatorsModel MultisigTypes
  RouterModel GatewayModel NexusModel RewardsModel RegistryModel VerifierModel VerifierSpec
  MultisigModel MultisigExamples EncodingModel EncodingExamples ProverModel ProverSpec ProverExamples
  SigningModel SigningSpec SigningExamples SystemModel SystemSpec SystemProofs6 SystemExamples
  EventsModel HandlersModel HandlersSpec HandlersProofs3 WorkersSpec HandlersExamples JourneySpec JourneyExamples SameCallSpec
  TwiceExamples SameCallProofs SameCallExamples.

(** ** C109: one id, one call *)

(** Whatever two gateways of one router serve under one id, at whatever two
    times, is one and the same call: to the same address on the same chain,
    with the same payload, from the same sender, whose spelling alone may
    differ. *)
Theorem C109_served : forall keccak wshash sec1 crypto acc json b58 dep watches txs later,
  well_watched keccak acc json b58 watches dep (history keccak wshash sec1 crypto dep (txs ++ later)) ->
  forall d d' gs gs' m m' rc,
  sysrun keccak wshash sec1 crypto dep txs !! d = Some (CGateway gs) -> GatewayModel.get_messages gs [m_cc m] = Ok [m] ->
  sysrun keccak wshash sec1 crypto dep (txs ++ later) !! d' = Some (CGateway gs') -> GatewayModel.get_messages gs' [m_cc m'] = Ok [m'] ->
  gc_router (gw_config gs) = gc_router (gw_config gs') -> dep !! gc_router (gw_config gs) = Some (DRouter rc) ->
  covered watches dep (gc_router (gw_config gs)) rc (history keccak wshash sec1 crypto dep (txs ++ later)) (cc_chain (m_cc m)) ->
  m_cc m = m_cc m' -> same_call m m'.
Proof. exact c109_served. Qed.
Print Assumptions C109_served.

(** So are the commands with one id in whatever two proofs of a prover; they
    are equal if the sender is spelled the same. *)
Theorem C109_commands : forall keccak wshash sec1 crypto acc json b58 dep watches txs later,
  well_watched keccak acc json b58 watches dep (history keccak wshash sec1 crypto dep (txs ++ later)) ->
  forall recover p c g r n gc rc s s' id id' resp resp' x x',
  dep !! p = Some (DProver c) -> dep !! pc_multisig c = Some (DMultisig g r n) ->
  dep !! pc_gateway c = Some (DGateway gc) -> dep !! gc_router gc = Some (DRouter rc) ->
  pair_state (sysrun keccak wshash sec1 crypto dep txs) p c s -> system_proof keccak sec1 recover c s id = Ok resp ->
  pair_state (sysrun keccak wshash sec1 crypto dep (txs ++ later)) p c s' -> system_proof keccak sec1 recover c s' id' = Ok resp' ->
  x ∈ d_commands (pr_data resp) -> x' ∈ d_commands (pr_data resp') ->
  c_ty x = ApproveContractCall -> c_ty x' = ApproveContractCall -> c_id x = c_id x' ->
  asked_apart keccak p (history keccak wshash sec1 crypto dep (txs ++ later)) ->
  (forall k ids i, k ∈ history keccak wshash sec1 crypto dep (txs ++ later) ->
     sb_body (k_sub k) = BProver (ConstructProof ids) -> i ∈ ids -> wf_chain (cc_chain i)) ->
  (forall i, i ∈ pr_ids resp -> covered watches dep (gc_router gc) rc (history keccak wshash sec1 crypto dep (txs ++ later)) (cc_chain i)) ->
  exists m m', make_command keccak (pc_encoder c) m = Ok x /\ make_command keccak (pc_encoder c) m' = Ok x' /\
    m_dchain m = m_dchain m' /\ same_call m m' /\ (m_src m = m_src m' -> x = x').
Proof. exact c109_commands. Qed.
Print Assumptions C109_commands.

(** With another spelling they are not: under all the conditions above, two
    completed proofs approve one call from two senders, under one command id.
    The destination takes one of them, once. *)
Theorem C109_spelling_refuted : exists dep txs later watches c gc rc s s' id id' resp resp' d d' x x',
  well_watched ex_keccak hx_acc hx_json hs_b58 watches dep (history ex_keccak ex_wshash ex_sec1 ex_crypto dep (txs ++ later)) /\
  dep !! "prover" = Some (DProver c) /\ dep !! pc_multisig c = Some (DMultisig "gov" "rewards" 10) /\
  dep !! pc_gateway c = Some (DGateway gc) /\ dep !! gc_router gc = Some (DRouter rc) /\
  pair_state (sysrun ex_keccak ex_wshash ex_sec1 ex_crypto dep txs) "prover" c s /\
  system_proof ex_keccak ex_sec1 sys_recover c s id = Ok resp /\ pr_status resp = PfCompleted d /\
  pair_state (sysrun ex_keccak ex_wshash ex_sec1 ex_crypto dep (txs ++ later)) "prover" c s' /\
  system_proof ex_keccak ex_sec1 sys_recover c s' id' = Ok resp' /\ pr_status resp' = PfCompleted d' /\
  x ∈ d_commands (pr_data resp) /\ x' ∈ d_commands (pr_data resp') /\
  c_ty x = ApproveContractCall /\ c_ty x' = ApproveContractCall /\ c_id x = c_id x' /\
  asked_apart ex_keccak "prover" (history ex_keccak ex_wshash ex_sec1 ex_crypto dep (txs ++ later)) /\
  (forall k ids i, k ∈ history ex_keccak ex_wshash ex_sec1 ex_crypto dep (txs ++ later) ->
     sb_body (k_sub k) = BProver (ConstructProof ids) -> i ∈ ids -> wf_chain (cc_chain i)) /\
  (forall i, i ∈ pr_ids resp -> covered watches dep (gc_router gc) rc (history ex_keccak ex_wshash ex_sec1 ex_crypto dep (txs ++ later)) (cc_chain i)) /\
  c_params x <> c_params x'.
Proof. exact c109_spelling. Qed.
Print Assumptions C109_spelling_refuted.

(** ** C63 *)

(** Ids written in the usual way name different places. *)
Theorem C63_canonical_places : forall id id' t i,
  canonical_evm_id id -> canonical_evm_id id' -> evm_id id t i -> evm_id id' t i -> id = id'.
Proof. exact c63_places. Qed.
Print Assumptions C63_canonical_places.

(** So messages served under different ids of this kind are different events,
    each of which was seen on the source chain. *)
Theorem C63_different_events : forall keccak wshash sec1 crypto acc json b58 dep watches txs later,
  well_watched keccak acc json b58 watches dep (history keccak wshash sec1 crypto dep (txs ++ later)) ->
  forall d d' gs gs' m m' rc,
  sysrun keccak wshash sec1 crypto dep txs !! d = Some (CGateway gs) -> GatewayModel.get_messages gs [m_cc m] = Ok [m] ->
  sysrun keccak wshash sec1 crypto dep (txs ++ later) !! d' = Some (CGateway gs') -> GatewayModel.get_messages gs' [m_cc m'] = Ok [m'] ->
  gc_router (gw_config gs) = gc_router (gw_config gs') -> dep !! gc_router (gw_config gs) = Some (DRouter rc) ->
  covered watches dep (gc_router (gw_config gs)) rc (history keccak wshash sec1 crypto dep (txs ++ later)) (cc_chain (m_cc m)) ->
  cc_chain (m_cc m) = cc_chain (m_cc m') ->
  canonical_evm_id (cc_id (m_cc m)) -> canonical_evm_id (cc_id (m_cc m')) -> m_cc m <> m_cc m' ->
  seen_somewhere b58 watches dep m /\ seen_somewhere b58 watches dep m' /\
  exists t i t' i', evm_id (cc_id (m_cc m)) t i /\ evm_id (cc_id (m_cc m')) t' i' /\ (t, i) <> (t', i').
Proof. exact c63_events. Qed.
Print Assumptions C63_different_events.

(** A history that meets the hypotheses: [sc_m1] and [sc_m2] are one call,
    [sc_m3] another one in the same transaction. *)
Example C109_ex_meets : well_watched ex_keccak hx_acc hx_json hs_b58 sc_watches tw_dep (sc_history sc_all) /\
  covered sc_watches tw_dep "router" sys_rc (sc_history sc_all) "ethereum" /\ tw_dep !! "router" = Some (DRouter sys_rc) /\
  (exists gs, sc_run sc_first !! "gateway" = Some (CGateway gs) /\ GatewayModel.get_messages gs [m_cc sc_m1] = Ok [sc_m1] /\
     gc_router (gw_config gs) = "router") /\
  (exists gs, sc_run sc_all !! "gateway" = Some (CGateway gs) /\ GatewayModel.get_messages gs [m_cc sc_m2] = Ok [sc_m2] /\
     gc_router (gw_config gs) = "router") /\
  (exists gs, sc_run sc_all !! "gateway" = Some (CGateway gs) /\ GatewayModel.get_messages gs [m_cc sc_m3] = Ok [sc_m3] /\
     gc_router (gw_config gs) = "router") /\
  m_cc sc_m1 = m_cc sc_m2 /\ m_src sc_m1 <> m_src sc_m2 /\ cc_id (m_cc sc_m1) <> cc_id (m_cc sc_m3) /\
  canonical_evm_id (cc_id (m_cc sc_m1)) /\ canonical_evm_id (cc_id (m_cc sc_m3)).
Proof. exact sc_meets. Qed.
