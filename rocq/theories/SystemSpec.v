(** Vocabulary of the statements about the whole system. *)
From Verif Require Import Base Text StdModel RouterTypes RegistryTypes OperatorsModel MultisigTypes
  RouterModel RouterSpec GatewayModel NexusModel RewardsModel RegistryModel VerifierModel VerifierSpec MultisigModel EncodingModel
  ProverModel SigningModel SystemModel.

(** The contract called. *)
Definition k_to (k : call) : addr := sb_to (k_sub k).

Section Spec.
  Context (keccak : string -> string) (wshash : worker_set -> string)
          (sec1 : string -> option string)
          (crypto : key_type -> string -> string -> string -> option bool).

  (** State after the transactions; the successful ones with the calls each
      consisted of; all those calls, oldest first. *)
  Definition sysrun (d : gmap addr deployed) (txs : list tx) : chain :=
    run (system_step keccak wshash sec1 crypto) (system_init d) txs.
  Definition syslog (d : gmap addr deployed) (txs : list tx) : list (tx * list call) :=
    log (system_step keccak wshash sec1 crypto) (system_init d) txs.
  Definition history (d : gmap addr deployed) (txs : list tx) : list call := syslog d txs ≫= snd.

  (** The operations a contract at [a] saw. *)
  Definition calls_to {Op} (f : call -> option Op) (a : addr) (l : list call) : list Op :=
    omap (fun k => if bool_decide (k_to k = a) then f k else None) l.
  Definition router_ops : addr -> list call -> list rtop :=
    calls_to (fun k => router_op (k_sender k) (sb_body (k_sub k))).
  Definition gateway_ops (c : gwconfig) : addr -> list call -> list gwop :=
    calls_to (fun k => gateway_op (q_is_verified keccak (k_env k) (k_index k) (k_chain k) (gc_verifier c))
                         (k_sender k) (sb_body (k_sub k))).
  Definition nexus_ops : addr -> list call -> list nxop :=
    calls_to (fun k => nexus_op (k_sender k) (sb_body (k_sub k))).
  Definition verifier_ops : addr -> list call -> list vop :=
    calls_to (fun k => verifier_op (en_height (k_env k)) (q_active (k_env k) (k_index k) (k_chain k))
                         (k_sender k) (sb_body (k_sub k))).
  Definition rewards_ops : addr -> list call -> list rop :=
    calls_to (fun k => rewards_op (en_height (k_env k)) (k_sender k) (sb_funds (k_sub k)) (sb_body (k_sub k))).
  Definition registry_ops : addr -> list call -> list srop :=
    calls_to (fun k => registry_op (en_time (k_env k)) (k_sender k) (sb_funds (k_sub k)) (sb_body (k_sub k))).
  Definition multisig_ops : addr -> list call -> list mop :=
    calls_to (fun k => multisig_op (en_height (k_env k)) (k_sender k) (sb_body (k_sub k))).

  Definition prover_calls : addr -> list call -> list pcall :=
    calls_to (fun k => match sb_body (k_sub k) with BProver pc => Some pc | _ => None end).

  (** The same for a prover at [p] with its multisig together: a prover's own
      calls of the multisig are part of the prover's. *)
  Definition signing_ops (p : addr) (c : pconfig) : list call -> list sop :=
    omap (fun k =>
      if bool_decide (k_to k = p) then
        match sb_body (k_sub k) with
        | BProver pc => Some (SProve pc (prover_env keccak (k_env k) (k_index k) (k_chain k)))
        | _ => None
        end
      else if bool_decide (k_to k = pc_multisig c) && bool_decide (k_sender k <> p) then
        SMultisig <$> multisig_op (en_height (k_env k)) (k_sender k) (sb_body (k_sub k))
      else None).

  (** Call [k] handed message [m] to the router [r], whose state [rs] then made
      it send [m] on to [d]. *)
  Definition routes (r : addr) (m : message) (d : addr) (rs : rtstate) (k : call) : Prop :=
    k_to k = r /\ k_chain k !! r = Some (CRouter rs) /\ goes_to rs (k_sender k) (m_dchain m) = Some d /\
    exists ms, sb_body (k_sub k) = BRoute ms /\ m ∈ ms.

  (** The active workers the verifier's registry named during call [k]. *)
  Definition named (vc : vconfig) (k : call) (workers : list worker) : Prop :=
    match k_chain k !! vc_registry vc with
    | Some (CRegistry s) => get_active_workers s (vc_service vc) (vc_chain vc) = Ok workers
    | Some _ => False
    | None => en_active (k_env k) (k_index k) (vc_registry vc) (vc_service vc) (vc_chain vc) = Some workers
    end.

  (** Among the calls [l], [workers] of verifier [v] voted for item [idx] of
      poll [id] before block [expires]: distinct ones, and at least the
      threshold share of all. *)
  Definition voted (v : addr) (t : threshold) (l : list call) (id expires : N) (workers : list worker) (idx : nat) : Prop :=
    exists voters : list addr, NoDup voters /\
      (forall a, a ∈ voters -> a ∈ w_addr <$> workers /\
         exists k ballot, k ∈ l /\ k_to k = v /\ k_sender k = a /\ sb_body (k_sub k) = BVote id ballot /\
           en_height (k_env k) < expires /\ ballot !! idx = Some SucceededOnChain) /\
      N.of_nat (length workers) * t_num t <= N.of_nat (length voters) * t_den t.

  (** During the calls [l], message [m] was requested from verifier [v], which
      opened a poll and announced [m] in it, and enough of the workers active
      at that moment voted for it. *)
  Definition message_quorum (v : addr) (vc : vconfig) (l : list call) (m : message) : Prop :=
    exists l1 k l2 vs vs' ms statuses events meta workers idx ev,
      l = l1 ++ k :: l2 /\ k_to k = v /\ k_chain k !! v = Some (CVerifier vs) /\
      sb_body (k_sub k) = BVerify ms /\ m ∈ ms /\
      verify_messages keccak vs (en_height (k_env k)) (q_active (k_env k) (k_index k) (k_chain k)) ms =
        Ok (vs', OutVerify statuses (Some (events, meta))) /\
      events !! idx = Some ev /\ tx_event_of m = Ok ev /\ pm_chain meta = vc_chain vc /\ pm_gateway meta = vc_gateway vc /\
      named vc k workers /\
      voted v (vc_threshold vc) l2 (pm_poll_id meta) (en_height (k_env k) + vc_expiry vc) workers idx.
  (** The same for a worker set. *)
  Definition operators_quorum (v : addr) (vc : vconfig) (l : list call) (o : operators) : Prop :=
    exists l1 k l2 vs vs' mid tx idx meta workers,
      l = l1 ++ k :: l2 /\ k_to k = v /\ k_chain k !! v = Some (CVerifier vs) /\
      sb_body (k_sub k) = BVerifyWorkerSet mid o /\
      verify_worker_set keccak vs (en_height (k_env k)) (q_active (k_env k) (k_index k) (k_chain k)) mid o =
        Ok (vs', OutWorkerSet tx idx o meta) /\ pm_chain meta = vc_chain vc /\ pm_gateway meta = vc_gateway vc /\
      named vc k workers /\
      voted v (vc_threshold vc) l2 (pm_poll_id meta) (en_height (k_env k) + vc_expiry vc) workers 0.

  (** How message [m] reached the gateway at [d], during the calls [l]: it was
      handed to the router at [r], which sent it on; by the nexus gateway, or
      by the gateway then registered for the message's source chain, not
      frozen. If that gateway and its verifier are modelled ones, the verifier
      then reported the message verified, after a quorum of workers; if it is
      the modelled nexus gateway, the message came from the nexus module. *)
  Definition arrived (dep : gmap addr deployed) (r : addr) (rc : rtconfig) (d : addr) (l : list call) (m : message) : Prop :=
    exists pre k post rs, l = pre ++ k :: post /\ routes r m d rs k /\
      (k_sender k = rc_nexus rc \/
       exists e, get_chain_info rs (cc_chain (m_cc m)) = Ok e /\ ce_gateway e = k_sender k /\ incoming_frozen e = false) /\
      (forall gc vc, dep !! k_sender k = Some (DGateway gc) -> dep !! gc_verifier gc = Some (DVerifier vc) ->
         (exists vs, k_chain k !! gc_verifier gc = Some (CVerifier vs) /\ message_status keccak vs m = Ok Verified) /\
         (valid_vconfig vc -> message_quorum (gc_verifier gc) vc pre m)) /\
      (forall nc, dep !! k_sender k = Some (DNexus nc) ->
         exists p ns n, p ∈ pre /\ k_to p = k_sender k /\ k_sender p = nc_nexus nc /\ sb_body (k_sub p) = BFromNexus ns /\
           n ∈ ns /\ m = from_nexus n).

  (** The verifier reports the message verified. *)
  Definition status_verified (vs : vstate) (m : message) : bool :=
    match message_status keccak vs m with Ok Verified => true | _ => false end.

  (** A contract that takes messages from router [r]: a gateway or the nexus
      gateway configured for it. *)
  Definition takes_from (r : addr) (o : option contract) : Prop :=
    match o with
    | Some (CGateway g) => gc_router (gw_config g) = r
    | Some (CNexus s) => nc_router (nx_config s) = r
    | _ => False
    end.
  (** The contract with these messages (with different ids) delivered: a
      gateway serves them under their ids, the nexus gateway has passed them on. *)
  Definition with_messages (ms : list message) (o : option contract) : option contract :=
    match o with
    | Some (CGateway g) => Some (CGateway {| gw_config := gw_config g;
        gw_outgoing := list_to_map ((fun m => (m_cc m, m)) <$> ms) ∪ gw_outgoing g |})
    | Some (CNexus s) => Some (CNexus {| nx_config := nx_config s;
        nx_routed := list_to_set (m_cc <$> ms) ∪ nx_routed s |})
    | o => o
    end.

  (** Poll [id] of verifier [v] was ended, and [w] had voted in it for every
      outcome that was reached. *)
  Definition poll_attended (v : addr) (l : list call) (id : N) (w : addr) : Prop :=
    exists pre k post vs vs' recs res k' ballot, l = pre ++ k :: post /\ k_to k = v /\ sb_body (k_sub k) = BEndPoll id /\
      k_chain k !! v = Some (CVerifier vs) /\
      verifier_end_poll vs (en_height (k_env k)) id = Ok (vs', OutEnded recs res) /\
      k' ∈ pre /\ k_to k' = v /\ k_sender k' = w /\ sb_body (k_sub k') = BVote id ballot /\
      forall i x, ps_results res !! i = Some (Some x) -> ballot !! i = Some x.
  (** [w] submitted a signature to session [id] of multisig [m]. *)
  Definition session_attended (m : addr) (l : list call) (id : N) (w : addr) : Prop :=
    exists k bytes, k ∈ l /\ k_to k = m /\ k_sender k = w /\ sb_body (k_sub k) = BSubmitSignature id bytes.

  (** The state of a prover and of its multisig. *)
  Definition pair_state (st : chain) (p : addr) (c : pconfig) (s : ssys) : Prop :=
    st !! p = Some (CProver c (sy_prover s)) /\ st !! pc_multisig c = Some (CMultisig (sy_multisig s)).

  (** What is at address [a] after the calls [l]: the contract deployed there,
      with the state it would have alone after the operations it saw, all of
      which succeed alone. *)
  Definition as_alone (d : option deployed) (a : addr) (l : list call) (o : option contract) : Prop :=
    match d with
    | None => o = None
    | Some (DRouter c) => let ops := router_ops a l in
        o = Some (CRouter (run router_step (router_init c) ops)) /\ (log router_step (router_init c) ops).*1 = ops
    | Some (DGateway c) => let ops := gateway_ops c a l in
        o = Some (CGateway (run gateway_step (gateway_init c) ops)) /\ (log gateway_step (gateway_init c) ops).*1 = ops
    | Some (DNexus c) => let ops := nexus_ops a l in
        o = Some (CNexus (run nexus_step (nexus_init c) ops)) /\ (log nexus_step (nexus_init c) ops).*1 = ops
    | Some (DVerifier c) => let ops := verifier_ops a l in
        o = Some (CVerifier (run (verifier_step keccak) (verifier_init c) ops)) /\
        (log (verifier_step keccak) (verifier_init c) ops).*1 = ops
    | Some (DRewards g d p h) => let ops := rewards_ops a l in
        o = Some (CRewards (run rewards_step (rewards_init g d p h) ops)) /\
        (log rewards_step (rewards_init g d p h) ops).*1 = ops
    | Some (DRegistry g) => let ops := registry_ops a l in
        o = Some (CRegistry (run registry_step (registry_init g) ops)) /\ (log registry_step (registry_init g) ops).*1 = ops
    | Some (DMultisig g r n) => let ops := multisig_ops a l in
        let step := multisig_step (worker_set_id wshash) crypto in
        o = Some (CMultisig (run step (multisig_init g r n) ops)) /\ (log step (multisig_init g r n) ops).*1 = ops
    | Some (DProver c) => exists s, o = Some (CProver c s)
    end.

  (** Different worker sets registered with multisig [m] have different
      hashes. *)
  Definition hashes_apart (m : addr) (l : list call) : Prop := forall k k' ws ws', k ∈ l -> k' ∈ l -> k_to k = m -> k_to k' = m ->
    sb_body (k_sub k) = BRegisterWorkerSet ws -> sb_body (k_sub k') = BRegisterWorkerSet ws' -> wshash ws = wshash ws' -> ws = ws'.
End Spec.
