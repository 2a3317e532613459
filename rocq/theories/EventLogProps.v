(** C105: what the events of the contracts tell an observer who sees nothing
    else, for every history of calls and every way to read JSON that gives back
    what was written. *)
From stdpp Require Import sorting.
From Verif Require Import Base BaseLemmas Text StdModel RouterTypes RegistryTypes OperatorsModel MultisigTypes MultisigModel MultisigSpec
  RouterModel RouterSpec GatewayModel GatewaySpec EncodingModel ProverModel ProverSpec VerifierModel VerifierSpec
  LivenessSpec EventsModel JsonModel JsonSpec WireModel WireSpec EventLogModel EventLogSpec EventLogProofs EventLogProofs2 EventLogProofs3 EventLogExamples.
From Verif Require RouterExamples GatewayExamples MultisigExamples VerifierExamples ProverExamples.

(** The events of the router give the current gateway of every chain, and no
    chain that is not registered. *)
Theorem C105_router c ops chain :
  told (says_gateway chain) (router_instantiated c :: all_events router_events (rtlog c ops)) =
  ce_gateway <$> rt_chains (rtrun c ops) !! chain.
Proof. exact (router_gateways c ops chain). Qed.
Print Assumptions C105_router.
Example C105_router_case :
  fst <$> all_events router_events (rtlog RouterExamples.ex_cfg RouterExamples.ex_rops) =
  ["chain_registered"; "chain_registered"; "chain_frozen"; "gateway_upgraded"; "chain_frozen"; "chain_registered"].
Proof. by rewrite ex_router_events. Qed.

(** A chain of which no freezing was announced is not frozen. *)
Theorem C105_unfrozen c ops chain e :
  rt_chains (rtrun c ops) !! chain = Some e ->
  ~ happened (fun x => ty "chain_frozen" x && has "name" chain x) (all_events router_events (rtlog c ops)) ->
  incoming_frozen e = false /\ outgoing_frozen e = false.
Proof. exact (router_unfrozen c ops chain e). Qed.
Print Assumptions C105_unfrozen.
Example C105_unfrozen_case :
  is_Some (rt_chains (rtrun RouterExamples.ex_cfg RouterExamples.ex_rops) !! "avalanche") /\
  ~ happened (fun x => ty "chain_frozen" x && has "name" "avalanche" x)
      (all_events router_events (rtlog RouterExamples.ex_cfg RouterExamples.ex_rops)).
Proof.
  split; [vm_compute; eauto|]. rewrite ex_router_events. intros (e & He & Hp).
  repeat (apply elem_of_cons in He as [->|He]; [by vm_compute in Hp|]). by apply elem_of_nil in He.
Qed.

(** Which contract a message was handed to, from the message events and the
    gateways announced before. *)
Theorem C105_handed c ops l1 op out l2 to m :
  rtlog c ops = l1 ++ (op, out) :: l2 ->
  handed out to m <->
  message_event "message_routed" m ∈ router_events out /\
  to = default (rc_nexus c) (told (says_gateway (m_dchain m)) (all_events router_events l1)).
Proof. exact (router_handed c ops l1 op out l2 to m). Qed.
Print Assumptions C105_handed.
Example C105_handed_case : exists l1 op out,
  rtlog (nexus_cfg "nexus1") nexus_ops = l1 ++ (op, out) :: [] /\
  handed out "nexus1" (RouterExamples.ex_m "ethereum" "fantom" "1").
Proof.
  rewrite nexus_log by (by left). eexists [_], _, _. split; [reflexivity|].
  exists [RouterExamples.ex_m "ethereum" "fantom" "1"]. split; by left.
Qed.

(** An event tells the whole message. *)
Theorem C105_message t m : says_message (message_event t m).2 = Some m.
Proof. exact (says_message_attrs m). Qed.
Print Assumptions C105_message.

(** The events of a gateway give the messages that wait to be delivered to its
    chain, provided the verifier vouches for messages of this chain only. *)
Theorem C105_gateway own c ops id :
  Forall (vouches_for own) ops -> cc_chain id <> own ->
  told (says_routed id) (all_events gateway_events (gwlog c ops)) = gw_outgoing (gwrun c ops) !! id.
Proof. exact (gateway_outgoing own c ops id). Qed.
Print Assumptions C105_gateway.
Example C105_gateway_case : Forall (vouches_for "pol") own_ops /\
  told (says_routed {| cc_chain := "eth"; cc_id := "1" |}) (all_events gateway_events (gwlog GatewayExamples.exg_cfg own_ops)) =
    Some (GatewayExamples.exg_m' "eth" "pol" "1").
Proof. split; [exact own_vouches|exact (proj1 (proj2 own_events))]. Qed.

(** The events of the multisig give its callers, the keys, what the sessions
    sign for which worker set, who signed what and when they were completed. *)
Theorem C105_multisig wsid crypto g r p parse ops :
  reads_json parse ->
  let s := mrun wsid crypto g r p ops in
  let es := all_events multisig_events (mlog wsid crypto g r p ops) in
  (forall a, told (says_caller a) es = Some true <-> a ∈ m_callers s) /\
  (forall a t, told (says_key parse a t) es = m_keys s !! (a, t)) /\
  (forall id, told (says_session id) es = (fun ss => (ss_wsid ss, ss_msg ss)) <$> m_sessions s !! id) /\
  (forall id a, told (says_signature id a) es = sig_bytes <$> session_sigs s id !! a) /\
  (forall id, told (says_completed id) es = ss ← m_sessions s !! id; completed_text ss).
Proof. exact (c105_multisig wsid crypto g r p parse ops). Qed.
Print Assumptions C105_multisig.
Example C105_multisig_case : reads_json of_wire /\
  fst <$> all_events multisig_events mg =
    ["caller_authorized"; "public_key_registered"; "public_key_registered"; "signing_started";
     "signature_submitted"; "signature_submitted"; "signing_completed"; "signature_submitted"] /\
  told (says_session 1) (all_events multisig_events mg) = Some ("5", MultisigExamples.ex_msg) /\
  told (says_completed 1) (all_events multisig_events mg) = Some "11".
Proof. destruct multisig_told as (? & _ & _ & ? & _ & _ & ?). split_and!; [exact of_wire_reads|done..]. Qed.

(** The events of the voting verifier give the polls with their participants
    and expiry, who voted and, once ended, the results, if blocks come in
    order. *)
Theorem C105_verifier k c parse ops :
  reads_json parse -> in_order ops ->
  let s := vrun k c ops in
  let es := all_events verifier_events (vlog k c ops) in
  (forall id, told_poll (told (says_poll parse id) es) (v_polls s !! id)) /\
  (forall id a, happened (says_voted parse id a) es <-> has_voted (v_polls s !! id) a) /\
  (forall id, told (says_results parse id) es = vp ← v_polls s !! id; results_of (vpoll_poll vp)).
Proof. exact (c105_verifier k c parse ops). Qed.
Print Assumptions C105_verifier.
Example C105_verifier_case : reads_json of_wire /\ in_order VerifierExamples.ex_history /\
  fst <$> vg = ["messages_poll_started"; "voted"; "voted"; "voted"; "poll_ended"].
Proof. split_and!; [exact of_wire_reads|exact ex_in_order|exact verifier_types]. Qed.

(** The events of a prover give the batch every session is about. *)
Theorem C105_prover keccak wshash sec1 parse c ops id :
  reads_json parse ->
  told (says_batch parse id) (all_events prover_events (plog keccak wshash sec1 c ops)) =
  pv_sessions (prun keccak wshash sec1 c ops) !! id.
Proof. exact (fun Hp => prover_said keccak wshash sec1 parse Hp c ops id). Qed.
Print Assumptions C105_prover.
Example C105_prover_case : fst <$> pg =
  ["proof_under_construction"; "proof_under_construction"; "proof_under_construction"; "proof_under_construction"].
Proof. exact prover_types. Qed.

(** What is not told: the nexus gateway, so where messages to chains that are
    not registered go; *)
Theorem C105_nexus_refuted : exists c1 c2 ops m,
  router_instantiated c1 :: all_events router_events (rtlog c1 ops) =
  router_instantiated c2 :: all_events router_events (rtlog c2 ops) /\
  (exists op o, (op, o) ∈ rtlog c1 ops /\ handed o "nexus1" m) /\
  (exists op o, (op, o) ∈ rtlog c2 ops /\ handed o "nexus2" m) /\
  (forall op o, (op, o) ∈ rtlog c1 ops -> ~ handed o "nexus2" m).
Proof. exact nexus_untold. Qed.
Print Assumptions C105_nexus_refuted.

(** which directions of a chain are frozen, or whether they are; *)
Theorem C105_frozen_refuted : exists c ops1 ops2 ops3,
  all_events router_events (rtlog c ops1) = all_events router_events (rtlog c ops2) /\
  all_events router_events (rtlog c ops1) = all_events router_events (rtlog c ops3) /\
  (incoming_frozen <$> rt_chains (rtrun c ops1) !! "ethereum") = Some true /\
  (incoming_frozen <$> rt_chains (rtrun c ops2) !! "ethereum") = Some false /\
  (outgoing_frozen <$> rt_chains (rtrun c ops2) !! "ethereum") = Some true /\
  (outgoing_frozen <$> rt_chains (rtrun c ops3) !! "ethereum") = Some false.
Proof. exact frozen_untold. Qed.
Print Assumptions C105_frozen_refuted.

(** whether a gateway sent a message to the router or keeps it for its chain; *)
Theorem C105_gateway_refuted : exists c ops1 ops2 id m,
  all_events gateway_events (gwlog c ops1) = all_events gateway_events (gwlog c ops2) /\
  gw_outgoing (gwrun c ops1) !! id = Some m /\ gw_outgoing (gwrun c ops2) !! id = None.
Proof. exact gateway_untold. Qed.
Print Assumptions C105_gateway_refuted.

(** and, while a poll is open, whether its messages count as verified. *)
Theorem C105_votes_refuted : exists c ops1 ops2 m,
  in_order ops1 /\ in_order ops2 /\
  all_events verifier_events (vlog (fun x => x) c ops1) = all_events verifier_events (vlog (fun x => x) c ops2) /\
  is_verified (fun x => x) (vrun (fun x => x) c ops1) [m] = Ok [(m_cc m, true)] /\
  is_verified (fun x => x) (vrun (fun x => x) c ops2) [m] = Ok [(m_cc m, false)].
Proof. exact votes_untold. Qed.
Print Assumptions C105_votes_refuted.
