(** C63 in the whole system: vocabulary in TwiceExamples.v, SystemSpec.v. *)
From Verif Require Import Base BaseLemmas Text StdModel RouterTypes RegistryTypes OperatorsModel MultisigTypes
  RouterModel GatewayModel NexusModel RewardsModel RegistryModel VerifierModel VerifierSpec
  MultisigModel MultisigExamples EncodingModel EncodingExamples ProverModel ProverSpec ProverExamples
  SigningModel SigningSpec SigningExamples SystemModel SystemSpec SystemProofs6 SystemExamples DeliveryExamples
  EventsModel HandlersModel HandlersSpec HandlersExamples TwiceExamples.

(** C63 is false from end to end: the source chain has a single call of the
    gateway ([one_call]) and every worker votes as its handler says after
    looking at that chain ([votes_as_seen]); the destination's gateway serves
    two messages, alike but for the id, and a completed proof carries two
    commands with different ids and the same parameters. *)
Theorem C63_delivered_twice_refuted : exists dep txs vc node gw m id1 id2 es meta gs s r d c1 c2,
  dep !! "ver-eth" = Some (DVerifier vc) /\ valid_vconfig vc /\ vc_gateway vc = "0x" +:+ to_hex gw /\ one_call node gw /\
  id1 <> id2 /\
  poll_about "ver-eth" (history ex_keccak ex_wshash ex_sec1 ex_crypto dep txs) es meta /\
  votes_as_seen "ver-eth" node (history ex_keccak ex_wshash ex_sec1 ex_crypto dep txs) es meta /\
  sysrun ex_keccak ex_wshash ex_sec1 ex_crypto dep txs !! "gateway" = Some (CGateway gs) /\
  GatewayModel.get_messages gs [m_cc (m id1); m_cc (m id2)] = Ok [m id1; m id2] /\
  (forall i, m i = {| m_cc := {| cc_chain := cc_chain (m_cc (m id1)); cc_id := i |}; m_src := m_src (m id1);
                      m_dchain := m_dchain (m id1); m_daddr := m_daddr (m id1); m_hash := m_hash (m id1) |}) /\
  pair_state (sysrun ex_keccak ex_wshash ex_sec1 ex_crypto dep txs) "prover" (pcfg Abi) s /\
  system_proof ex_keccak ex_sec1 sys_recover (pcfg Abi) s 1 = Ok r /\ pr_status r = PfCompleted d /\
  d_commands (pr_data r) = [c1; c2] /\ c_id c1 <> c_id c2 /\ c_ty c1 = c_ty c2 /\ c_params c1 = c_params c2.
Proof. exact tw_witness. Qed.
Print Assumptions C63_delivered_twice_refuted.

(** Three workers voted in that history. *)
Example C63_ex_voters : tw_voters = 3%nat.
Proof. vm_compute. reflexivity. Qed.
