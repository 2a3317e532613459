(** C104: what the contracts keep in their stores are JSON texts. Each contract
    run over texts, written by serde and read back at every access, does what
    its table says. *)
From Verif Require Import Base BaseLemmas Text StdModel RegistryTypes RouterTypes MultisigTypes OperatorsModel MultisigModel EncodingModel.
From Verif Require Import RouterModel RegistryModel GatewayModel NexusModel RewardsModel VerifierModel ProverModel StorageModel StorageSpec.
From Verif Require Import Storage2Model Storage2Spec StorageExamples Storage2Examples JsonModel WireModel WireSpec WireSpec2.
From Verif Require Import Storage3Model Storage3Spec Storage3Spec2 Storage3Proofs3 Storage3Proofs4 Storage3Proofs5 Storage3Proofs6 Storage3Proofs7 Storage3Examples.
From Verif Require RouterExamples RegistryExamples MultisigExamples GatewayExamples RewardsExamples VerifierExamples EncodingExamples ProverExamples.

(** The router. *)
Theorem C104_router c ops :
  Forall router_text_ok ops ->
  let mt := run router_text_step (router_text_init c) ops in
  let s := run router_step (router_init c) ops in
  log router_text_step (router_text_init c) ops = log router_step (router_init c) ops /\
  texts_of router_layout e_rtval d_rtval router_stored mt s /\
  (forall op, router_text_ok op ->
   agree (texts_of router_layout e_rtval d_rtval router_stored) (router_text_step mt op)
     (map_err (fun e => TOwn (SOwn e)) (router_step s op))).
Proof. exact (c104_router c ops). Qed.
Print Assumptions C104_router.

(** The service registry, with the query of active workers. *)
Theorem C104_registry g ops :
  Forall registry_text_ok ops ->
  let mt := run registry_text_step (registry_text_init g) ops in
  let s := run registry_step (registry_init g) ops in
  log registry_text_step (registry_text_init g) ops = log registry_step (registry_init g) ops /\
  texts_of registry_layout e_srval d_srval registry_stored mt s /\
  (forall op, registry_text_ok op ->
   agree (texts_of registry_layout e_srval d_srval registry_stored) (registry_text_step mt op)
     (map_err (fun e => TOwn (SOwn e)) (registry_step s op))) /\
  (forall svc chain, slen svc < 65535 -> slen chain < 65535 ->
   raw (in_texts e_srval d_srval (q_active svc chain)) mt =
     let? ws := map_err (fun e => TOwn (SOwn e)) (get_active_workers s svc chain) in Ok (mt, ws)).
Proof. exact (c104_registry g ops). Qed.
Print Assumptions C104_registry.

(** The multisig contract, with its query. *)
Theorem C104_multisig wsid crypto g r p ops :
  p < 2 ^ 64 -> Forall multisig_text_ok ops ->
  let mt := run (multisig_text_step wsid crypto) (multisig_text_init g r p) ops in
  let s := run (multisig_step wsid crypto) (multisig_init g r p) ops in
  log (multisig_text_step wsid crypto) (multisig_text_init g r p) ops = log (multisig_step wsid crypto) (multisig_init g r p) ops /\
  texts_of multisig_layout e_msval d_msval multisig_stored mt s /\
  (forall op, multisig_text_ok op ->
     agree (texts_of multisig_layout e_msval d_msval multisig_stored) (multisig_text_step wsid crypto mt op)
       (map_err (fun e => TOwn (SOwn e)) (multisig_step wsid crypto s op))) /\
  (forall id, id < 2 ^ 64 ->
     raw (in_texts e_msval d_msval (s_multisig id)) mt =
       let? a := map_err (fun e => TOwn (SOwn e)) (get_multisig s id) in Ok (mt, a)).
Proof. exact (c104_multisig wsid crypto g r p ops). Qed.
Print Assumptions C104_multisig.

(** The gateway, with the query of messages. *)
Theorem C104_gateway c ops :
  Forall gateway_text_ok ops ->
  let mt := run gateway_text_step (gateway_text_init c) ops in
  let s := run gateway_step (gateway_init c) ops in
  log gateway_text_step (gateway_text_init c) ops = log gateway_step (gateway_init c) ops /\
  texts_of gateway_layout e_gwval d_gwval gateway_stored mt s /\
  (forall op, gateway_text_ok op ->
   agree (texts_of gateway_layout e_gwval d_gwval gateway_stored) (gateway_text_step mt op)
     (map_err (fun e => TOwn (SOwn e)) (gateway_step s op))) /\
  (forall ids, Forall (fun c => slen (cc_chain c) <= 65535) ids ->
   raw (in_texts e_gwval d_gwval (g_messages ids)) mt =
     let? a := map_err (fun e => TOwn (SOwn e)) (GatewayModel.get_messages s ids) in Ok (mt, a)).
Proof. exact (c104_gateway c ops). Qed.
Print Assumptions C104_gateway.

(** The nexus gateway. *)
Theorem C104_nexus c ops :
  Forall nexus_call_ok ops ->
  let mt := run nexus_text_step (nexus_text_init c) ops in
  let s := run nexus_step (nexus_init c) ops in
  log nexus_text_step (nexus_text_init c) ops = log nexus_step (nexus_init c) ops /\
  texts_of nexus_layout e_nxval d_nxval nexus_stored mt s /\
  (forall op, nexus_call_ok op ->
   agree (texts_of nexus_layout e_nxval d_nxval nexus_stored) (nexus_text_step mt op)
     (map_err (fun e => TOwn (SOwn e)) (nexus_step s op))).
Proof. exact (c104_nexus c ops). Qed.
Print Assumptions C104_nexus.

(** The rewards contract. *)
Theorem C104_rewards g d p h ops :
  proper_params p -> h < 2 ^ 64 -> Forall rewards_text_ok ops ->
  let mt := run rewards_text_step (rewards_text_init g d p h) ops in
  let s := run rewards_step (rewards_init g d p h) ops in
  log rewards_text_step (rewards_text_init g d p h) ops = log rewards_step (rewards_init g d p h) ops /\
  texts_of rewards_layout e_rwval d_rwval rewards_stored mt s /\
  (forall op, rewards_text_ok op ->
   agree (texts_of rewards_layout e_rwval d_rwval rewards_stored) (rewards_text_step mt op)
     (map_err (fun e => TOwn (SOwn e)) (rewards_step s op))).
Proof. exact (c104_rewards g d p h ops). Qed.
Print Assumptions C104_rewards.

(** The voting verifier, with its two queries. *)
Theorem C104_verifier keccak c ops :
  proper_vconfig c -> Forall verifier_text_ok ops ->
  let mt := run (verifier_text_step keccak) (verifier_text_init c) ops in
  let s := run (verifier_step keccak) (verifier_init c) ops in
  log (verifier_text_step keccak) (verifier_text_init c) ops = log (verifier_step keccak) (verifier_init c) ops /\
  texts_of verifier_layout e_vvval d_vvval verifier_stored mt s /\
  (forall op, verifier_text_ok op ->
     agree (texts_of verifier_layout e_vvval d_vvval verifier_stored) (verifier_text_step keccak mt op)
       (map_err (fun e => TOwn (SOwn e)) (verifier_step keccak s op))) /\
  (forall ms, raw (in_texts e_vvval d_vvval (v_is_verified keccak ms)) mt =
     let? a := map_err (fun e => TOwn (SOwn e)) (is_verified keccak s ms) in Ok (mt, a)) /\
  (forall x, raw (in_texts e_vvval d_vvval (v_set_verified keccak x)) mt =
     let? a := map_err (fun e => TOwn (SOwn e)) (is_worker_set_verified keccak s x) in Ok (mt, a)).
Proof. exact (c104_verifier keccak c ops). Qed.
Print Assumptions C104_verifier.

(** The prover, with its two queries. *)
Theorem C104_prover admin keccak wshash sec1 recover c ops :
  proper_pconfig c -> Forall prover_text_ok ops ->
  let mt := run (prover_text_step admin keccak wshash sec1) (prover_text_init admin c) ops in
  let s := run (prover_step keccak wshash sec1 c) prover_init ops in
  log (prover_text_step admin keccak wshash sec1) (prover_text_init admin c) ops = log (prover_step keccak wshash sec1 c) prover_init ops /\
  texts_of prover_layout (e_prval admin) d_prval (prover_stored c) mt s /\
  (forall op, prover_text_ok op ->
     agree (texts_of prover_layout (e_prval admin) d_prval (prover_stored c)) (prover_text_step admin keccak wshash sec1 mt op)
       (map_err (fun e => TOwn (SOwn e)) (prover_step keccak wshash sec1 c s op))) /\
  (forall mu id, id < 2 ^ 64 ->
     raw (in_texts (e_prval admin) d_prval (x_get_proof keccak sec1 recover mu id)) mt =
       let? a := map_err (fun e => TOwn (SOwn e)) (get_proof keccak sec1 recover c s mu id) in Ok (mt, a)) /\
  raw (in_texts (e_prval admin) d_prval x_get_worker_set) mt =
    let? a := map_err (fun e => TOwn (SOwn e)) (query_worker_set s) in Ok (mt, a).
Proof. exact (c104_prover admin keccak wshash sec1 recover c ops). Qed.
Print Assumptions C104_prover.

(** The texts themselves, letter by letter. *)
Theorem C104_texts :
  (forall v, to_json (e_rtval v) = s_router v) /\ (forall v, to_json (e_srval v) = s_registry v) /\
  (forall v, to_json (e_msval v) = k_multisig v) /\ (forall v, to_json (e_gwval v) = s_gateway v) /\
  (forall v, to_json (e_nxval v) = s_nexus v) /\ (forall v, to_json (e_rwval v) = s_rewards v) /\
  (forall v, to_json (e_vvval v) = s_verifier v) /\ (forall admin v, to_json (e_prval admin v) = s_prover admin v).
Proof.
  exact (conj sx_router (conj sx_registry (conj sx_multisig (conj sx_gateway (conj sx_nexus (conj sx_rewards (conj sx_verifier sx_prover))))))).
Qed.
Print Assumptions C104_texts.

(** The histories of the other examples meet the hypotheses. *)
Example C104_ex_router : Forall router_text_ok (RouterExamples.ex_rops ++ [RouteMessages "gw-eth3" RouterExamples.ex_batch]).
Proof. exact ex3_router_ok. Qed.
Example C104_ex_registry : Forall registry_text_ok RegistryExamples.ex_more.
Proof. exact ex3_registry_ok. Qed.
Example C104_ex_multisig : Forall multisig_text_ok (MultisigExamples.ex_ops 5 ++ MultisigExamples.ex_signs).
Proof. exact ex3_multisig_ok. Qed.
Example C104_ex_gateway : Forall gateway_text_ok GatewayExamples.exg_ops.
Proof. exact ex3_gateway_ok. Qed.
Example C104_ex_nexus : Forall nexus_call_ok ex2_nx_ops.
Proof. exact (proj1 ex2_nexus). Qed.
Example C104_ex_rewards : proper_params RewardsExamples.exr_params /\ Forall rewards_text_ok ex2_rw_ops.
Proof. exact ex3_rewards_ok. Qed.
Example C104_ex_verifier : proper_vconfig VerifierExamples.ex_cfg /\ Forall verifier_text_ok VerifierExamples.ex_history.
Proof. exact ex3_verifier_ok. Qed.
Example C104_ex_prover : proper_pconfig (ProverExamples.pcfg Bcs) /\ Forall prover_text_ok (ProverExamples.ex_prover_ops Bcs).
Proof. exact ex3_prover_ok. Qed.
