(** C98, continued: the gateway, the nexus gateway, the rewards contract, the
    voting verifier and the prover over the bytes of their stores. *)
From Verif Require Import Base BaseLemmas Text StdModel RegistryTypes RouterTypes MultisigTypes OperatorsModel MultisigModel EncodingModel.
From Verif Require Import GatewayModel NexusModel RewardsModel VerifierModel ProverModel StorageModel StorageSpec.
From Verif Require Import Storage2Model Storage2Spec Storage2Proofs Storage2Proofs2 Storage2Proofs3 Storage2Proofs4 Storage2Proofs5.
From Verif Require Import StorageExamples Storage2Examples.
From Verif Require GatewayExamples RewardsExamples VerifierExamples EncodingExamples ProverExamples.

(** The gateway, with the query of messages. *)
Theorem C98_gateway c ops :
  Forall gateway_call_ok ops ->
  let m := run gateway_bytes_step (gateway_bytes_init c) ops in
  let s := run gateway_step (gateway_init c) ops in
  log gateway_bytes_step (gateway_bytes_init c) ops = log gateway_step (gateway_init c) ops /\
  gateway_stored m s /\
  (forall op, gateway_call_ok op -> agree gateway_stored (gateway_bytes_step m op) (map_err SOwn (gateway_step s op))) /\
  (forall ids, Forall (fun c => slen (cc_chain c) <= 65535) ids ->
     raw (g_messages ids) m = let? a := map_err SOwn (GatewayModel.get_messages s ids) in Ok (m, a)).
Proof. exact (c98_gateway c ops). Qed.
Print Assumptions C98_gateway.

(** The nexus gateway. *)
Theorem C98_nexus c ops :
  Forall nexus_call_ok ops ->
  let m := run nexus_bytes_step (nexus_bytes_init c) ops in
  let s := run nexus_step (nexus_init c) ops in
  log nexus_bytes_step (nexus_bytes_init c) ops = log nexus_step (nexus_init c) ops /\
  nexus_stored m s /\
  (forall op, nexus_call_ok op -> agree nexus_stored (nexus_bytes_step m op) (map_err SOwn (nexus_step s op))).
Proof. exact (c98_nexus c ops). Qed.
Print Assumptions C98_nexus.

(** The rewards contract. *)
Theorem C98_rewards g d p h ops :
  Forall rewards_call_ok ops ->
  let m := run rewards_bytes_step (rewards_bytes_init g d p h) ops in
  let s := run rewards_step (rewards_init g d p h) ops in
  log rewards_bytes_step (rewards_bytes_init g d p h) ops = log rewards_step (rewards_init g d p h) ops /\
  rewards_stored m s /\
  (forall op, rewards_call_ok op -> agree rewards_stored (rewards_bytes_step m op) (map_err SOwn (rewards_step s op))).
Proof. exact (c98_rewards g d p h ops). Qed.
Print Assumptions C98_rewards.

(** The voting verifier, with its two queries, for every hash function. *)
Theorem C98_verifier keccak c ops :
  Forall verifier_call_ok ops ->
  let m := run (verifier_bytes_step keccak) (verifier_bytes_init c) ops in
  let s := run (verifier_step keccak) (verifier_init c) ops in
  log (verifier_bytes_step keccak) (verifier_bytes_init c) ops = log (verifier_step keccak) (verifier_init c) ops /\
  verifier_stored m s /\
  (forall op, verifier_call_ok op ->
     agree verifier_stored (verifier_bytes_step keccak m op) (map_err SOwn (verifier_step keccak s op))) /\
  (forall ms, raw (v_is_verified keccak ms) m = let? a := map_err SOwn (is_verified keccak s ms) in Ok (m, a)) /\
  (forall x, raw (v_set_verified keccak x) m = let? a := map_err SOwn (is_worker_set_verified keccak s x) in Ok (m, a)).
Proof. exact (c98_verifier keccak c ops). Qed.
Print Assumptions C98_verifier.

(** The prover, with its two queries. *)
Theorem C98_prover keccak wshash sec1 recover c ops :
  Forall prover_call_ok ops ->
  let m := run (prover_bytes_step keccak wshash sec1) (prover_bytes_init c) ops in
  let s := run (prover_step keccak wshash sec1 c) prover_init ops in
  log (prover_bytes_step keccak wshash sec1) (prover_bytes_init c) ops = log (prover_step keccak wshash sec1 c) prover_init ops /\
  prover_stored c m s /\
  (forall op, prover_call_ok op ->
     agree (prover_stored c) (prover_bytes_step keccak wshash sec1 m op) (map_err SOwn (prover_step keccak wshash sec1 c s op))) /\
  (forall mu id, id < 2 ^ 64 ->
     raw (x_get_proof keccak sec1 recover mu id) m = let? a := map_err SOwn (get_proof keccak sec1 recover c s mu id) in Ok (m, a)) /\
  raw x_get_worker_set m = let? a := map_err SOwn (query_worker_set s) in Ok (m, a).
Proof. exact (c98_prover keccak wshash sec1 recover c ops). Qed.
Print Assumptions C98_prover.

(** The hypotheses hold of histories that fill all these maps. *)
Example C98_five :
  Forall gateway_call_ok GatewayExamples.exg_ops /\ Forall nexus_call_ok ex2_nx_ops /\ Forall rewards_call_ok ex2_rw_ops /\
  Forall verifier_call_ok VerifierExamples.ex_history /\ Forall prover_call_ok (ProverExamples.ex_prover_ops Bcs).
Proof.
  exact (conj (proj1 ex2_gateway) (conj (proj1 ex2_nexus) (conj (proj1 ex2_rewards)
    (conj (proj1 ex2_verifier) (proj1 ex2_prover))))).
Qed.
