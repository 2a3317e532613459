(** C64, C65, C66: verifier, workers and prover together. *)
From Verif Require Import Base Text StdModel StdSpec RouterTypes RegistryTypes OperatorsModel EncodingModel VerifierModel
  VerifierSpec VerifierExamples EventsModel HandlersModel HandlersSpec WorkersSpec WorkersProofs WorkersProofs2
  HandlersExamples WorkersExamples.

(** A message reported verified was seen, in a final block, by the node of a
    trusted worker. *)
Theorem C64_verified_message_was_seen : forall acc json contract chain nodes k c ops trusted m,
  valid_vconfig c -> json (vc_gateway c) = None ->
  Forall (follows_ampd acc json contract chain nodes (vlog k c ops)) trusted ->
  mostly_trusted c (vlog k c ops) trusted ->
  message_status k (vrun k c ops) m = Ok Verified ->
  exists a rpc, a ∈ trusted /\ nodes rpc /\
    evm_shows chain (vc_confirmations c) rpc (vc_gateway c) m.
Proof. exact message_seen. Qed.
Print Assumptions C64_verified_message_was_seen.

(** So was a worker set. *)
Theorem C65_verified_worker_set_was_seen : forall acc json contract chain (nodes : evm_rpc -> Prop) k c ops trusted o,
  valid_vconfig c -> json (vc_gateway c) = None ->
  Forall (fun p => p.2 < U256) (o_weights o) -> o_threshold o < U256 ->
  Forall (follows_ampd acc json contract chain nodes (vlog k c ops)) trusted ->
  mostly_trusted c (vlog k c ops) trusted ->
  worker_set_status k (vrun k c ops) o = Ok Verified ->
  exists h reg mid out a rpc, (VerifyWorkerSet h reg mid o, out) ∈ vlog k c ops /\
    a ∈ trusted /\ nodes rpc /\
    evm_shows_transfer chain (vc_confirmations c) rpc (vc_gateway c) mid o.
Proof. exact operators_seen. Qed.
Print Assumptions C65_verified_worker_set_was_seen.

(** What the prover puts into the transfer command is what the workers look
    for. *)
Theorem C66_transfer_data : forall keccak sec1 ws o d,
  make_operators keccak sec1 Abi ws = Ok o -> abi_transfer_params keccak sec1 ws = Ok d ->
  d = evm_operators (o_weights o) (o_threshold o).
Proof. exact transfer_data. Qed.
Print Assumptions C66_transfer_data.

Theorem C66_transfer_seen : forall keccak sec1 ws d acc json contract chain (nodes : evm_rpc -> Prop) k c ops trusted o,
  valid_vconfig c -> json (vc_gateway c) = None ->
  Forall (fun p => p.2 < U256) (o_weights o) -> o_threshold o < U256 ->
  Forall (follows_ampd acc json contract chain nodes (vlog k c ops)) trusted ->
  mostly_trusted c (vlog k c ops) trusted ->
  make_operators keccak sec1 Abi ws = Ok o -> abi_transfer_params keccak sec1 ws = Ok d ->
  worker_set_status k (vrun k c ops) o = Ok Verified ->
  exists a rpc q t i gw, a ∈ trusted /\ nodes rpc /\ hex_bytes 20 (vc_gateway c) gw /\
    evm_seen chain (vc_confirmations c) rpc q gw t i (OperatorshipTransferred d).
Proof. exact transfer_seen. Qed.
Print Assumptions C66_transfer_seen.

(** The hypotheses are met by a history with three workers, one untrusted. *)
Example C64_ex_config : valid_vconfig hx_vcfg.
Proof. exact hx_valid. Qed.
Example C64_ex_follow :
  Forall (follows_ampd hx_acc hx_json "verifier" (OtherChain "Eth") (fun rpc => rpc = hx_node) wx_log) ["w1"; "w2"].
Proof. exact wx_follow. Qed.
Example C64_ex_trusted : mostly_trusted hx_vcfg wx_log ["w1"; "w2"].
Proof. exact wx_trusted. Qed.
Example C64_ex_outcome :
  message_status wx_key (vrun wx_key hx_vcfg wx_history) hx_m1 = Ok Verified /\
  message_status wx_key (vrun wx_key hx_vcfg wx_history) hx_m2 <> Ok Verified /\
  worker_set_status wx_key (vrun wx_key hx_vcfg wx_history) hx_operators = Ok Verified.
Proof. exact wx_outcome. Qed.
Example C66_ex_prover :
  make_operators wx_keccak wx_sec1 Abi wx_ws = Ok hx_operators /\
  is_ok (abi_transfer_params wx_keccak wx_sec1 wx_ws) = true /\
  Forall (fun p => p.2 < U256) (o_weights hx_operators) /\ o_threshold hx_operators < U256.
Proof. exact wx_prover. Qed.
