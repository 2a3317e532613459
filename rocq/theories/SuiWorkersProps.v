(** C112: verifier, workers and prover together on a Sui chain. Vocabulary:
    SuiWorkersSpec.v. *)
From Verif Require Import Base Text StdModel StdSpec RouterTypes RegistryTypes OperatorsModel EncodingModel VerifierModel
  VerifierSpec VerifierExamples EventsModel HandlersModel HandlersSpec WorkersSpec HandlersExamples WorkersExamples
  SuiWorkersSpec SuiWorkersProofs SuiWorkersProofs2 SuiWorkersExamples.

(** A message reported verified was shown, in a checkpointed transaction, by
    the node of a trusted worker. *)
Theorem C112_message_was_seen : forall acc b58 json contract chain (nodes : sui_rpc -> Prop) k c ops trusted m,
  valid_vconfig c -> json (vc_gateway c) = None ->
  Forall (follows_ampd_sui acc b58 json contract chain nodes (vlog k c ops)) trusted ->
  mostly_trusted c (vlog k c ops) trusted ->
  message_status k (vrun k c ops) m = Ok Verified ->
  exists a rpc, a ∈ trusted /\ nodes rpc /\ sui_shows b58 rpc (vc_gateway c) m.
Proof. exact sui_message_seen. Qed.
Print Assumptions C112_message_was_seen.

(** So was a worker set. *)
Theorem C112_worker_set_was_seen : forall acc b58 json contract chain (nodes : sui_rpc -> Prop) k c ops trusted o,
  valid_vconfig c -> json (vc_gateway c) = None ->
  Forall (fun p => p.2 < U256) (o_weights o) -> o_threshold o < U256 ->
  Forall (follows_ampd_sui acc b58 json contract chain nodes (vlog k c ops)) trusted ->
  mostly_trusted c (vlog k c ops) trusted ->
  worker_set_status k (vrun k c ops) o = Ok Verified ->
  exists h reg mid out a rpc, (VerifyWorkerSet h reg mid o, out) ∈ vlog k c ops /\
    a ∈ trusted /\ nodes rpc /\ sui_shows_transfer b58 rpc (vc_gateway c) mid o.
Proof. exact sui_operators_seen. Qed.
Print Assumptions C112_worker_set_was_seen.

(** What the prover puts into the transfer command is what the workers look
    for; the numbers it accepts are in range. *)
Theorem C112_transfer_data : forall keccak sec1 ws o d,
  make_operators keccak sec1 Bcs ws = Ok o -> bcs_transfer_params ws = Ok d ->
  sui_operators (o_weights o) (o_threshold o) = Some d /\ Forall (fun p => p.2 < U256) (o_weights o) /\ o_threshold o < U256.
Proof. exact sui_transfer_data. Qed.
Print Assumptions C112_transfer_data.

Theorem C112_transfer_seen : forall keccak sec1 ws d acc b58 json contract chain (nodes : sui_rpc -> Prop) k c ops trusted o,
  valid_vconfig c -> json (vc_gateway c) = None ->
  Forall (follows_ampd_sui acc b58 json contract chain nodes (vlog k c ops)) trusted ->
  mostly_trusted c (vlog k c ops) trusted ->
  make_operators keccak sec1 Bcs ws = Ok o -> bcs_transfer_params ws = Ok d ->
  worker_set_status k (vrun k c ops) o = Ok Verified ->
  exists a rpc b t i gw e, a ∈ trusted /\ nodes rpc /\ hex_bytes 32 (vc_gateway c) gw /\ sui_answer rpc b /\
    sui_seen b gw t i "validators" "OperatorshipTransferred" e /\ se_transfer e = Some d.
Proof. exact sui_transfer_seen. Qed.
Print Assumptions C112_transfer_seen.

(** The hypotheses are met by a history with three workers, one untrusted. *)
Example C112_ex_config : valid_vconfig sw_vcfg.
Proof. exact sw_valid. Qed.
Example C112_ex_follow :
  Forall (follows_ampd_sui hx_acc hs_b58 hx_json "sui verifier" (OtherChain "sui") (fun rpc => rpc = hs_node) sw_log) ["w1"; "w2"].
Proof. exact sw_follow. Qed.
Example C112_ex_trusted : mostly_trusted sw_vcfg sw_log ["w1"; "w2"].
Proof. exact sw_trusted. Qed.
Example C112_ex_outcome :
  message_status wx_key (vrun wx_key sw_vcfg sw_history) (sw_msg "3") = Ok Verified /\
  message_status wx_key (vrun wx_key sw_vcfg sw_history) (sw_msg "9") <> Ok Verified /\
  worker_set_status wx_key (vrun wx_key sw_vcfg sw_history) hx_operators = Ok Verified.
Proof. exact sw_outcome. Qed.
Example C112_ex_prover :
  make_operators wx_keccak wx_sec1 Bcs sw_ws = Ok hx_operators /\ is_ok (bcs_transfer_params sw_ws) = true.
Proof. exact sw_prover. Qed.
