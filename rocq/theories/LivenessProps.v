(** C88, C89: what does happen: votes are accepted and verify a message,
    completed sessions give proofs; and what can stop this. *)
From Verif Require Import Base Text StdModel StdSpec RegistryTypes RouterTypes MultisigTypes OperatorsModel
  MultisigModel EncodingModel EncodingSpec EncodingExamples ProverModel ProverSpec ProverProofs6
  VerifierModel VerifierSpec VerifierExamples VerifierProofs5 LivenessSpec LivenessExamples.
From Verif Require ProverExamples.

(** A vote on an open poll is accepted exactly if it is by one of the workers
    the poll was opened for, before the poll expires, with one answer for each
    item, and the worker's first one; nothing that happened since matters. *)
Theorem C88_vote_accepted_iff : forall k cfg ops l1 e l2 id expires workers subj h a ballot,
  vlog k cfg ops = l1 ++ e :: l2 -> opens cfg e id expires workers subj ->
  is_ok (verifier_step k (vrun k cfg ops) (Vote h a id ballot)) = true <->
  a ∈ w_addr <$> workers /\ h < expires /\
  length ballot = match subj with OnMessages ms => length ms | OnOperators _ => 1%nat end /\
  forall h' ballot' o, (Vote h' a id ballot', o) ∉ l2.
Proof. exact c88_vote. Qed.
Print Assumptions C88_vote_accepted_iff.
(** Anyone can end a poll, once, from its expiry on. *)
Theorem C88_end_accepted_iff : forall k cfg ops l1 e l2 id expires workers subj h,
  vlog k cfg ops = l1 ++ e :: l2 -> opens cfg e id expires workers subj ->
  is_ok (verifier_step k (vrun k cfg ops) (EndPoll h id)) = true <-> expires <= h /\ id ∉ ended l2.
Proof. exact c88_end. Qed.
Print Assumptions C88_end_accepted_iff.
Example C88_votes :
  is_ok (verifier_step lx_k (vrun lx_k ex_cfg lx_first) (Vote 14 "w2" 1 [NotFound; NotFound])) = true /\
  is_ok (verifier_step lx_k (vrun lx_k ex_cfg lx_first) (Vote 15 "w2" 1 [NotFound; NotFound])) = false /\
  is_ok (verifier_step lx_k (vrun lx_k ex_cfg lx_first) (Vote 14 "w2" 1 [NotFound])) = false /\
  is_ok (verifier_step lx_k (vrun lx_k ex_cfg lx_first) (Vote 14 "w1" 1 [NotFound; NotFound])) = false /\
  is_ok (verifier_step lx_k (vrun lx_k ex_cfg lx_first) (Vote 14 "w4" 1 [NotFound; NotFound])) = false /\
  is_ok (verifier_step lx_k (vrun lx_k ex_cfg lx_first) (EndPoll 14 1)) = false /\
  is_ok (verifier_step lx_k (vrun lx_k ex_cfg lx_first) (EndPoll 15 1)) = true /\
  exists e l2, vlog lx_k ex_cfg lx_first = [] ++ e :: l2 /\ opens ex_cfg e 1 15 lx_workers (OnMessages [ex_m1; ex_m2]).
Proof. exact lx_votes. Qed.

(** A message asked about is Verified as soon as enough of the active workers
    voted for it, and stays so, whatever else is called: the votes, ends and
    requests in [ops2] may come in any order with heights that do not
    decrease. If the message is several times in the request, the votes that
    count are those on the last one. *)
Theorem C88_votes_verify : forall k cfg ops1 h reg ms s' sts es meta workers ops2 idx m,
  valid_vconfig cfg ->
  verifier_step k (vrun k cfg ops1) (VerifyMessages h reg ms) = Ok (s', OutVerify sts (Some (es, meta))) ->
  reg (vc_registry cfg) (vc_service cfg) (vc_chain cfg) = Some workers ->
  let asked := List.filter (wants_poll k (vrun k cfg ops1)) ms in
  asked !! idx = Some m ->
  (forall j m', asked !! j = Some m' -> message_key k m' = message_key k m -> (j <= idx)%nat) ->
  in_order ops2 ->
  vouched (vc_threshold cfg) (log (verifier_step k) s' ops2) (pm_poll_id meta) (h + vc_expiry cfg) workers idx ->
  message_status k (vrun k cfg (ops1 ++ VerifyMessages h reg ms :: ops2)) m = Ok Verified.
Proof. exact c88_verifies. Qed.
Print Assumptions C88_votes_verify.
Example C88_vouched : exists s' sts es meta,
  verifier_step lx_k (vrun lx_k ex_cfg []) lx_request = Ok (s', OutVerify sts (Some (es, meta))) /\
  ex_reg (vc_registry ex_cfg) (vc_service ex_cfg) (vc_chain ex_cfg) = Some lx_workers /\
  List.filter (wants_poll lx_k (vrun lx_k ex_cfg [])) [ex_m1; ex_m2] = [ex_m1; ex_m2] /\
  message_key lx_k ex_m1 <> message_key lx_k ex_m2 /\
  in_order lx_later /\
  vouched (vc_threshold ex_cfg) (log (verifier_step lx_k) s' lx_later) (pm_poll_id meta) (5 + vc_expiry ex_cfg) lx_workers 0.
Proof. exact lx_vouched. Qed.
(** Without the condition on the last one: every worker said that the first
    one happened and the message counts as failed. *)
Theorem C88_duplicate_refuted : exists cfg req h reg ms s' sts es meta workers later m,
  req = VerifyMessages h reg ms /\ valid_vconfig cfg /\
  verifier_step lx_k (vrun lx_k cfg []) req = Ok (s', OutVerify sts (Some (es, meta))) /\
  reg (vc_registry cfg) (vc_service cfg) (vc_chain cfg) = Some workers /\
  List.filter (wants_poll lx_k (vrun lx_k cfg [])) ms !! 0%nat = Some m /\ in_order later /\
  vouched (vc_threshold cfg) (log (verifier_step lx_k) s' later) (pm_poll_id meta) (h + vc_expiry cfg) workers 0 /\
  message_status lx_k (vrun lx_k cfg (req :: later)) m = Ok FailedToVerify.
Proof. exact c88_duplicate. Qed.
Print Assumptions C88_duplicate_refuted.

(** The same for a worker set, unless somebody asks about it again. *)
Theorem C88_votes_verify_set : forall k cfg ops1 h reg mid o s' tx n o' meta workers ops2,
  valid_vconfig cfg ->
  verifier_step k (vrun k cfg ops1) (VerifyWorkerSet h reg mid o) = Ok (s', OutWorkerSet tx n o' meta) ->
  reg (vc_registry cfg) (vc_service cfg) (vc_chain cfg) = Some workers ->
  (forall h' reg' mid' o' out, (VerifyWorkerSet h' reg' mid' o', out) ∈ log (verifier_step k) s' ops2 ->
     operators_key k o' <> operators_key k o) ->
  vouched (vc_threshold cfg) (log (verifier_step k) s' ops2) (pm_poll_id meta) (h + vc_expiry cfg) workers 0 ->
  worker_set_status k (vrun k cfg (ops1 ++ VerifyWorkerSet h reg mid o :: ops2)) o = Ok Verified.
Proof. exact c88_verifies_set. Qed.
Print Assumptions C88_votes_verify_set.

(** Every session a prover announced is answered while it is being signed. *)
Theorem C89_pending_answers : forall keccak wshash sec1 recover c ops mu m id bid,
  session_batch (plog keccak wshash sec1 c ops) id = Some bid -> mu id = Some m -> mu_state m = MPending ->
  exists r, get_proof keccak sec1 recover c (prun keccak wshash sec1 c ops) mu id = Ok r /\ pr_status r = PfPending.
Proof. exact c89_pending. Qed.
Print Assumptions C89_pending_answers.
(** A completed session of an ABI prover gives a proof exactly if the keys of
    all members of the set, signers or not, are points of the curve. *)
Theorem C89_abi_proof_iff : forall keccak wshash sec1 recover c ops mu m id bid ct,
  (forall x, String.length (keccak x) = 32%nat) -> pc_encoder c = Abi ->
  session_batch (plog keccak wshash sec1 c ops) id = Some bid -> mu id = Some m -> mu_state m = MCompleted ct ->
  weight_of (signed (mu_signers m)) < U256 ->
  ((exists r d, get_proof keccak sec1 recover c (prun keccak wshash sec1 c ops) mu id = Ok r /\ pr_status r = PfCompleted d) <->
   Forall (fun x => is_Some (sec1 (pk_bytes (sg_key x.1)))) (mu_signers m)).
Proof. exact c89_abi. Qed.
Print Assumptions C89_abi_proof_iff.
(** A completed session of a BCS prover gives a proof, if the numbers fit in
    128 bits and nothing is too long to be encoded. *)
Theorem C89_bcs_proof : forall keccak wshash sec1 recover c ops mu m id bid ct,
  pc_encoder c = Bcs ->
  session_batch (plog keccak wshash sec1 c ops) id = Some bid -> mu id = Some m -> mu_state m = MCompleted ct ->
  weight_of (signed (mu_signers m)) < U256 ->
  mu_quorum m < U128 -> Forall (fun x => sg_weight x.1 < U128) (mu_signers m) ->
  N.of_nat (length (mu_signers m)) <= 2 ^ 20 ->
  Forall (fun x => slen (pk_bytes (sg_key x.1)) <= 65 /\
                   forall sig, x.2 = Some sig -> slen (sig_bytes sig) <= 65) (mu_signers m) ->
  (forall r e, get_proof keccak sec1 recover c (prun keccak wshash sec1 c ops) (fun _ => Some {| mu_state := MPending;
      mu_quorum := 0; mu_signers := [] |}) id = Ok r -> bcs_encode (pr_data r) = Ok e -> slen e <= BCS_MAX) ->
  exists r d, get_proof keccak sec1 recover c (prun keccak wshash sec1 c ops) mu id = Ok r /\ pr_status r = PfCompleted d.
Proof. exact c89_bcs. Qed.
Print Assumptions C89_bcs_proof.
Example C89_session e : exists bid, session_batch (ProverExamples.ex_plog e (ProverExamples.ex_prover_ops e)) 1 = Some bid.
Proof. exact (lx_session e). Qed.
Example C89_answer : mu_state (ProverExamples.ex_answer 320) = MCompleted 20 /\
  weight_of (signed (mu_signers (ProverExamples.ex_answer 320))) < U256 /\
  mu_quorum (ProverExamples.ex_answer 320) < U128 /\
  Forall (fun x => sg_weight x.1 < U128) (mu_signers (ProverExamples.ex_answer 320)) /\
  N.of_nat (length (mu_signers (ProverExamples.ex_answer 320))) <= 2 ^ 20 /\
  Forall (fun x => slen (pk_bytes (sg_key x.1)) <= 65 /\ forall sig, x.2 = Some sig -> slen (sig_bytes sig) <= 65)
    (mu_signers (ProverExamples.ex_answer 320)) /\
  Forall (fun x => is_Some (ex_sec1 (pk_bytes (sg_key x.1)))) (mu_signers (ProverExamples.ex_answer 320)).
Proof. exact lx_answer. Qed.
Example C89_size : lx_size_check 1 = true.
Proof. exact lx_size. Qed.

(** What stops an ABI prover: while an active worker's key is no point of the
    curve and the active workers differ enough from the current set, every
    request for a new batch and every update is refused. *)
Theorem C89_bad_key_stops : forall keccak wshash sec1 c ops op cur next ws a sg,
  pc_encoder c = Abi ->
  sets_after keccak wshash sec1 c (plog keccak wshash sec1 c ops) (Some cur) next ->
  is_active_set c (po_env op) ws -> pc_diff c < differing ws cur ->
  ws_signers ws !! a = Some sg -> sec1 (pk_bytes (sg_key sg)) = None ->
  may_propose keccak wshash (plog keccak wshash sec1 c ops) (po_call op) ->
  is_ok (prover_step keccak wshash sec1 c (prun keccak wshash sec1 c ops) op) = false.
Proof. exact c89_bad_key. Qed.
Print Assumptions C89_bad_key_stops.
Example C89_bad_key : exists cur next,
  sets_after ex_keccak ex_wshash ex_sec1 (ProverExamples.pcfg Abi) (ProverExamples.ex_plog Abi lx_ops) (Some cur) next /\
  is_active_set (ProverExamples.pcfg Abi) lx_bad (ProverExamples.set_of Abi 20 bad_set) /\
  pc_diff (ProverExamples.pcfg Abi) < differing (ProverExamples.set_of Abi 20 bad_set) cur /\
  ws_signers (ProverExamples.set_of Abi 20 bad_set) !! "zed" = Some (ex_member "zed" 1 "z") /\
  ex_sec1 (pk_bytes (sg_key (ex_member "zed" 1 "z"))) = None /\
  is_ok (prover_step ex_keccak ex_wshash ex_sec1 (ProverExamples.pcfg Abi) (ProverExamples.ex_prun Abi lx_ops)
    (ProverExamples.p_op (ConstructProof [ProverExamples.ev 3])
       (ProverExamples.penv_of Abi 20 ProverExamples.set2 false) (Some 2))) = true /\
  is_ok (prover_step ex_keccak ex_wshash ex_sec1 (ProverExamples.pcfg Abi) (ProverExamples.ex_prun Abi lx_ops)
    (ProverExamples.p_op (ConstructProof [ProverExamples.ev 3]) lx_bad (Some 2))) = false.
Proof. exact lx_bad_key. Qed.
Example C89_unannounced :
  may_propose ex_keccak ex_wshash (ProverExamples.ex_plog Abi lx_ops) (ConstructProof [ProverExamples.ev 3]).
Proof. exact lx_unannounced. Qed.
(** What stops any prover: while an active worker has no key of the prover's
    type, however little the sets differ. *)
Theorem C89_no_key_stops : forall keccak wshash sec1 c ops op workers w,
  pe_active (po_env op) (pc_registry c) (pc_service c) (pc_chain c) = Some workers -> w ∈ workers ->
  pe_key (po_env op) (pc_multisig c) (w_addr w) (pc_key_type c) = None ->
  may_propose keccak wshash (plog keccak wshash sec1 c ops) (po_call op) ->
  is_ok (prover_step keccak wshash sec1 c (prun keccak wshash sec1 c ops) op) = false.
Proof. exact c89_no_key. Qed.
Print Assumptions C89_no_key_stops.
Example C89_no_key :
  pe_active lx_missing (pc_registry (ProverExamples.pcfg Abi)) (pc_service (ProverExamples.pcfg Abi)) (pc_chain (ProverExamples.pcfg Abi)) =
    Some (ProverExamples.ex_worker <$> ["alice"; "bob"; ""]) /\
  pe_key lx_missing (pc_multisig (ProverExamples.pcfg Abi)) (w_addr (ProverExamples.ex_worker ""))
    (pc_key_type (ProverExamples.pcfg Abi)) = None.
Proof. exact lx_no_key. Qed.
