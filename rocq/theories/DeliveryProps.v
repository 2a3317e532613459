(** C93, C94: what anybody can make happen in the whole system, whatever else
    was called before. *)
From Verif Require Import Base Text StdModel RouterTypes RegistryTypes OperatorsModel MultisigTypes
  RouterModel RouterSpec GatewayModel GatewaySpec NexusModel RewardsModel RewardsSpec RegistryModel VerifierModel VerifierSpec MultisigModel MultisigSpec
  MultisigExamples EncodingModel EncodingSpec EncodingExamples ProverModel ProverSpec ProverExamples SigningModel SigningSpec SystemModel SystemSpec SystemExamples
  DeliverySpec DeliveryProofs DeliveryProofs2 DeliveryProofs6 DeliveryProofs7 DeliveryProofs8 DeliveryExamples.

(** Enough votes of the workers active when a message was asked about make it
    Verified, for as long as the chain runs. *)
Theorem C93_message_verified : forall keccak wshash sec1 crypto dep txs v vc m,
  dep !! v = Some (DVerifier vc) -> valid_vconfig vc -> in_blocks txs ->
  message_vouched keccak v vc (history keccak wshash sec1 crypto dep txs) m ->
  exists vs, sysrun keccak wshash sec1 crypto dep txs !! v = Some (CVerifier vs) /\ message_status keccak vs m = Ok Verified.
Proof. exact c93_message. Qed.
Print Assumptions C93_message_verified.
Example C93_voted : message_vouched ex_keccak "ver-eth" (sys_vc "ethereum") (sys_history (sys_setup ++ sys_voting)) (sys_m 1) /\
  in_blocks (sys_setup ++ sys_voting) /\ valid_vconfig (sys_vc "ethereum").
Proof. exact dx_message. Qed.

(** And only then: whatever is Verified was voted for like that (also when
    blocks come in any order). *)
Theorem C93_only_vouched_verified : forall keccak wshash sec1 crypto dep txs v vc m,
  dep !! v = Some (DVerifier vc) -> valid_vconfig vc ->
  (exists vs, sysrun keccak wshash sec1 crypto dep txs !! v = Some (CVerifier vs) /\ message_status keccak vs m = Ok Verified) ->
  message_vouched keccak v vc (history keccak wshash sec1 crypto dep txs) m.
Proof. exact c93_message_conv. Qed.
Print Assumptions C93_only_vouched_verified.

(** The same for a worker set, both ways; no order of the blocks is needed. *)
Theorem C93_operators_verified : forall keccak wshash sec1 crypto dep txs v vc o,
  dep !! v = Some (DVerifier vc) -> valid_vconfig vc ->
  (exists vs, sysrun keccak wshash sec1 crypto dep txs !! v = Some (CVerifier vs) /\ worker_set_status keccak vs o = Ok Verified) <->
  operators_vouched keccak v vc (history keccak wshash sec1 crypto dep txs) o.
Proof. exact c93_operators_iff. Qed.
Print Assumptions C93_operators_verified.
Example C93_operators_voted :
  operators_vouched ex_keccak "verifier" (sys_vc "sui") (sys_history dx_confirm) dx_next /\ sys_next = Some dx_next.
Proof. exact dx_operators. Qed.

(** Messages voted for can be brought by anybody to the gateways of their
    destinations, in one transaction, unless the router refuses them (a frozen
    or unknown chain, messages of other chains); this changes nothing else,
    and afterwards they are served there. *)
Theorem C93_delivered : forall keccak wshash sec1 crypto dep txs G gc rc vc,
  dep !! G = Some (DGateway gc) -> dep !! gc_router gc = Some (DRouter rc) ->
  dep !! gc_verifier gc = Some (DVerifier vc) -> valid_vconfig vc -> in_blocks txs ->
  let st := sysrun keccak wshash sec1 crypto dep txs in
  forall rs, st !! gc_router gc = Some (CRouter rs) ->
  forall g e a ms, dep !! a = None -> distinct_ids ms ->
  Forall (message_vouched keccak (gc_verifier gc) vc (history keccak wshash sec1 crypto dep txs)) ms ->
  may_send rs G ms ->
  Forall (fun m => exists d, goes_to rs G (m_dchain m) = Some d /\ takes_from (gc_router gc) (st !! d)) ms ->
  exists st' l,
    system_step keccak wshash sec1 crypto st {| tx_gas := S (S (S g)); tx_env := e; tx_sender := a; tx_sub := plain G (BRoute ms) |} = Ok (st', l) /\
    (forall d, st' !! d = with_messages (filter (fun m => goes_to rs G (m_dchain m) = Some d) ms) (st !! d)) /\
    (forall m d gs, m ∈ ms -> goes_to rs G (m_dchain m) = Some d -> st !! d = Some (CGateway gs) ->
       forall e' n, q_messages e' n st' d [m_cc m] = Some [m]).
Proof. exact c93_delivered. Qed.
Print Assumptions C93_delivered.
(** the hypotheses on the router hold for the message of C93_voted *)
Example C93_sendable : routing_check (sys_setup ++ sys_voting) [sys_m 1] = true.
Proof. exact dx_route. Qed.

(** A worker set waiting at a prover, and voted for at its verifier, can be
    confirmed by anybody: it becomes the prover's and is stored in the
    multisig; earlier proofs stay as they are. *)
Theorem C93_worker_set_confirmed : forall keccak wshash sec1 recover crypto dep txs P c g r n,
  dep !! P = Some (DProver c) -> dep !! pc_multisig c = Some (DMultisig g r n) ->
  forall s gas e a vc cur ws o, dep !! a = None ->
  dep !! pc_verifier c = Some (DVerifier vc) -> valid_vconfig vc ->
  let st := sysrun keccak wshash sec1 crypto dep txs in
  let H := history keccak wshash sec1 crypto dep txs in
  pair_state st P c s ->
  sets_after keccak wshash sec1 c (prover_trace (slog keccak wshash sec1 crypto c P g r n (signing_ops keccak P c H))) cur (Some ws) ->
  make_operators keccak sec1 (pc_encoder c) ws = Ok o ->
  operators_vouched keccak (pc_verifier c) vc H o ->
  exists st' l s'',
    system_step keccak wshash sec1 crypto st
      {| tx_gas := S (S gas); tx_env := e; tx_sender := a; tx_sub := plain P (BProver ConfirmWorkerSet) |} = Ok (st', l) /\
    pair_state st' P c s'' /\
    query_worker_set (sy_prover s'') = Ok ws /\ get_worker_set (sy_multisig s'') (worker_set_id wshash ws) = Ok ws /\
    (forall w, w <> worker_set_id wshash ws -> get_worker_set (sy_multisig s'') w = get_worker_set (sy_multisig s) w) /\
    ((forall w, get_worker_set (sy_multisig s) (worker_set_id wshash ws) = Ok w -> w = ws) ->
     forall id resp, system_proof keccak sec1 recover c s id = Ok resp -> system_proof keccak sec1 recover c s'' id = Ok resp) /\
    (forall d, d <> P -> d <> pc_multisig c -> st' !! d = st !! d).
Proof. exact pair_confirm. Qed.
Print Assumptions C93_worker_set_confirmed.
Example C93_set_waits : dx_waiting.
Proof. exact dx_waits. Qed.

(** A prover's entry points in the whole system work exactly when the prover
    alone accepts the call and, if it wants signatures, it is authorized at
    its multisig, whose sessions have not run out. *)
Theorem C94_prover_call_iff : forall keccak wshash sec1 crypto dep txs P c g r n,
  dep !! P = Some (DProver c) -> dep !! pc_multisig c = Some (DMultisig g r n) ->
  let st := sysrun keccak wshash sec1 crypto dep txs in
  forall s gas e a pc, (forall x, String.length (keccak x) = 32%nat) -> dep !! a = None -> pair_state st P c s ->
  is_ok (system_step keccak wshash sec1 crypto st
    {| tx_gas := S (S gas); tx_env := e; tx_sender := a; tx_sub := plain P (BProver pc) |}) = true <->
  exists s' m, prover_execute keccak wshash sec1 c (prover_env keccak e 0 st) (sy_prover s) pc = Ok (s', m) /\
    match m with
    | MsgStart _ _ _ _ =>
        may_start (mlog (worker_set_id wshash) crypto g r n (multisig_ops (pc_multisig c) (history keccak wshash sec1 crypto dep txs))) P
    | MsgRegister _ _ => True
    end.
Proof. exact pair_call. Qed.
Print Assumptions C94_prover_call_iff.

(** Then a session begins, with the next number, for the prover's worker set;
    its proof is pending, for the data the digest was computed from. *)
Theorem C94_session_begins : forall keccak wshash sec1 recover crypto dep txs P c g r n,
  dep !! P = Some (DProver c) -> dep !! pc_multisig c = Some (DMultisig g r n) ->
  let st := sysrun keccak wshash sec1 crypto dep txs in
  let H := history keccak wshash sec1 crypto dep txs in
  forall gas e a pc s s' to w dg ch, (forall x, String.length (keccak x) = 32%nat) -> dep !! a = None ->
  pair_state st P c s ->
  prover_execute keccak wshash sec1 c (prover_env keccak e 0 st) (sy_prover s) pc = Ok (s', MsgStart to w dg ch) ->
  may_start (mlog (worker_set_id wshash) crypto g r n (multisig_ops (pc_multisig c) H)) P ->
  let t := {| tx_gas := S (S gas); tx_env := e; tx_sender := a; tx_sub := plain P (BProver pc) |} in
  let id := N.of_nat (length (sessions_started (pc_multisig c) H)) + 1 in
  exists st' l s'' cur b resp, system_step keccak wshash sec1 crypto st t = Ok (st', l) /\ pair_state st' P c s'' /\
    msg_digest keccak b = Ok dg /\ query_worker_set (sy_prover s) = Ok cur /\ query_worker_set (sy_prover s'') = Ok cur /\
    session_begun keccak wshash sec1 P c (history keccak wshash sec1 crypto dep (txs ++ [t])) id cur dg /\
    system_proof keccak sec1 recover c s'' id = Ok resp /\ pr_status resp = PfPending /\
    pr_data resp = b_data b /\ pr_ids resp = b_ids b /\
    (forall d, d <> P -> d <> pc_multisig c -> st' !! d = st !! d).
Proof. exact begun_session. Qed.
Print Assumptions C94_session_begins.

(** A signature to such a session is accepted exactly if it is by a member of
    that worker set who did not sign yet, verifies with their key for the
    digest, and, once the session is completed, comes within the grace
    period. *)
Theorem C94_signature_iff : forall keccak wshash sec1 crypto dep txs P c g r n,
  dep !! P = Some (DProver c) -> dep !! pc_multisig c = Some (DMultisig g r n) ->
  let st := sysrun keccak wshash sec1 crypto dep txs in
  let H := history keccak wshash sec1 crypto dep txs in
  forall g0 d0 p0 h0 gas e w id cur dg bytes, dep !! r = Some (DRewards g0 d0 p0 h0) -> dep !! w = None ->
  let t := {| tx_gas := S (S gas); tx_env := e; tx_sender := w; tx_sub := plain (pc_multisig c) (BSubmitSignature id bytes) |} in
  valid_rinit {| ri_gov := g0; ri_denom := d0; ri_params := p0; ri_height := h0 |} -> Forall valid_rop (rewards_ops r H) ->
  in_blocks_from h0 (txs ++ [t]) -> N.of_nat (length (rewards_ops r H)) + 1 < U64 ->
  hashes_apart wshash (pc_multisig c) H -> session_begun keccak wshash sec1 P c H id cur dg -> lsum sg_weight (members cur) < U256 ->
  exists ms mu, st !! pc_multisig c = Some (CMultisig ms) /\ get_multisig ms id = Ok mu /\
  (is_ok (system_step keccak wshash sec1 crypto st t) = true <->
   (exists sg sig, ws_signers cur !! w = Some sg /\ signature_try_from (pk_type (sg_key sg)) bytes = Some sig /\
      good_signature crypto sig dg (sg_key sg)) /\
   w ∉ submitters (pc_multisig c) H id /\
   (forall c', mu_state mu = MCompleted c' -> c' + n < U64 /\ en_height e <= c' + n)).
Proof. exact (fun k w s cr => begun_signature k w s (fun _ _ _ => None) cr). Qed.
Print Assumptions C94_signature_iff.
Example C94_session_1 : exists cur dg,
  session_begun ex_keccak ex_wshash ex_sec1 "prover" (pcfg Abi) (sys_history (take 26 sys_all)) 1 cur dg /\
  submitters "multisig" (sys_history (take 26 sys_all)) 1 = ["alice"; "bob"] /\ reached cur ["alice"; "bob"] /\
  lsum sg_weight (members cur) < U256 /\ Forall (fun sg => is_Some (ex_sec1 (pk_bytes (sg_key sg)))) (members cur).
Proof. exact dx_begun. Qed.
Example C94_signatures :
  is_ok (system_step ex_keccak ex_wshash ex_sec1 ex_crypto (sys_run (take 23 sys_all)) (send 23 "alice" "multisig" (BSubmitSignature 1 (repeat_char 64 "s")))) = true /\
  is_ok (system_step ex_keccak ex_wshash ex_sec1 ex_crypto (sys_run (take 23 sys_all)) (send 23 "carol" "multisig" (BSubmitSignature 1 (repeat_char 64 "x")))) = false /\
  is_ok (system_step ex_keccak ex_wshash ex_sec1 ex_crypto (sys_run (take 23 sys_all)) (send 23 "dave" "multisig" (BSubmitSignature 1 (repeat_char 64 "s")))) = false /\
  is_ok (system_step ex_keccak ex_wshash ex_sec1 ex_crypto (sys_run (take 24 sys_all)) (send 23 "alice" "multisig" (BSubmitSignature 1 (repeat_char 64 "s")))) = false /\
  is_ok (system_step ex_keccak ex_wshash ex_sec1 ex_crypto (sys_run (take 26 sys_all)) (send 34 "carol" "multisig" (BSubmitSignature 1 (repeat_char 64 "s")))) = true /\
  is_ok (system_step ex_keccak ex_wshash ex_sec1 ex_crypto (sys_run (take 26 sys_all)) (send 35 "carol" "multisig" (BSubmitSignature 1 (repeat_char 64 "s")))) = false.
Proof. exact dx_signatures. Qed.
(** the hypotheses on blocks and rewards hold of that history *)
Example C94_in_blocks : in_blocks_from 1 sys_all /\ valid_rinit sys_ri /\ Forall valid_rop (rewards_ops "rewards" (sys_history sys_all)).
Proof. exact (conj dx_blocks sys_valid). Qed.

(** The proof of a session is pending until those who signed reach the
    threshold of its worker set. *)
Theorem C94_proof_pending : forall keccak wshash sec1 recover crypto dep txs P c g r n,
  dep !! P = Some (DProver c) -> dep !! pc_multisig c = Some (DMultisig g r n) ->
  let st := sysrun keccak wshash sec1 crypto dep txs in
  let H := history keccak wshash sec1 crypto dep txs in
  forall id cur dg s, hashes_apart wshash (pc_multisig c) H -> session_begun keccak wshash sec1 P c H id cur dg -> pair_state st P c s ->
  ~ reached cur (submitters (pc_multisig c) H id) ->
  exists resp, system_proof keccak sec1 recover c s id = Ok resp /\ pr_status resp = PfPending.
Proof. exact begun_pending. Qed.
Print Assumptions C94_proof_pending.

(** For EVM chains the proof is available exactly from then on, if the keys of
    all members are points of the curve. *)
Theorem C94_abi_proof_iff : forall keccak wshash sec1 recover crypto dep txs P c g r n,
  dep !! P = Some (DProver c) -> dep !! pc_multisig c = Some (DMultisig g r n) ->
  let st := sysrun keccak wshash sec1 crypto dep txs in
  let H := history keccak wshash sec1 crypto dep txs in
  forall id cur dg s, (forall x, String.length (keccak x) = 32%nat) -> pc_encoder c = Abi ->
  hashes_apart wshash (pc_multisig c) H -> session_begun keccak wshash sec1 P c H id cur dg -> lsum sg_weight (members cur) < U256 ->
  pair_state st P c s ->
  (exists resp d, system_proof keccak sec1 recover c s id = Ok resp /\ pr_status resp = PfCompleted d) <->
  reached cur (submitters (pc_multisig c) H id) /\ Forall (fun sg => is_Some (sec1 (pk_bytes (sg_key sg)))) (members cur).
Proof. exact begun_abi. Qed.
Print Assumptions C94_abi_proof_iff.
Example C94_proofs : dx_proof (take 23 sys_all) 1 = Some false /\ dx_proof (take 25 sys_all) 1 = Some false /\
  dx_proof (take 26 sys_all) 1 = Some true.
Proof. exact dx_proofs. Qed.

(** For BCS chains it is available from then on, within the limits of the
    encoding. *)
Theorem C94_bcs_proof : forall keccak wshash sec1 recover crypto dep txs P c g r n,
  dep !! P = Some (DProver c) -> dep !! pc_multisig c = Some (DMultisig g r n) ->
  let st := sysrun keccak wshash sec1 crypto dep txs in
  let H := history keccak wshash sec1 crypto dep txs in
  forall id cur dg s, pc_encoder c = Bcs ->
  hashes_apart wshash (pc_multisig c) H -> session_begun keccak wshash sec1 P c H id cur dg -> lsum sg_weight (members cur) < U256 ->
  ws_threshold cur < U128 ->
  Forall (fun sg => sg_weight sg < U128 /\ slen (pk_bytes (sg_key sg)) <= 65) (members cur) ->
  N.of_nat (length (members cur)) <= 2 ^ 20 -> pair_state st P c s ->
  (forall bt enc, pv_batches (sy_prover s) !! b_id bt = Some bt -> bcs_encode (b_data bt) = Ok enc -> slen enc <= BCS_MAX) ->
  reached cur (submitters (pc_multisig c) H id) ->
  exists resp d, system_proof keccak sec1 recover c s id = Ok resp /\ pr_status resp = PfCompleted d.
Proof. exact begun_bcs. Qed.
Print Assumptions C94_bcs_proof.

(** A vote in a poll of a verifier is accepted exactly if it is by one of the
    workers active when the poll was opened, before it expires, with an answer
    for each item, and their first; it changes nothing but that verifier. *)
Theorem C94_vote_iff : forall keccak wshash sec1 crypto dep txs v vc, dep !! v = Some (DVerifier vc) ->
  let st := sysrun keccak wshash sec1 crypto dep txs in
  forall g e a id ballot l1 k l2 expires workers items, dep !! a = None ->
  history keccak wshash sec1 crypto dep txs = l1 ++ k :: l2 -> poll_opened keccak v vc k id expires workers items ->
  let t := {| tx_gas := S g; tx_env := e; tx_sender := a; tx_sub := plain v (BVote id ballot) |} in
  (is_ok (system_step keccak wshash sec1 crypto st t) = true <->
   a ∈ w_addr <$> workers /\ en_height e < expires /\ length ballot = items /\
   forall k' b, k' ∈ l2 -> k_to k' = v -> k_sender k' = a -> sb_body (k_sub k') <> BVote id b) /\
  forall st' l, system_step keccak wshash sec1 crypto st t = Ok (st', l) -> forall d, d <> v -> st' !! d = st !! d.
Proof. exact c94_vote. Qed.
Print Assumptions C94_vote_iff.

(** Anybody can end a poll, once, from its expiry on; the rewards contract
    records nobody twice for it, and nothing else changes. *)
Theorem C94_end_iff : forall keccak wshash sec1 crypto dep txs v vc, dep !! v = Some (DVerifier vc) ->
  let st := sysrun keccak wshash sec1 crypto dep txs in
  let H := history keccak wshash sec1 crypto dep txs in
  forall g e a id l1 k l2 expires workers items g0 d0 p0 h0, dep !! a = None ->
  dep !! vc_rewards vc = Some (DRewards g0 d0 p0 h0) ->
  let t := {| tx_gas := S (S g); tx_env := e; tx_sender := a; tx_sub := plain v (BEndPoll id) |} in
  valid_rinit {| ri_gov := g0; ri_denom := d0; ri_params := p0; ri_height := h0 |} -> Forall valid_rop (rewards_ops (vc_rewards vc) H) ->
  in_blocks_from h0 (txs ++ [t]) -> 2 * N.of_nat (length H) < U64 ->
  H = l1 ++ k :: l2 -> poll_opened keccak v vc k id expires workers items ->
  (is_ok (system_step keccak wshash sec1 crypto st t) = true <->
   expires <= en_height e /\ forall k', k' ∈ l2 -> k_to k' = v -> sb_body (k_sub k') <> BEndPoll id) /\
  forall st' l, system_step keccak wshash sec1 crypto st t = Ok (st', l) ->
    (exists parts rs, NoDup parts /\ st !! vc_rewards vc = Some (CRewards rs) /\
       st' !! vc_rewards vc = Some (CRewards (run rewards_step rs ((fun w => Record_ (en_height e) v (dec id) w) <$> parts)))) /\
    forall d, d <> v -> d <> vc_rewards vc -> st' !! d = st !! d.
Proof. exact c94_end. Qed.
Print Assumptions C94_end_iff.
Example C94_opened : exists l1 k l2 workers, sys_history (take 16 sys_all) = l1 ++ k :: l2 /\ l2 = [] /\
  w_addr <$> workers = ["alice"; "bob"; "carol"] /\
  poll_opened ex_keccak "ver-eth" (sys_vc "ethereum") k 1 14 workers 2.
Proof. exact dx_opened. Qed.
Example C94_votes :
  is_ok (system_step ex_keccak ex_wshash ex_sec1 ex_crypto (sys_run (take 16 sys_all)) (send 13 "carol" "ver-eth" (BVote 1 [NotFound; NotFound]))) = true /\
  is_ok (system_step ex_keccak ex_wshash ex_sec1 ex_crypto (sys_run (take 16 sys_all)) (send 14 "carol" "ver-eth" (BVote 1 [NotFound; NotFound]))) = false /\
  is_ok (system_step ex_keccak ex_wshash ex_sec1 ex_crypto (sys_run (take 16 sys_all)) (send 13 "carol" "ver-eth" (BVote 1 [NotFound]))) = false /\
  is_ok (system_step ex_keccak ex_wshash ex_sec1 ex_crypto (sys_run (take 16 sys_all)) (send 13 "dave" "ver-eth" (BVote 1 [NotFound; NotFound]))) = false /\
  is_ok (system_step ex_keccak ex_wshash ex_sec1 ex_crypto (sys_run (take 17 sys_all)) (send 13 "alice" "ver-eth" (BVote 1 [NotFound; NotFound]))) = false /\
  is_ok (system_step ex_keccak ex_wshash ex_sec1 ex_crypto (sys_run (take 16 sys_all)) (send 13 "anyone" "ver-eth" (BEndPoll 1))) = false /\
  is_ok (system_step ex_keccak ex_wshash ex_sec1 ex_crypto (sys_run (take 16 sys_all)) (send 14 "anyone" "ver-eth" (BEndPoll 1))) = true /\
  is_ok (system_step ex_keccak ex_wshash ex_sec1 ex_crypto (sys_run (take 20 sys_all)) (send 24 "anyone" "ver-eth" (BEndPoll 1))) = false.
Proof. exact dx_votes. Qed.
