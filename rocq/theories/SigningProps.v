(** C62: prover and multisig together. *)
From Verif Require Import Base Text StdModel RegistryTypes RouterTypes MultisigTypes OperatorsModel MultisigModel MultisigSpec
  EncodingModel EncodingSpec EncodingExamples MultisigExamples ProverModel ProverSpec ProverExamples
  SigningModel SigningSpec SigningProofs SigningProofs2 SigningProofs3 SigningExamples.

(** What backs a completed proof: session [id] was started for the worker set
    current at that time, over the digest of the batch then made under its
    id; the signatures selected were submitted by members of that set, are
    good for that digest, belong to different members, and reach the
    threshold (the last one being needed); the proof shows the batch last
    made under the id, which is the one signed unless another was made. *)
Theorem C62_backed : forall keccak wshash sec1 recover crypto c me g r p ops id resp d,
  (forall x, String.length (keccak x) = 32%nat) -> (forall w, String.length (wshash w) = 32%nat) ->
  pc_chain_id c < U256 -> distinct_sets wshash (slog keccak wshash sec1 crypto c me g r p ops) ->
  system_proof keccak sec1 recover c (srun keccak wshash sec1 crypto c me g r p ops) id = Ok resp ->
  pr_status resp = PfCompleted d ->
  let l := slog keccak wshash sec1 crypto c me g r p ops in
  exists k1 e k2 cur b0 digest b sel,
    prover_trace l = k1 ++ e :: k2 /\ session_start keccak wshash sec1 c k1 e id cur b0 /\
    msg_digest keccak b0 = Ok digest /\ started_with (worker_set_id wshash) (multisig_trace l) id digest cur /\
    last_built keccak wshash sec1 c (prover_trace l) (b_id b0) b /\
    (not_rebuilt keccak wshash sec1 c (k1 ++ [e]) k2 (b_id b0) -> b = b0) /\
    b_encoder b = pc_encoder c /\ pr_data resp = b_data b /\ pr_ids resp = b_ids b /\
    Forall (member_signed crypto (multisig_trace l) id cur digest) (signed sel) /\
    NoDup (signed sel) /\ ws_threshold cur <= weight_of (signed sel) /\
    (forall s' x, signed sel = s' ++ [x] -> weight_of s' < ws_threshold cur) /\
    sel.*1 ≡ₚ members cur /\
    (set_ok cur -> fits (b_encoder b) d -> proof_shows keccak sec1 recover b (ws_threshold cur) sel d).
Proof. exact c62_backed. Qed.
Print Assumptions C62_backed.

(** If good ECDSA signatures have a recovery id, and no other batch was made
    under the id of the one signed, the bytes of the proof say: the commands
    of the batch signed, the threshold of the worker set asked, and
    signatures of its members over that batch that reach the threshold. *)
Theorem C62_carries_threshold : forall keccak wshash sec1 recover crypto c me g r p ops id resp d,
  (forall x, String.length (keccak x) = 32%nat) -> (forall w, String.length (wshash w) = 32%nat) ->
  pc_chain_id c < U256 -> distinct_sets wshash (slog keccak wshash sec1 crypto c me g r p ops) ->
  recoverable crypto recover ->
  system_proof keccak sec1 recover c (srun keccak wshash sec1 crypto c me g r p ops) id = Ok resp ->
  pr_status resp = PfCompleted d ->
  let l := slog keccak wshash sec1 crypto c me g r p ops in
  exists k1 e k2 cur b0 digest,
    prover_trace l = k1 ++ e :: k2 /\ session_start keccak wshash sec1 c k1 e id cur b0 /\
    msg_digest keccak b0 = Ok digest /\ started_with (worker_set_id wshash) (multisig_trace l) id digest cur /\
    (not_rebuilt keccak wshash sec1 c (k1 ++ [e]) k2 (b_id b0) -> set_ok cur -> fits (pc_encoder c) d ->
     exists x pf os, decode_execute (pc_encoder c) d = Some (x, pf) /\
       decode_data (pc_encoder c) x = Some (data_view (b_data b0)) /\
       decode_proof (pc_encoder c) pf =
         Some (op_addr <$> os, op_weight <$> os, ws_threshold cur, omap (fun o => sig_bytes <$> op_sig o) os) /\
       ws_threshold cur <= proof_weight os /\
       Forall (op_backed keccak sec1 crypto recover (pc_encoder c) (multisig_trace l) id cur digest) os).
Proof. exact c62_carries. Qed.
Print Assumptions C62_carries_threshold.

(** A batch with no transfer to a new worker set is never replaced by another
    one, if the gateway answers with the messages asked for and the hash does
    not confuse batch keys. *)
Theorem C62_plain : forall keccak wshash sec1 crypto c me g r p ops id k1 e k2 cur b0,
  (forall w, wshash w <> "") ->
  prover_trace (slog keccak wshash sec1 crypto c me g r p ops) = k1 ++ e :: k2 ->
  session_start keccak wshash sec1 c k1 e id cur b0 ->
  b_id b0 = batch_id keccak wshash (b_ids b0) None ->
  plain_history keccak wshash c (prover_trace (slog keccak wshash sec1 crypto c me g r p ops)) (b_ids b0) ->
  not_rebuilt keccak wshash sec1 c (k1 ++ [e]) k2 (b_id b0).
Proof. exact c62_plain. Qed.
Print Assumptions C62_plain.

(** With a transfer it may be: a completed proof then shows data whose digest
    is not the one its signatures are for. *)
Theorem C62_overwritten_refuted :
  exists keccak wshash sec1 recover crypto c me g r p ops id resp d digest digest' cur,
  (forall x, String.length (keccak x) = 32%nat) /\ (forall w, String.length (wshash w) = 32%nat) /\
  pc_chain_id c < U256 /\ distinct_sets wshash (slog keccak wshash sec1 crypto c me g r p ops) /\
  system_proof keccak sec1 recover c (srun keccak wshash sec1 crypto c me g r p ops) id = Ok resp /\
  pr_status resp = PfCompleted d /\
  started_with (worker_set_id wshash) (multisig_trace (slog keccak wshash sec1 crypto c me g r p ops)) id digest cur /\
  (forall b, b_encoder b = pc_encoder c -> b_data b = pr_data resp -> msg_digest keccak b = Ok digest') /\
  digest' <> digest.
Proof. exact c62_overwritten. Qed.
Print Assumptions C62_overwritten_refuted.

(** The hypotheses above are met by these values: a session of two of three
    workers completes, and the next session for the same batch is pending. *)
Example C62_completed : signed_check Abi = true /\ signed_check Bcs = true.
Proof. exact ex_signed_check. Qed.
Example C62_distinct : forall e, distinct_sets ex_wshash (ex_slog e (ex_signed e)).
Proof. exact ex_signed_distinct. Qed.
Example C62_set_ok : forall e, set_ok (ex_first e).
Proof. exact ex_first_ok. Qed.
Example C62_recoverable : recoverable ex_crypto sys_recover.
Proof. exact sys_recoverable. Qed.
Example C62_plain_history : forall e, plain_history ex_keccak ex_wshash (pcfg e) (ex_entries e) [ev 1; ev 2].
Proof. exact ex_plain. Qed.
