(** Properties C50-C52 of the prover's encodings. [keccak], [wshash], [sec1] and
    [recover] are arbitrary functions; see EncodingModel.v. *)
From Verif Require Import Base Text StdModel RouterTypes MultisigTypes OperatorsModel EncodingModel EncodingSpec
  EncodingProofs EncodingProofs2 EncodingProofs3 EncodingProofs4 EncodingProofs5 EncodingProofs6 EncodingProofs7 EncodingExamples.

(** C50.  *)
Theorem C50_data : forall d s, bcs_encode d = Ok s -> bcs_decode_data s = Some (data_view d) /\
  d_chain d < U64 /\ Forall (fun c => String.length (c_id c) = 32%nat) (d_commands d).
Proof. exact bcs_data_view. Qed.
Print Assumptions C50_data.

Theorem C50_data_injective : forall d d' s, bcs_encode d = Ok s -> bcs_encode d' = Ok s -> d = d'.
Proof. exact bcs_data_inj. Qed.
Print Assumptions C50_data_injective.

Theorem C50_data_encodes : forall d,
  d_chain d < U64 -> Forall (fun c => String.length (c_id c) = 32%nat) (d_commands d) ->
  N.of_nat (length (d_commands d)) <= BCS_MAX -> Forall (fun c => slen (c_params c) <= BCS_MAX) (d_commands d) ->
  exists s, bcs_encode d = Ok s.
Proof. exact bcs_encode_total. Qed.
Print Assumptions C50_data_encodes.

Theorem C50_large_chain_id_panics : forall d, U64 <= d_chain d -> bcs_encode d = Panic.
Proof. exact bcs_chain_panics. Qed.
Print Assumptions C50_large_chain_id_panics.

Theorem C50_command : forall keccak m c,
  make_command keccak Bcs m = Ok c -> String.length (m_hash m) = 32%nat ->
  c_id c = keccak (ccid_to_string (m_cc m)) /\ c_ty c = ApproveContractCall /\
  exists d, dest_bytes Bcs (m_daddr m) = Some d /\
    bcs_decode_params (c_params c) = Some (cc_chain (m_cc m), m_src m, d, m_hash m).
Proof. exact (fun keccak m c => fun H Hh => command_view keccak Bcs m c H Hh I). Qed.
Print Assumptions C50_command.

Theorem C50_address : forall b, String.length b = 32%nat -> dest_bytes Bcs ("0x" +:+ to_hex b) = Some b.
Proof. exact (dest_bytes_usual Bcs). Qed.
Print Assumptions C50_address.

Theorem C50_transfer : forall keccak wshash sec1 ws c,
  set_ok ws -> make_transfer keccak wshash sec1 Bcs ws = Ok c ->
  c_id c = wshash ws /\ c_ty c = TransferOperatorship /\
  exists l, bcs_decode_operators (c_params c) = Some (l.*1, l.*2, ws_threshold ws) /\
    make_operators keccak sec1 Bcs ws = Ok {| o_weights := l; o_threshold := ws_threshold ws |} /\
    Some <$> l ≡ₚ dest_entry keccak sec1 Bcs <$> members ws /\ ascending l.*1.
Proof. exact (fun keccak wshash sec1 ws c => fun Hs H => transfer_view keccak wshash sec1 Bcs ws c Hs H I). Qed.
Print Assumptions C50_transfer.

Theorem C50_proof : forall keccak sec1 q signers s,
  signers_ok q signers -> encode_proof keccak sec1 Bcs q signers = Ok s ->
  exists ops, bcs_decode_proof s =
      Some (op_addr <$> ops, op_weight <$> ops, q, omap (fun o => sig_bytes <$> op_sig o) ops) /\
    Some <$> ops ≡ₚ dest_operator keccak sec1 Bcs <$> signers /\ ascending (op_addr <$> ops).
Proof. exact (fun keccak sec1 q signers s => fun Hs H => proof_view keccak sec1 Bcs q signers s Hs H I). Qed.
Print Assumptions C50_proof.

Theorem C50_execute_data : forall keccak sec1 recover b q signers s,
  (forall x, String.length (keccak x) = 32%nat) -> b_encoder b = Bcs ->
  encode_execute_data keccak sec1 recover b q signers = Ok s ->
  exists digest x p, msg_digest keccak b = Ok digest /\ bcs_decode_execute s = Some (x, p) /\
    encode_data Bcs (b_data b) = Ok x /\
    encode_proof keccak sec1 Bcs q ((fun y => (y.1, convert_sig recover Bcs digest y.1 y.2)) <$> signers) = Ok p.
Proof. exact c50_execute. Qed.
Print Assumptions C50_execute_data.

Theorem C50_same_digest_same_messages : forall keccak wshash sec1 chain chain' e' ws ws' msgs msgs' b b' h,
  (forall x, String.length (keccak x) = 32%nat) -> (forall w, String.length (wshash w) = 32%nat) ->
  chain < U256 -> chain' < U256 ->
  build_batch keccak wshash sec1 chain Bcs ws msgs = Ok b ->
  build_batch keccak wshash sec1 chain' e' ws' msgs' = Ok b' ->
  msg_digest keccak b = Ok h -> msg_digest keccak b' = Ok h ->
  Forall (fun m => String.length (m_hash m) = 32%nat /\ contains ":" (cc_chain (m_cc m)) = false) (msgs ++ msgs') ->
  no_collision keccak (hashed keccak b ++ hashed keccak b') ->
  no_collision keccak (ccid_to_string ∘ m_cc <$> (msgs ++ msgs')) ->
  Bcs = e' /\ chain = chain' /\ meaning Bcs <$> msgs = meaning Bcs <$> msgs' /\ wshash <$> ws = wshash <$> ws'.
Proof. exact c50_meaning. Qed.
Print Assumptions C50_same_digest_same_messages.

(** C51. Encodings shorter than 2^32 bytes: ethabi counts in 32 bits. *)
Theorem C51_data : forall d, data_ok d -> slen (abi_encode_data d) < 2 ^ 32 ->
  abi_decode_data (abi_encode_data d) = Some (data_view d).
Proof. exact abi_data_view. Qed.
Print Assumptions C51_data.

Theorem C51_data_injective : forall d d' s, data_ok d -> data_ok d' ->
  encode_data Abi d = Ok s -> encode_data Abi d' = Ok s -> slen s < 2 ^ 32 -> d = d'.
Proof. exact (encode_data_inj Abi). Qed.
Print Assumptions C51_data_injective.

Theorem C51_command : forall keccak m c,
  make_command keccak Abi m = Ok c -> String.length (m_hash m) = 32%nat -> slen (c_params c) < 2 ^ 32 ->
  c_id c = keccak (ccid_to_string (m_cc m)) /\ c_ty c = ApproveContractCall /\
  exists d, dest_bytes Abi (m_daddr m) = Some d /\
    abi_decode_params (c_params c) = Some (cc_chain (m_cc m), m_src m, d, m_hash m).
Proof. exact (fun keccak m c => command_view keccak Abi m c). Qed.
Print Assumptions C51_command.

Theorem C51_address : forall b, String.length b = 20%nat -> dest_bytes Abi ("0x" +:+ to_hex b) = Some b.
Proof. exact (dest_bytes_usual Abi). Qed.
Print Assumptions C51_address.

Theorem C51_transfer : forall keccak wshash sec1 ws c,
  set_ok ws -> make_transfer keccak wshash sec1 Abi ws = Ok c -> slen (c_params c) < 2 ^ 32 ->
  c_id c = wshash ws /\ c_ty c = TransferOperatorship /\
  exists l, abi_decode_operators (c_params c) = Some (l.*1, l.*2, ws_threshold ws) /\
    make_operators keccak sec1 Abi ws = Ok {| o_weights := l; o_threshold := ws_threshold ws |} /\
    Some <$> l ≡ₚ dest_entry keccak sec1 Abi <$> members ws /\ ascending l.*1.
Proof. exact (fun keccak wshash sec1 ws c => transfer_view keccak wshash sec1 Abi ws c). Qed.
Print Assumptions C51_transfer.

Theorem C51_proof : forall keccak sec1 q signers s,
  signers_ok q signers -> encode_proof keccak sec1 Abi q signers = Ok s -> slen s < 2 ^ 32 ->
  exists ops, abi_decode_proof s =
      Some (op_addr <$> ops, op_weight <$> ops, q, omap (fun o => sig_bytes <$> op_sig o) ops) /\
    Some <$> ops ≡ₚ dest_operator keccak sec1 Abi <$> signers /\ ascending (op_addr <$> ops).
Proof. exact (fun keccak sec1 q signers s => proof_view keccak sec1 Abi q signers s). Qed.
Print Assumptions C51_proof.

Theorem C51_execute_data : forall keccak sec1 recover b q signers s,
  (forall x, String.length (keccak x) = 32%nat) -> b_encoder b = Abi ->
  encode_execute_data keccak sec1 recover b q signers = Ok s -> slen s < 2 ^ 32 ->
  exists digest x p, msg_digest keccak b = Ok digest /\ abi_decode_execute s = Some (x, p) /\
    encode_data Abi (b_data b) = Ok x /\
    encode_proof keccak sec1 Abi q ((fun y => (y.1, convert_sig recover Abi digest y.1 y.2)) <$> signers) = Ok p /\
    slen x < 2 ^ 32 /\ slen p < 2 ^ 32 /\ stake 4 s = stake 4 (keccak "execute(bytes)").
Proof. exact c51_execute. Qed.
Print Assumptions C51_execute_data.

Theorem C51_same_digest_same_messages : forall keccak wshash sec1 chain chain' e' ws ws' msgs msgs' b b' h,
  (forall x, String.length (keccak x) = 32%nat) -> (forall w, String.length (wshash w) = 32%nat) ->
  chain < U256 -> chain' < U256 ->
  build_batch keccak wshash sec1 chain Abi ws msgs = Ok b ->
  build_batch keccak wshash sec1 chain' e' ws' msgs' = Ok b' ->
  msg_digest keccak b = Ok h -> msg_digest keccak b' = Ok h -> slen (abi_encode_data (b_data b)) < 2 ^ 32 ->
  Forall (fun m => String.length (m_hash m) = 32%nat /\ contains ":" (cc_chain (m_cc m)) = false) (msgs ++ msgs') ->
  no_collision keccak (hashed keccak b ++ hashed keccak b') ->
  no_collision keccak (ccid_to_string ∘ m_cc <$> (msgs ++ msgs')) ->
  Abi = e' /\ chain = chain' /\ meaning Abi <$> msgs = meaning Abi <$> msgs' /\ wshash <$> ws = wshash <$> ws'.
Proof. exact c51_meaning. Qed.
Print Assumptions C51_same_digest_same_messages.

(** The receiver's view of the whole executable proof, signatures included. *)
Theorem C51_signatures : forall keccak sec1 recover b q signers s,
  (forall x, String.length (keccak x) = 32%nat) -> signers_ok q signers ->
  encode_execute_data keccak sec1 recover b q signers = Ok s -> fits (b_encoder b) s ->
  exists digest x p ops, msg_digest keccak b = Ok digest /\ decode_execute (b_encoder b) s = Some (x, p) /\
    decode_proof (b_encoder b) p =
      Some (op_addr <$> ops, op_weight <$> ops, q, omap (fun o => sig_bytes <$> op_sig o) ops) /\
    Some <$> ops ≡ₚ dest_operator keccak sec1 (b_encoder b) <$> (dest_sig recover (b_encoder b) digest <$> signers) /\
    ascending (op_addr <$> ops).
Proof. exact execute_signatures. Qed.
Print Assumptions C51_signatures.

(** abi.rs:229 says the gateway still reads two more fields. The first is
    encoded as nothing, so the event index read is not the zero written: it is
    the length of the source chain's name. *)
Theorem C51_six_fields : forall keccak m c,
  make_command keccak Abi m = Ok c -> String.length (m_hash m) = 32%nat -> slen (c_params c) < 2 ^ 32 ->
  exists d, dest_bytes Abi (m_daddr m) = Some d /\
    abi_decode_params6 (c_params c) = Some (cc_chain (m_cc m), m_src m, d, m_hash m, zeros 32, slen (cc_chain (m_cc m))).
Proof. exact command_six. Qed.
Print Assumptions C51_six_fields.

(** C52. *)
Theorem C52_operators : forall keccak sec1 e ws o,
  make_operators keccak sec1 e ws = Ok o ->
  o_threshold o = ws_threshold ws /\ Some <$> o_weights o ≡ₚ dest_entry keccak sec1 e <$> members ws /\
  ascending (o_weights o).*1.
Proof. exact make_operators_view. Qed.
Print Assumptions C52_operators.

Theorem C52_strict : forall keccak sec1 e ws o,
  make_operators keccak sec1 e ws = Ok o ->
  NoDup (dest_addr keccak sec1 e ∘ pk_bytes ∘ sg_key <$> members ws) -> strictly_ascending (o_weights o).*1.
Proof. exact make_operators_strict. Qed.
Print Assumptions C52_strict.

Theorem C52_proof_strict : forall keccak sec1 e signers ops,
  Some <$> ops ≡ₚ dest_operator keccak sec1 e <$> signers -> ascending (op_addr <$> ops) ->
  NoDup (dest_addr keccak sec1 e ∘ pk_bytes ∘ sg_key ∘ fst <$> signers) -> strictly_ascending (op_addr <$> ops).
Proof. exact proof_operators_strict. Qed.
Print Assumptions C52_proof_strict.

Theorem C52_shared_key_not_strict : forall e, exists o,
  make_operators ex_keccak ex_sec1 e ex_shared = Ok o /\ length (o_weights o) = 2%nat /\ ~ strictly_ascending (o_weights o).*1.
Proof. exact ex_shared_dup. Qed.
Print Assumptions C52_shared_key_not_strict.

Theorem C52_operators_order : forall l l' t, l ≡ₚ l' -> NoDup l.*1 -> operators_new l t = operators_new l' t.
Proof. exact operators_perm. Qed.
Print Assumptions C52_operators_order.

Theorem C52_digest_order : forall l l' t, l ≡ₚ l' -> NoDup l.*1 ->
  operators_preimage (operators_new l t) = operators_preimage (operators_new l' t).
Proof. exact operators_preimage_perm. Qed.
Print Assumptions C52_digest_order.

Theorem C52_worker_set_order : forall l l' t h, l ≡ₚ l' -> NoDup (p_addr ∘ fst <$> l) ->
  worker_set_new l t h = worker_set_new l' t h.
Proof. exact worker_set_perm. Qed.
Print Assumptions C52_worker_set_order.

Theorem C52_proof_order : forall keccak sec1 e q l l' s, l ≡ₚ l' ->
  encode_proof keccak sec1 e q l = Ok s -> encode_proof keccak sec1 e q l' = Ok s.
Proof. exact proof_perm. Qed.
Print Assumptions C52_proof_order.

(** The hypotheses above are met by these values. *)
Example C50_C51_batches : check_batch Abi = true /\ check_batch Bcs = true.
Proof. exact ex_batches. Qed.
Example C50_C51_hypotheses : set_ok (ex_ws 200) /\ signers_ok 200 ex_signatures /\
  Forall (fun m => String.length (m_hash m) = 32%nat /\ contains ":" (cc_chain (m_cc m)) = false) (ex_msgs Abi ++ ex_msgs Bcs) /\
  Forall event_id (m_cc <$> ex_msgs Abi) /\ Forall plain_id (m_cc <$> ex_msgs Abi).
Proof. exact ex_hypotheses. Qed.
Example C50_C51_no_collision : forall e, exists h h' l,
  ex_digests e = Ok (h, h', l) /\ h <> h' /\ no_collision ex_keccak l.
Proof. exact ex_no_collision. Qed.
