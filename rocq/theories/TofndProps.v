(** C110: the signatures that are submitted are the key daemon's. Vocabulary: TofndSpec.v. *)
From Verif Require Import Base Text StdModel RouterTypes OperatorsModel MultisigTypes EncodingModel EventsModel HandlersModel HandlersSpec
  HandlersExamples DaemonModel TofndModel TofndSpec TofndProofs2 TofndExamples.

(** Of all texts, exactly the DER encodings of two scalars of the curve are
    read, and as these two scalars. *)
Theorem C110_reads : forall x y, from_der x = Some y <->
  exists r s, in_group r /\ in_group s /\ x = der_signature r s /\ y = fixed_signature r s.
Proof. exact from_der_iff. Qed.
Print Assumptions C110_reads.

(** No two answers are read as one signature. *)
Theorem C110_one : forall x x' y, from_der x = Some y -> from_der x' = Some y -> x = x'.
Proof. exact c110_one. Qed.
Print Assumptions C110_one.

(** A signature that is submitted for a session is the one tofnd answered with
    when asked, under the multisig's address, for the session's digest and the
    key listed for this worker; and the contract takes it for an ECDSA
    signature. *)
Theorem C110_submitted : forall read_key ask_keygen ask party acc de_key cfg open ev tx,
  multisig_handler acc de_key cfg open (tf_sign (client read_key ask_keygen ask party)) ev = Ok (Some tx) ->
  exists session l v pk x digest r s,
    has_attr ev "wasm-signing_started" "session_id" (JNum session) /\
    has_attr ev "wasm-signing_started" "pub_keys" (JObj l) /\ (hc_worker cfg, v) ∈ l /\ de_key v = Some pk /\
    has_attr ev "wasm-signing_started" "msg" (JStr x) /\ of_hex x = Some digest /\
    ask {| sq_key := hc_contract cfg; sq_msg := digest; sq_party := party; sq_pub_key := pk |} = Answer (der_signature r s) /\
    in_group r /\ in_group s /\
    wt_body tx = BodySignature session (fixed_signature r s) /\
    signature_try_from KEcdsa (fixed_signature r s) = Some (SigEcdsa (fixed_signature r s)).
Proof. exact c110_submitted. Qed.
Print Assumptions C110_submitted.

(** What tofnd answers is told apart: no connection or an empty answer, a
    refusal with its text, an answer that is no signature. *)
Theorem C110_told : forall ask party key msg pk,
  match ask {| sq_key := key; sq_msg := msg; sq_party := party; sq_pub_key := pk |} with
  | CallFailed | NoAnswer => client_sign ask party key msg pk = Err Grpc
  | Refusal t => client_sign ask party key msg pk = Err (SignFailed t)
  | Answer b => (forall r s, in_group r -> in_group s -> b <> der_signature r s) -> client_sign ask party key msg pk = Err ParsingFailed
  end.
Proof. exact c110_told. Qed.
Print Assumptions C110_told.

(** Then nothing is submitted, and the handler ends with an error. *)
Theorem C110_refused : forall read_key ask_keygen ask party acc de_key cfg open s attrs pk,
  de_signing acc de_key attrs = Some s -> sg_contract s = hc_contract cfg -> key_of (sg_keys s) (hc_worker cfg) = Some pk ->
  (forall y, client_sign ask party (hc_contract cfg) (sg_msg s) pk <> Ok y) ->
  multisig_handler acc de_key cfg open (tf_sign (client read_key ask_keygen ask party)) (Abci "wasm-signing_started" attrs) = Err SignError.
Proof. exact c110_refused. Qed.
Print Assumptions C110_refused.

(** The worker's key is the one on disk, or else the one tofnd answers with. *)
Theorem C110_keygen : forall read_key ask_keygen ask party saved cf k,
  worker_key saved (client read_key ask_keygen ask party) cf = Ok k <->
  saved = Some k \/
  (saved = None /\ exists b, ask_keygen {| kr_key := cf_key_uid cf; kr_party := party |} = Answer b /\ read_key b = Some k).
Proof. exact c110_keygen. Qed.
Print Assumptions C110_keygen.

(** a signature of 71 bytes, and texts that are none *)
Example C110_ex_der : String.length (der_signature tx_r tx_s) = 71%nat /\
  to_hex (stake 6 (der_signature tx_r tx_s)) = "304502210080" /\ to_hex (sdrop 36 (stake 40 (der_signature tx_r tx_s))) = "05022040" /\
  String.eqb (fixed_signature tx_r tx_s) (be_bytes 64 (tx_r * 2 ^ 256 + tx_s)) = true.
Proof. exact tx_der. Qed.
Example C110_ex_reads :
  from_der (der_signature tx_r tx_s) = Some (fixed_signature tx_r tx_s) /\
  from_der (der_signature tx_r tx_s +:+ "x") = None /\
  from_der (fixed_signature tx_r tx_s) = None /\
  from_der (der_signature 0 tx_s) = None /\ from_der (der_signature secp256k1_n tx_s) = None /\
  from_der (tagged 48 (tagged 2 (be_bytes 2 5) +:+ tagged 2 (be_bytes 1 5))) = None /\
  from_der (tagged 48 (tagged 2 (be_bytes 1 200) +:+ tagged 2 (be_bytes 1 5))) = None /\
  from_der (tagged 48 (tagged 2 (be_bytes 2 200) +:+ tagged 2 (be_bytes 1 5))) = Some (fixed_signature 200 5).
Proof. exact tx_reads. Qed.
(** one worker's signature is submitted, another's daemon answers badly *)
Example C110_ex_handler :
  multisig_handler hx_acc hm_key (hm_cfg "w2") true (tf_sign tx_client) hm_event =
    Ok (Some {| wt_sender := "w2"; wt_contract := "multisig"; wt_body := BodySignature 5 (fixed_signature tx_r tx_s) |}) /\
  multisig_handler hx_acc hm_key (hm_cfg "w1") true (tf_sign tx_client) hm_event = Err SignError /\
  multisig_handler hx_acc hm_key (hm_cfg "w3") true (tf_sign tx_client) hm_event = Ok None /\
  worker_key None tx_client {| cf_key_uid := "axelar"; cf_registry := "registry"; cf_handlers := [] |} = Ok "key2" /\
  worker_key None tx_client {| cf_key_uid := "other"; cf_registry := "registry"; cf_handlers := [] |} = Err Task.
Proof. exact tx_handler. Qed.
