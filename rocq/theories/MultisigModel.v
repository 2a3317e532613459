(** Model of contracts/multisig/src (contract.rs, signing.rs, state.rs).
    Left out: address validation of the [sig_verifier] argument
    (contract.rs:53-55), which has no other effect. *)
From Verif Require Import Base Text StdModel MultisigTypes.

(** signing.rs:13-19 [SigningSession] *)
Record session := { ss_id : N; ss_wsid : string; ss_msg : string; ss_state : ms_state }.

(** state.rs:14-79: the storage. [SIGNATURES] is keyed by (session, signer)
    and read by session prefix; here it is one map per session. *)
Record mstate := {
  m_governance : addr;
  m_rewards : addr;
  m_grace : N;
  m_counter : N;
  m_sessions : gmap N session;
  m_sigs : gmap N (gmap addr signature);
  m_sets : gmap string worker_set;
  m_keys : gmap (addr * key_type) string;
  m_callers : gset addr;
}.

(** error.rs, the cases the modelled code raises *)
Inductive merror :=
| NoActiveWorkerSetFound | DuplicateSignature | NotAParticipant | SignatureVerificationFailed
| InvalidSignature | InvalidPublicKeyFormat | InvalidMessageFormat | InvalidSignatureFormat
| SigningSessionClosed | SigningSessionNotFound | KeyTypeMismatch | MUnauthorized | MStdError.

(** events and messages of the responses *)
Inductive mout :=
| OutStarted (id : N) (wsid : string) (keys : gmap addr public_key) (msg chain : string)
| OutSigned (reward : addr * string * addr) (id : N) (signer : addr) (sig : signature)
            (completed : option N)
| OutNone
| OutKey (worker : addr) (key : public_key)
| OutCaller (authorized : bool) (caller : addr).

(** contract.rs:19-35 [instantiate] *)
Definition multisig_init (governance rewards : addr) (grace : N) : mstate :=
  {| m_governance := governance; m_rewards := rewards; m_grace := grace; m_counter := 0;
     m_sessions := ∅; m_sigs := ∅; m_sets := ∅; m_keys := ∅; m_callers := ∅ |}.

Section Multisig.
  (** worker_set.rs:49-57 [WorkerSet::id]: hash of the JSON form, abstract. *)
  Context (wsid : worker_set -> string).
  (** cosmwasm_crypto's [secp256k1_verify] and [ed25519_verify] (secp256k1.rs,
      ed25519.rs): message, signature, key; [None] is an error. *)
  Context (crypto : key_type -> string -> string -> string -> option bool).

  (** key.rs:169-180 [Signature::verify] *)
  Definition sig_verify (sg : signature) (msg : string) (pk : public_key) : res merror bool :=
    if bool_decide (sig_type sg = pk_type pk) then
      of_option SignatureVerificationFailed (crypto (sig_type sg) msg (sig_bytes sg) (pk_bytes pk))
    else Err KeyTypeMismatch.

  (** contract.rs:102-133 [start_signing_session] with 49-65 of [execute] *)
  Definition start_session (s : mstate) (sender : addr) (id : string) (msg chain : string)
    : res merror (mstate * mout) :=
    let? _ := ensure (bool_decide (sender ∈ m_callers s)) MUnauthorized in
    let? msg := of_option InvalidMessageFormat (msg_to_sign_of msg) in
    let? ws := of_option NoActiveWorkerSetFound (m_sets s !! id) in
    let? n := add_u64 (m_counter s) 1 in
    Ok ({| m_governance := m_governance s; m_rewards := m_rewards s; m_grace := m_grace s;
           m_counter := n;
           m_sessions := <[n := {| ss_id := n; ss_wsid := id; ss_msg := msg; ss_state := MPending |}]>
                           (m_sessions s);
           m_sigs := m_sigs s; m_sets := m_sets s; m_keys := m_keys s; m_callers := m_callers s |},
        OutStarted n id (sg_key <$> ws_signers ws) msg chain).

  Definition session_sigs (s : mstate) (id : N) : gmap addr signature := default ∅ (m_sigs s !! id).

  (** signing.rs:72-84 [signers_weight]: a missing signer panics; simplification:
      summed in key order. *)
  Definition signers_weight (sigs : gmap addr signature) (ws : worker_set) : res merror N :=
    fold_left (fun acc '(a, _) =>
                 let? n := acc in
                 let? sg := expect (ws_signers ws !! a) in
                 add_u256 n (sg_weight sg)) (btree_iter sigs) (Ok 0).

  (** signing.rs:47-70 [validate_session_signature] *)
  Definition validate_signature (ss : session) (sg : signature) (pk : public_key) (grace height : N)
    : res merror unit :=
    let? _ := match ss_state ss with
              | MCompleted c =>
                  let? e := add_u64 c grace in ensure (negb (e <? height)) SigningSessionClosed
              | MPending => Ok tt
              end in
    let? ok := sig_verify sg (ss_msg ss) pk in
    ensure ok InvalidSignature.

  (** contract.rs:135-185 [submit_signature], 252-296 [signing_response],
      state.rs:38-57 [save_signature], signing.rs:31-45
      [recalculate_session_state] *)
  Definition submit_signature (s : mstate) (height : N) (sender : addr) (id : N) (bytes : string)
    : res merror (mstate * mout) :=
    let? ss := of_option SigningSessionNotFound (m_sessions s !! id) in
    let? ws := of_option MStdError (m_sets s !! ss_wsid ss) in
    let? signer := of_option NotAParticipant (ws_signers ws !! sender) in
    let pk := sg_key signer in
    let? sg := of_option InvalidSignatureFormat (signature_try_from (pk_type pk) bytes) in
    let? _ := validate_signature ss sg pk (m_grace s) height in
    let? _ := ensure (bool_decide (session_sigs s id !! sender = None)) DuplicateSignature in
    let sigs := <[sender := sg]> (session_sigs s id) in
    let? weight := signers_weight sigs ws in
    let st := if bool_decide (ss_state ss = MPending) && (ws_threshold ws <=? weight)
              then MCompleted height else ss_state ss in
    let ss' := {| ss_id := ss_id ss; ss_wsid := ss_wsid ss; ss_msg := ss_msg ss; ss_state := st |} in
    let completed := match st with
                     | MCompleted c => if bool_decide (ss_state ss = st) then None else Some c
                     | MPending => None
                     end in
    Ok ({| m_governance := m_governance s; m_rewards := m_rewards s; m_grace := m_grace s;
           m_counter := m_counter s;
           m_sessions := <[ss_id ss := ss']> (m_sessions s);
           m_sigs := <[id := sigs]> (m_sigs s);
           m_sets := m_sets s; m_keys := m_keys s; m_callers := m_callers s |},
        OutSigned (m_rewards s, dec id, sender) id sender sg completed).

  (** contract.rs:187-195 [register_worker_set]: anybody may call it *)
  Definition register_worker_set (s : mstate) (ws : worker_set) : res merror (mstate * mout) :=
    Ok ({| m_governance := m_governance s; m_rewards := m_rewards s; m_grace := m_grace s;
           m_counter := m_counter s; m_sessions := m_sessions s; m_sigs := m_sigs s;
           m_sets := <[wsid ws := ws]> (m_sets s); m_keys := m_keys s; m_callers := m_callers s |},
        OutNone).

  (** contract.rs:197-215 [register_pub_key]; the key's length was checked
      when the message was decoded (key.rs:110-138). *)
  Definition register_pub_key (s : mstate) (sender : addr) (t : key_type) (bytes : string)
    : res merror (mstate * mout) :=
    let? pk := of_option InvalidPublicKeyFormat (public_key_try_from t bytes) in
    Ok ({| m_governance := m_governance s; m_rewards := m_rewards s; m_grace := m_grace s;
           m_counter := m_counter s; m_sessions := m_sessions s; m_sigs := m_sigs s;
           m_sets := m_sets s; m_keys := <[(sender, pk_type pk) := pk_bytes pk]> (m_keys s);
           m_callers := m_callers s |},
        OutKey sender pk).

  (** contract.rs:226-250 [authorize_caller], [unauthorize_caller],
      [require_governance] *)
  Definition set_caller (s : mstate) (sender : addr) (auth : bool) (caller : addr)
    : res merror (mstate * mout) :=
    let? _ := ensure (bool_decide (m_governance s = sender)) MUnauthorized in
    Ok ({| m_governance := m_governance s; m_rewards := m_rewards s; m_grace := m_grace s;
           m_counter := m_counter s; m_sessions := m_sessions s; m_sigs := m_sigs s;
           m_sets := m_sets s; m_keys := m_keys s;
           m_callers := if auth then {[caller]} ∪ m_callers s else m_callers s ∖ {[caller]} |},
        OutCaller auth caller).

  (** contract.rs:38-84 [execute] *)
  Inductive mop :=
  | StartSession (sender : addr) (id : string) (msg chain : string)
  | SubmitSignature (height : N) (sender : addr) (id : N) (bytes : string)
  | RegisterWorkerSet (sender : addr) (ws : worker_set)
  | RegisterPublicKey (sender : addr) (t : key_type) (bytes : string)
  | SetCaller (sender : addr) (auth : bool) (caller : addr).

  Definition multisig_step (s : mstate) (op : mop) : res merror (mstate * mout) :=
    match op with
    | StartSession a id msg chain => start_session s a id msg chain
    | SubmitSignature h a id b => submit_signature s h a id b
    | RegisterWorkerSet _ ws => register_worker_set s ws
    | RegisterPublicKey a t b => register_pub_key s a t b
    | SetCaller a auth c => set_caller s a auth c
    end.

  (** msg.rs:76-81 [Multisig], contract.rs:326-343 [get_multisig] *)
  Record multisig := {
    mu_state : ms_state; mu_quorum : N; mu_signers : list (signer * option signature);
  }.
  Definition get_multisig (s : mstate) (id : N) : res merror multisig :=
    let? ss := of_option MStdError (m_sessions s !! id) in
    let? ws := of_option MStdError (m_sets s !! ss_wsid ss) in
    let sigs := session_sigs s (ss_id ss) in
    Ok {| mu_state := ss_state ss; mu_quorum := ws_threshold ws;
          mu_signers := (fun '(a, sg) => (sg, sigs !! a)) <$> btree_iter (ws_signers ws) |}.

  (** contract.rs:345-347 [get_worker_set] *)
  Definition get_worker_set (s : mstate) (id : string) : res merror worker_set :=
    of_option MStdError (m_sets s !! id).

  (** contract.rs:349-352 [get_public_key]: undecodable stored bytes panic *)
  Definition get_public_key (s : mstate) (a : addr) (t : key_type) : res merror public_key :=
    let? raw := of_option MStdError (m_keys s !! (a, t)) in
    expect (public_key_try_from t raw).
End Multisig.
