(** What stands behind one cross-chain id, and so behind one command id at
    the destination, over a whole history. *)
From Verif Require Import Base Text StdModel RouterTypes RegistryTypes OperatorsModel MultisigTypes
  RouterModel GatewayModel NexusModel VerifierModel EncodingModel ProverModel SigningModel HandlersModel HandlersSpec WorkersSpec
  SystemModel SystemSpec JourneySpec.

(** Two watches show one past: what is final at a place of the chain for one
    of their nodes is not something else for another. *)
Definition agree (w w' : watch) : Prop :=
  match w, w' with
  | OnEvm c nodes, OnEvm c' nodes' =>
      forall rpc rpc' confs confs' q q' gw gw' t i e e', nodes rpc -> nodes' rpc' ->
        evm_seen c confs rpc q gw t i e -> evm_seen c' confs' rpc' q' gw' t i e' -> e = e'
  | OnSui nodes, OnSui nodes' =>
      forall rpc rpc' ids ids' bs bs' b b' gw gw' t i e e', nodes rpc -> nodes' rpc' ->
        sr_blocks rpc ids = Some bs -> sr_blocks rpc' ids' = Some bs' -> b ∈ bs -> b' ∈ bs' ->
        sui_seen b gw t i "gateway" "ContractCall" e -> sui_seen b' gw' t i "gateway" "ContractCall" e' ->
        se_call e = se_call e'
  | _, _ => False
  end.

(** [chain] is covered: messages from it come neither from nexus nor from a
    gateway whose verifier is not watched, and all the watches show one past. *)
Definition covered (watches : addr -> option (watch * list addr)) (dep : gmap addr deployed) (r : addr) (rc : rtconfig)
    (l : list call) (chain : string) : Prop :=
  (exists nc, dep !! rc_nexus rc = Some (DNexus nc)) /\
  (forall k ns n, k ∈ l -> sb_body (k_sub k) = BFromNexus ns -> n ∈ ns -> n_schain n <> chain) /\
  (forall k rs e, k ∈ l -> k_chain k !! r = Some (CRouter rs) -> get_chain_info rs chain = Ok e ->
     exists gc vc w trusted, dep !! ce_gateway e = Some (DGateway gc) /\ dep !! gc_verifier gc = Some (DVerifier vc) /\
       watches (gc_verifier gc) = Some (w, trusted)) /\
  (forall v v' vc vc' w w' trusted trusted', dep !! v = Some (DVerifier vc) -> dep !! v' = Some (DVerifier vc') ->
     watches v = Some (w, trusted) -> watches v' = Some (w', trusted') -> vc_chain vc = chain -> vc_chain vc' = chain ->
     agree w w').

(** Both texts spell the same bytes. *)
Definition same_bytes (x y : string) : Prop := exists n b, hex_bytes n x b /\ hex_bytes n y b.
(** One and the same call: only the spelling of the sender may differ. *)
Definition same_call (m m' : message) : Prop :=
  m_cc m = m_cc m' /\ lower (m_dchain m) = lower (m_dchain m') /\ m_daddr m = m_daddr m' /\ m_hash m = m_hash m' /\
  same_bytes (m_src m) (m_src m').

(** The hash keeps the ids apart that prover [p] was asked to prove. *)
Definition asked_apart (keccak : string -> string) (p : addr) (l : list call) : Prop :=
  forall k k' ids ids' i i', k ∈ l -> k' ∈ l -> k_to k = p -> k_to k' = p ->
    sb_body (k_sub k) = BProver (ConstructProof ids) -> sb_body (k_sub k') = BProver (ConstructProof ids') ->
    i ∈ ids -> i' ∈ ids' -> keccak (ccid_to_string i) = keccak (ccid_to_string i') -> ccid_to_string i = ccid_to_string i'.

(** The one way of writing the place [i] of the transaction [t] that a user
    would call its id. *)
Definition canonical_evm_id (id : string) : Prop :=
  exists t i, String.length t = 32%nat /\ i < U64 /\ id = ("0x" +:+ to_hex t) +:+ String ":" (dec i).
(** A node of a worker of some watched verifier of its chain shows [m]. *)
Definition seen_somewhere (b58 : string -> option string) (watches : addr -> option (watch * list addr)) (dep : gmap addr deployed)
    (m : message) : Prop :=
  exists v vc w trusted, dep !! v = Some (DVerifier vc) /\ watches v = Some (w, trusted) /\ vc_chain vc = cc_chain (m_cc m) /\
    was_sent b58 w vc m.
