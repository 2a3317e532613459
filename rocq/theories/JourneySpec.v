(** The whole way of a message: workers watching a source chain, all contracts
    on one chain, and the proof for the destination chain. *)
From Verif Require Import Base Text StdModel StdSpec RouterTypes RegistryTypes OperatorsModel MultisigTypes
  RouterModel RouterSpec GatewayModel NexusModel RewardsModel RegistryModel VerifierModel VerifierSpec MultisigModel EncodingModel
  ProverModel SigningModel EventsModel HandlersModel HandlersSpec WorkersSpec SystemModel SystemSpec.

(** How a source chain is watched: as an EVM chain known by this name or as
    Sui, through nodes of which this is known. *)
Inductive watch :=
| OnEvm (c : evm_chain) (nodes : evm_rpc -> Prop)
| OnSui (nodes : sui_rpc -> Prop).

(** The node shows the call of message [m] at [gateway], in a checkpoint. *)
Definition sui_shows (b58 : string -> option string) (rpc : sui_rpc) (gateway : string) (m : message) : Prop :=
  exists x n t i gw s dc ids bs b e,
    cc_id (m_cc m) = x +:+ String ":" n /\ b58 x = Some t /\ parse_u64 n = Some i /\
    hex_bytes 32 gateway gw /\ hex_bytes 32 (m_src m) s /\ lower dc = lower (m_dchain m) /\
    sr_blocks rpc ids = Some bs /\ b ∈ bs /\ sui_seen b gw t i "gateway" "ContractCall" e /\
    se_call e = Some (s, dc, m_daddr m, m_hash m).
(** The node shows, at the place [id], [gateway] handing over to operators [o]. *)
Definition sui_shows_transfer (b58 : string -> option string) (rpc : sui_rpc) (gateway id : string) (o : operators) : Prop :=
  exists x n t i gw b e d,
    id = x +:+ String ":" n /\ b58 x = Some t /\ parse_u64 n = Some i /\ hex_bytes 32 gateway gw /\
    sr_block rpc t = Some b /\ sui_seen b gw t i "validators" "OperatorshipTransferred" e /\
    se_transfer e = Some d /\ sui_operators (o_weights o) (o_threshold o) = Some d.

(** A node of a worker shows message [m] sent from the verifier's gateway. *)
Definition was_sent (b58 : string -> option string) (w : watch) (vc : vconfig) (m : message) : Prop :=
  match w with
  | OnEvm c nodes => exists rpc, nodes rpc /\ evm_shows c (vc_confirmations vc) rpc (vc_gateway vc) m
  | OnSui nodes => exists rpc, nodes rpc /\ sui_shows b58 rpc (vc_gateway vc) m
  end.
(** The same for the gateway's change to operators [o]. *)
Definition took_over (b58 : string -> option string) (w : watch) (vc : vconfig) (id : string) (o : operators) : Prop :=
  match w with
  | OnEvm c nodes => exists rpc, nodes rpc /\ evm_shows_transfer c (vc_confirmations vc) rpc (vc_gateway vc) id o
  | OnSui nodes => exists rpc, nodes rpc /\ sui_shows_transfer b58 rpc (vc_gateway vc) id o
  end.

(** Seeing event [ev] of the verifier at [v], ampd run by [a] submits this
    ballot: as one of its handlers does. *)
Definition answers (acc : string -> bool) (b58 : string -> option string) (w : watch) (v a : addr)
    (id : N) (ballot : list vote) (ev : event) : Prop :=
  let tx := {| wt_sender := a; wt_contract := v; wt_body := BodyVote id ballot |} in
  exists height open,
  match w with
  | OnEvm c nodes => exists rpc, nodes rpc /\
      let cfg := {| hc_worker := a; hc_contract := v; hc_chain := c |} in
      (evm_msg_handler acc cfg height open rpc ev = Ok (Some tx) \/ evm_ws_handler acc cfg height open rpc ev = Ok (Some tx))
  | OnSui nodes => exists rpc c, nodes rpc /\
      let cfg := {| hc_worker := a; hc_contract := v; hc_chain := c |} in
      (sui_msg_handler acc b58 cfg height open rpc ev = Ok (Some tx) \/ sui_ws_handler acc b58 cfg height open rpc ev = Ok (Some tx))
  end.

Section Journey.
  Context (keccak : string -> string) (acc : string -> bool) (json : string -> option jval)
          (b58 : string -> option string).

  (** Call [k] of the verifier at [v] emitted the event [ev] of a new poll. *)
  Definition announces (v : addr) (k : call) (ev : event) : Prop :=
    k_to k = v /\ exists vs vs' op out, k_chain k !! v = Some (CVerifier vs) /\
      verifier_op (en_height (k_env k)) (q_active (k_env k) (k_index k) (k_chain k)) (k_sender k) (sb_body (k_sub k)) = Some op /\
      verifier_step keccak vs op = Ok (vs', out) /\ emitted json v (op, out) = Some ev.

  (** Worker [a] runs ampd: each vote of theirs answers an earlier event. *)
  Definition runs_ampd (w : watch) (v : addr) (l : list call) (a : addr) : Prop :=
    forall pre k post id ballot, l = pre ++ k :: post -> k_to k = v -> k_sender k = a -> sb_body (k_sub k) = BVote id ballot ->
      exists k' ev, k' ∈ pre /\ announces v k' ev /\ answers acc b58 w v a id ballot ev.

  (** The chain of verifier [v] is watched by trusted workers: they run ampd,
      and whenever a poll was opened, the others among the workers active then
      were too few to decide it. *)
  Definition watched (w : watch) (trusted : list addr) (v : addr) (vc : vconfig) (l : list call) : Prop :=
    valid_vconfig vc /\ json (vc_gateway vc) = None /\ Forall (runs_ampd w v l) trusted /\
    forall k ev workers, k ∈ l -> announces v k ev -> named vc k workers ->
      N.of_nat (length (filter (fun x => w_addr x ∉ trusted) workers)) * t_den (vc_threshold vc)
        < N.of_nat (length workers) * t_num (vc_threshold vc).

  (** The verifiers that [watches] speaks of are so watched. *)
  Definition well_watched (watches : addr -> option (watch * list addr)) (dep : gmap addr deployed) (l : list call) : Prop :=
    forall v vc w trusted, dep !! v = Some (DVerifier vc) -> watches v = Some (w, trusted) -> watched w trusted v vc l.

  (** Message [m] came to the gateway at [d] through the router at [r], from
      the nexus module, or from the gateway registered for its source chain,
      not frozen; in the latter case, if that chain is watched, it was sent
      there. *)
  Definition came (watches : addr -> option (watch * list addr)) (dep : gmap addr deployed)
      (r : addr) (rc : rtconfig) (d : addr) (l : list call) (m : message) : Prop :=
    exists pre k post rs, l = pre ++ k :: post /\ routes r m d rs k /\
      (k_sender k = rc_nexus rc \/
       exists e, get_chain_info rs (cc_chain (m_cc m)) = Ok e /\ ce_gateway e = k_sender k /\ incoming_frozen e = false) /\
      (forall gc vc w trusted, dep !! k_sender k = Some (DGateway gc) -> dep !! gc_verifier gc = Some (DVerifier vc) ->
         watches (gc_verifier gc) = Some (w, trusted) ->
         cc_chain (m_cc m) = vc_chain vc /\ was_sent b58 w vc m) /\
      (forall nc, dep !! k_sender k = Some (DNexus nc) ->
         exists p ns n, p ∈ pre /\ k_to p = k_sender k /\ k_sender p = nc_nexus nc /\ sb_body (k_sub p) = BFromNexus ns /\
           n ∈ ns /\ m = from_nexus n).
End Journey.
