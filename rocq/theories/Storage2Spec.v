(** What the gateway, the nexus gateway, the rewards contract, the voting
    verifier and the prover keep, entry by entry, and that a store of bytes
    holds exactly that. *)
From Verif Require Import Base Text StdModel RegistryTypes RouterTypes MultisigTypes OperatorsModel MultisigModel EncodingModel.
From Verif Require Import GatewayModel NexusModel RewardsModel VerifierModel ProverModel StorageModel StorageSpec Storage2Model.

(** The bytes [m] hold the value of every entry at the bytes of its key, and
    nothing else. *)
Definition holds_exactly {X V} (ok : X -> Prop) (at_ : X -> skey) (cell : X -> option V) (m : gmap string V) : Prop :=
  forall x v, m !! x = Some v <-> exists e, ok e /\ path (at_ e) = Some x /\ cell e = Some v.

Definition all_ok {X} (e : X) : Prop := True.

Definition gw_cell (s : gwstate) (e : gw_entry) : option gwval :=
  match e with
  | GwConfig => Some (GvConfig (gw_config s))
  | GwMessage c => GvMessage <$> gw_outgoing s !! c
  end.
Definition gateway_stored (m : gmap string gwval) (s : gwstate) : Prop := holds_exactly all_ok gw_place (gw_cell s) m.
(** Chain names in the ids of messages from the router have at most 65535
    bytes. *)
Definition gateway_call_ok (op : gwop) : Prop :=
  match op with
  | GwVerifyMessages _ _ => True
  | GwRouteMessages _ msgs _ => Forall (fun m => slen (cc_chain (m_cc m)) <= 65535) msgs
  end.

Definition nx_cell (s : nxstate) (e : nx_entry) : option nxval :=
  match e with
  | NxConfig => Some (NvConfig (nx_config s))
  | NxRouted c => if bool_decide (c ∈ nx_routed s) then Some NvRouted else None
  end.
Definition nexus_stored (m : gmap string nxval) (s : nxstate) : Prop := holds_exactly all_ok nx_place (nx_cell s) m.
Definition nexus_call_ok (op : nxop) : Prop :=
  match op with
  | NxRouteMessages _ msgs => Forall (fun m => slen (cc_chain (m_cc m)) <= 65535) msgs
  | NxRouteMessagesFromNexus _ _ => True
  end.

Definition rw_cell (s : rstate) (e : rw_entry) : option rwval :=
  match e with
  | RwParams => Some (WvParams (r_params s) (r_updated s))
  | RwConfig => Some (WvConfig (r_governance s) (r_denom s))
  | RwTally c n => WvTally <$> r_tallies s !! (c, n)
  | RwEvent ev c => WvEvent ev c <$> r_events s !! (ev, c)
  | RwPool c => WvPool c <$> r_pools s !! c
  | RwWatermark c => WvMark <$> r_marks s !! c
  end.
Definition rewards_stored (m : gmap string rwval) (s : rstate) : Prop := holds_exactly rw_ok rw_place (rw_cell s) m.
(** Event ids and the addresses of reporting contracts have at most 65535
    bytes. *)
Definition rewards_call_ok (op : rop) : Prop :=
  match op with
  | Record_ _ c ev _ => slen c <= 65535 /\ slen ev <= 65535
  | Distribute _ c _ => slen c <= 65535
  | AddRewards _ _ | UpdateParams _ _ _ => True
  end.

(** The counter is absent until the first poll. *)
Definition vv_cell (s : vstate) (e : vv_entry) : option vvval :=
  match e with
  | VvConfig => Some (VcConfig (v_config s))
  | VvPollId => if v_poll_id s =? 0 then None else Some (VcPollId (v_poll_id s))
  | VvPoll n => VcPoll <$> v_polls s !! n
  | VvMessage h => VcMessage <$> v_messages s !! h
  | VvSet h => VcSet <$> v_worker_sets s !! h
  end.
Definition verifier_stored (m : gmap string vvval) (s : vstate) : Prop := holds_exactly vv_ok vv_place (vv_cell s) m.
(** Poll ids are u64. *)
Definition verifier_call_ok (op : vop) : Prop :=
  match op with Vote _ _ id _ | EndPoll _ id => id < 2 ^ 64 | _ => True end.

Definition pr_cell (c : pconfig) (s : pstate) (e : pr_entry) : option prval :=
  match e with
  | PrConfig => Some (QvConfig c)
  | PrReply => QvReply <$> pv_reply s
  | PrCurrent => QvSet <$> pv_current s
  | PrNext => QvSet <$> pv_next s
  | PrBatch i => QvBatch <$> pv_batches s !! i
  | PrSession n => QvSession <$> pv_sessions s !! n
  end.
Definition prover_stored (c : pconfig) (m : gmap string prval) (s : pstate) : Prop :=
  holds_exactly pr_ok pr_place (pr_cell c s) m.
(** Session numbers in replies are u64. *)
Definition prover_call_ok (op : pop) : Prop :=
  match po_multisig op with Some (Some n) => n < 2 ^ 64 | _ => True end.
