(** What the theorems about the texts of calls are stated with: which values
    the types of the messages promise. *)
From Verif Require Import Base Text StdModel RouterTypes RegistryTypes OperatorsModel MultisigTypes EncodingModel
  VerifierModel RewardsModel RegistryModel RouterModel GatewayModel NexusModel MultisigModel ProverModel
  EventsModel JsonModel WireModel.

(** A chain name: not empty, no colon, no capital letter. *)
Definition proper_chain (c : string) : Prop :=
  c <> "" /\ contains ":" c = false /\ lower c = c.
Definition proper_id (c : ccid) : Prop := proper_chain (cc_chain c) /\ cc_id c <> "".
Definition proper_message (m : message) : Prop :=
  proper_id (m_cc m) /\ m_src m <> "" /\ proper_chain (m_dchain m) /\ m_daddr m <> "" /\
  String.length (m_hash m) = 32%nat.
Definition proper_operators (o : operators) : Prop :=
  o_threshold o < 2 ^ 256 /\ forall b w, (b, w) ∈ o_weights o -> w < 2 ^ 256.
(** a fraction above 0 and at most 1, of 64-bit numbers *)
Definition proper_threshold (t : threshold) : Prop :=
  0 < t_num t <= t_den t /\ t_den t < 2 ^ 64.
Definition proper_key (k : public_key) : Prop :=
  match pk_type k with
  | KEcdsa => String.length (pk_bytes k) = 33%nat \/ String.length (pk_bytes k) = 65%nat
  | KEd25519 => String.length (pk_bytes k) = 32%nat
  end.
Definition proper_set (w : worker_set) : Prop :=
  ws_threshold w < 2 ^ 256 /\ ws_created w < 2 ^ 64 /\
  forall a s, ws_signers w !! a = Some s -> sg_weight s < 2 ^ 256 /\ proper_key (sg_key s).
(** Params: zero rewards are not excluded, see the refutation. *)
Definition proper_params (p : rparams) : Prop :=
  0 < rp_duration p < 2 ^ 64 /\ rp_rewards p < 2 ^ 128 /\ proper_threshold (rp_threshold p).
Definition proper_nmessage (n : nmessage) : Prop :=
  proper_chain (n_schain n) /\ n_saddr n <> "" /\ proper_chain (n_dchain n) /\ n_daddr n <> "" /\
  String.length (n_hash n) = 32%nat /\ n_txid n <> "" /\ n_index n < 2 ^ 64.
Definition proper_service (s : service) : Prop :=
  sv_min_workers s < 2 ^ 16 /\ (forall n, sv_max_workers s = Some n -> n < 2 ^ 16) /\
  sv_min_bond s < 2 ^ 128 /\ sv_unbonding_days s < 2 ^ 16.

Definition proper_vv (m : vv_msg) : Prop :=
  match m with
  | VvEndPoll id | VvVote id _ => id < 2 ^ 64
  | VvVerifyMessages ms => Forall proper_message ms
  | VvVerifyWorkerSet i o => i <> "" /\ proper_operators o
  end.
Definition proper_ms (m : ms_msg) : Prop :=
  match m with
  | MsStart _ _ c _ => proper_chain c
  | MsSubmit id _ => id < 2 ^ 64
  | MsRegisterSet w => proper_set w
  | MsRegisterKey k => proper_key k
  | MsAuthorize _ | MsUnauthorize _ => True
  end.
Definition proper_rw (m : rw_msg) : Prop :=
  match m with
  | RwRecord ev _ => ev <> ""
  | RwDistribute _ n => forall k, n = Some k -> k < 2 ^ 64
  | RwAdd _ => True
  | RwUpdate p => proper_params p
  end.
Definition proper_gw (m : gw_msg) : Prop :=
  match m with GwmVerify ms | GwmRoute ms => Forall proper_message ms end.
Definition proper_nx (m : nx_msg) : Prop :=
  match m with NxmRoute ms => Forall proper_message ms | NxmFromNexus ns => Forall proper_nmessage ns end.
Definition proper_rt (m : rt_msg) : Prop :=
  match m with
  | RtmRegister c _ | RtmUpgrade c _ | RtmFreeze c _ | RtmUnfreeze c _ => proper_chain c
  | RtmRoute ms => Forall proper_message ms
  end.
Definition proper_pr (m : pcall) : Prop :=
  match m with ConstructProof ids => Forall proper_id ids | _ => True end.
Definition proper_sr (m : sr_msg) : Prop :=
  match m with
  | SrmRegister s => proper_service s
  | SrmDeclare _ cs => Forall proper_chain cs
  | _ => True
  end.

(** A type of messages is written and read faithfully: what is proper is read
    back from its text, and whatever text is read, what it is read as is
    proper. *)
Definition text_ok {A} (e : A -> jval) (d : jval -> option A) (proper : A -> Prop) : Prop :=
  (forall m, proper m -> (v ← of_wire (to_json (e m)); d v) = Some m) /\
  (forall s m, (v ← of_wire s; d v) = Some m -> proper m).
