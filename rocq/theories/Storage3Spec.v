(** What it means that a store of texts holds the state of a contract, and
    which configurations and calls have values of their types. *)
From Verif Require Import Base Text StdModel RouterTypes RegistryTypes OperatorsModel MultisigTypes.
From Verif Require Import EncodingModel VerifierModel RewardsModel RegistryModel RouterModel GatewayModel NexusModel MultisigModel ProverModel.
From Verif Require Import StorageModel StorageSpec Storage2Model Storage2Spec EventsModel JsonModel WireModel WireSpec Storage3Model.

(** The texts [mt] are what serde writes for values that hold the state [s],
    and each is read back, under the name of its place, as that value. *)
Definition texts_of {V S} (L : layout) (enc : V -> jval) (dec : string -> jval -> option V)
    (holds : gmap string V -> S -> Prop) (mt : gmap string string) (s : S) : Prop :=
  exists m, holds m s /\ mt = (fun v => to_json (enc v)) <$> m /\
    forall k x v, place L k -> path k = Some x -> m !! x = Some v ->
      (j ← of_wire (to_json (enc v)); dec (name_of k) j) = Some v.

(** ** Values of their types *)

Definition proper_majority (t : threshold) : Prop := proper_threshold t /\ t_den t / 2 < t_num t.

(** Chain names in calls have fewer than 2^32 bytes. *)
Definition router_text_ok (op : rtop) : Prop :=
  router_call_ok op /\
  match op with
  | RegisterChain _ c _ | UpgradeGateway _ c _ | FreezeChain _ c _ | UnfreezeChain _ c _ => slen c < 2 ^ 32
  | RouteMessages _ _ => True
  end.
(** Services as their type says, coins below 2^128, times below 2^64. *)
Definition registry_text_ok (op : srop) : Prop :=
  registry_call_ok op /\
  match op with
  | RegisterService _ sv => proper_service sv
  | BondWorker _ funds _ => Forall (fun c => c.2 < 2 ^ 128) funds
  | UnbondWorker t _ _ => t < 2 ^ 64
  | _ => True
  end.
Definition multisig_text_ok (op : mop) : Prop :=
  multisig_call_ok op /\
  match op with
  | SubmitSignature h _ _ _ => h < 2 ^ 64
  | RegisterWorkerSet _ ws => proper_set ws
  | _ => True
  end.
Definition gateway_text_ok (op : gwop) : Prop :=
  gateway_call_ok op /\
  match op with GwRouteMessages _ msgs _ => Forall proper_message msgs | GwVerifyMessages _ _ => True end.
Definition rewards_text_ok (op : rop) : Prop :=
  rewards_call_ok op /\
  match op with
  | Record_ _ _ ev _ => ev <> ""
  | UpdateParams h _ p => h < 2 ^ 64 /\ proper_params p
  | _ => True
  end.
Definition verifier_text_ok (op : vop) : Prop :=
  verifier_call_ok op /\
  match op with
  | VerifyMessages _ _ ms => Forall proper_message ms /\ N.of_nat (length ms) < 2 ^ 64
  | VerifyWorkerSet _ _ _ o => proper_operators o
  | _ => True
  end.
Definition proper_vconfig (c : vconfig) : Prop :=
  vc_service c <> "" /\ vc_gateway c <> "" /\ proper_majority (vc_threshold c) /\ vc_expiry c < 2 ^ 64 /\
  vc_confirmations c < 2 ^ 64 /\ proper_chain (vc_chain c).
(** What the gateway and the multisig contract answer are values of their
    types. *)
Definition proper_env (env : penv) : Prop :=
  pe_height env < 2 ^ 64 /\
  (forall a ids ms, Forall proper_id ids -> pe_messages env a ids = Some ms -> Forall (fun m => proper_id (m_cc m)) ms) /\
  (forall a w t k, pe_key env a w t = Some k -> proper_key k).
Definition prover_text_ok (op : pop) : Prop :=
  prover_call_ok op /\ proper_env (po_env op) /\
  match po_call op with ConstructProof ids => Forall proper_id ids | _ => True end.
Definition proper_pconfig (c : pconfig) : Prop :=
  pc_chain_id c < 2 ^ 256 /\ proper_majority (pc_threshold c) /\ proper_chain (pc_chain c) /\ pc_diff c < 2 ^ 32.
