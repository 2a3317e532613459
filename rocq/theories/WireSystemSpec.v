(** What the theorems about the system of texts are stated with. *)
From Verif Require Import Base Text StdModel RouterTypes RegistryTypes OperatorsModel MultisigTypes
  RouterModel GatewayModel NexusModel RewardsModel RegistryModel VerifierModel MultisigModel EncodingModel ProverModel
  SystemModel EventsModel JsonModel WireModel WireSpec WireSystemModel.

(** The message a text is, whoever gets it: the message types of all
    contracts, one after the other. *)
Definition orelse {A} (x y : option A) : option A := match x with Some a => Some a | None => y end.
Definition b_rt (m : rt_msg) : body :=
  match m with
  | RtmRegister c g => BRegisterChain c g
  | RtmUpgrade c g => BUpgradeGateway c g
  | RtmFreeze c d => BFreezeChain c d
  | RtmUnfreeze c d => BUnfreezeChain c d
  | RtmRoute ms => BRoute ms
  end.
Definition b_gw (m : gw_msg) : body := match m with GwmVerify ms => BGatewayVerify ms | GwmRoute ms => BRoute ms end.
Definition b_nx (m : nx_msg) : body := match m with NxmRoute ms => BRoute ms | NxmFromNexus ns => BFromNexus ns end.
Definition b_vv (m : vv_msg) : body :=
  match m with
  | VvEndPoll id => BEndPoll id
  | VvVote id vs => BVote id vs
  | VvVerifyMessages ms => BVerify ms
  | VvVerifyWorkerSet i o => BVerifyWorkerSet i o
  end.
Definition b_rw (m : rw_msg) : body :=
  match m with
  | RwRecord ev w => BRecord ev w
  | RwDistribute c n => BDistribute c n
  | RwAdd c => BAddRewards c
  | RwUpdate p => BUpdateParams p
  end.
Definition b_sr (m : sr_msg) : body :=
  match m with
  | SrmRegister sv => BRegisterService sv
  | SrmAuthorize ws s => BAuthorize ws s
  | SrmUnauthorize ws s => BUnauthorize ws s
  | SrmDeclare s cs => BDeclareChains s cs
  | SrmBond s => BBond s
  | SrmUnbond s => BUnbond s
  | SrmClaim s => BClaim s
  end.
Definition b_ms (m : ms_msg) : body :=
  match m with
  | MsStart w d c _ => BStartSession w d c
  | MsSubmit id sg => BSubmitSignature id sg
  | MsRegisterSet w => BRegisterWorkerSet w
  | MsRegisterKey k => BRegisterPublicKey (pk_type k) (pk_bytes k)
  | MsAuthorize a => BSetCaller true a
  | MsUnauthorize a => BSetCaller false a
  end.
Definition d_body (v : jval) : option body :=
  orelse (b_rt <$> d_rt v) (orelse (b_gw <$> d_gw v) (orelse (b_nx <$> d_nx v) (orelse (b_vv <$> d_vv v)
    (orelse (b_rw <$> d_rw v) (orelse (b_sr <$> d_sr v) (orelse (b_ms <$> d_ms v) (BProver <$> d_pr v))))))).
Definition understood (text : string) : option body := v ← of_wire text; d_body v.

Definition proper_body (b : body) : Prop :=
  match b with
  | BRoute ms | BGatewayVerify ms | BVerify ms => Forall proper_message ms
  | BFromNexus ns => Forall proper_nmessage ns
  | BRegisterChain c _ | BUpgradeGateway c _ | BFreezeChain c _ | BUnfreezeChain c _ => proper_chain c
  | BVerifyWorkerSet i o => i <> "" /\ proper_operators o
  | BVote id _ | BEndPoll id | BSubmitSignature id _ => id < 2 ^ 64
  | BRecord ev _ => ev <> ""
  | BDistribute _ n => forall k, n = Some k -> k < 2 ^ 64
  | BUpdateParams p => proper_params p
  | BRegisterService s => proper_service s
  | BDeclareChains _ cs => Forall proper_chain cs
  | BStartSession _ _ c => proper_chain c
  | BRegisterWorkerSet w => proper_set w
  | BRegisterPublicKey t k => proper_key {| pk_type := t; pk_bytes := k |}
  | BProver c => proper_pr c
  | _ => True
  end.

(** The same history with messages for texts. A text that no contract
    understands is given to its recipient as a message that it does not have. *)
Definition refused (d : gmap addr deployed) (to : addr) : body :=
  match d !! to with Some (DProver _) => BEndPoll 0 | _ => BProver UpdateWorkerSet end.
Definition read_sub (d : gmap addr deployed) (m : wsub) : sub :=
  {| sb_to := wb_to m; sb_body := default (refused d (wb_to m)) (understood (wb_text m));
     sb_funds := wb_funds m; sb_reply := wb_reply m |}.
Definition read_env (d : gmap addr deployed) (w : wenv) : env :=
  let e := we_env w in
  {| en_height := en_height e; en_time := en_time e;
     en_other := fun n => match we_other w n with Some p => Some (read_sub d <$> p.1, p.2) | None => None end;
     en_is_verified := en_is_verified e; en_set_verified := en_set_verified e; en_messages := en_messages e;
     en_active := en_active e; en_key := en_key e |}.
Definition read_call (d : gmap addr deployed) (k : wcall) : call :=
  {| k_chain := wk_chain k; k_env := read_env d (wk_env k); k_index := wk_index k; k_sender := wk_sender k;
     k_sub := read_sub d (wk_sub k) |}.
Definition read_tx (d : gmap addr deployed) (t : wtx) : tx :=
  {| tx_gas := wx_gas t; tx_env := read_env d (wx_env t); tx_sender := wx_sender t; tx_sub := read_sub d (wx_sub t) |}.

(** The configured chain names are chain names; heights are 64-bit numbers
    and the keys that other contracts answer with are keys, as their types
    promise. *)
Definition proper_deployment (d : gmap addr deployed) : Prop :=
  forall a c, d !! a = Some (DProver c) -> proper_chain (pc_chain c).
Definition proper_env (e : env) : Prop :=
  en_height e < 2 ^ 64 /\
  forall n a w t k, en_key e n a w t = Some k -> proper_key k.
Definition proper_tx (t : wtx) : Prop := proper_env (we_env (wx_env t)).
(** a transaction with the calls it made *)
Definition read_entry (d : gmap addr deployed) (r : wtx * list wcall) : tx * list call :=
  (read_tx d r.1, read_call d <$> r.2).
