(** All contracts on one chain, as in SystemModel, but with calls as the texts
    they really are: accounts, other contracts and the contracts themselves
    send texts, and each contract reads the text it gets into its own type of
    messages before it runs (the entry points [execute] of each contract.rs).
    Simplification: the questions the contracts ask each other are not texts
    here, see [wenv]. *)
From Verif Require Import Base Text StdModel RouterTypes RegistryTypes OperatorsModel MultisigTypes
  RouterModel GatewayModel NexusModel RewardsModel RegistryModel VerifierModel MultisigModel EncodingModel ProverModel
  SystemModel EventsModel HandlersModel JsonModel WireModel.

(** A message as its sender writes it. The router, the gateways and the nexus
    gateway write [RouteMessages] of the router's type (connection-router/src/
    contract/execute.rs:180-190, gateway/src/contract/execute.rs:119-127,
    nexus-gateway/src/contract/execute.rs:32-37), whoever is to read it; the
    gateway writes [VerifyMessages] of the aggregate verifier's type
    (gateway/src/contract/execute.rs:64-72); verifier and multisig write
    [RecordParticipation] (voting-verifier/src/execute.rs:191-201,
    multisig/src/contract.rs:258-268), the prover [StartSigningSession] and
    [RegisterWorkerSet] (multisig-prover/src/execute.rs:61-68, 195-202,
    217-224, 253-257). The others are written by accounts. *)
Definition e_body (b : body) : jval :=
  match b with
  | BRoute ms => e_rt (RtmRoute ms)
  | BRegisterChain c g => e_rt (RtmRegister c g)
  | BUpgradeGateway c g => e_rt (RtmUpgrade c g)
  | BFreezeChain c d => e_rt (RtmFreeze c d)
  | BUnfreezeChain c d => e_rt (RtmUnfreeze c d)
  | BGatewayVerify ms => e_gw (GwmVerify ms)
  | BFromNexus ns => e_nx (NxmFromNexus ns)
  | BVerify ms => e_ag ms
  | BVerifyWorkerSet i o => e_vv (VvVerifyWorkerSet i o)
  | BVote id vs => e_vv (VvVote id vs)
  | BEndPoll id => e_vv (VvEndPoll id)
  | BRecord ev w => e_rw (RwRecord ev w)
  | BAddRewards c => e_rw (RwAdd c)
  | BDistribute c n => e_rw (RwDistribute c n)
  | BUpdateParams p => e_rw (RwUpdate p)
  | BRegisterService sv => e_sr (SrmRegister sv)
  | BAuthorize ws s => e_sr (SrmAuthorize ws s)
  | BUnauthorize ws s => e_sr (SrmUnauthorize ws s)
  | BDeclareChains s cs => e_sr (SrmDeclare s cs)
  | BBond s => e_sr (SrmBond s)
  | BUnbond s => e_sr (SrmUnbond s)
  | BClaim s => e_sr (SrmClaim s)
  | BStartSession id msg c => e_ms (MsStart id msg c None)
  | BSubmitSignature id sg => e_ms (MsSubmit id sg)
  | BRegisterWorkerSet w => e_ms (MsRegisterSet w)
  | BRegisterPublicKey t k => e_ms (MsRegisterKey {| pk_type := t; pk_bytes := k |})
  | BSetCaller true a => e_ms (MsAuthorize a)
  | BSetCaller false a => e_ms (MsUnauthorize a)
  | BProver c => e_pr c
  end.

(** [WasmMsg::Execute]: address, text, funds; whether a reply is wanted *)
Record wsub := { wb_to : addr; wb_text : string; wb_funds : list (string * N); wb_reply : bool }.
Definition write (m : sub) : wsub :=
  {| wb_to := sb_to m; wb_text := to_json (e_body (sb_body m)); wb_funds := sb_funds m; wb_reply := sb_reply m |}.

(** The block and the answers of other contracts, as in SystemModel ([en_other]
    is not used), and the texts other contracts send. *)
Record wenv := { we_env : env; we_other : nat -> option (list wsub * option N) }.
Record wcall := { wk_chain : chain; wk_env : wenv; wk_index : nat; wk_sender : addr; wk_sub : wsub }.

Section WireSystem.
  Context (keccak : string -> string) (wshash : worker_set -> string)
          (sec1 : string -> option string)
          (crypto : key_type -> string -> string -> string -> option bool).
  Notation wsid := (worker_set_id wshash).

  (** One call: contract.rs [execute] of each contract, as [receive]. *)
  Definition wreceive (w : wenv) (n : nat) (st : chain) (sender : addr) (m : wsub)
    : res syserror (option contract * list wsub * option N) :=
    let a := sender in
    let e := we_env w in
    let t := wb_text m in
    match st !! wb_to m with
    | None => let? (subs, data) := of_option EOther (we_other w n) in Ok (None, subs, data)
    | Some (CRouter s) =>
        let? op := of_option EParse (rt_call a t) in
        let? (s', o) := map_err ERouter (router_step s op) in
        Ok (Some (CRouter s'), write <$> router_subs o, None)
    | Some (CGateway s) =>
        let? op := of_option EParse (gw_call a (q_is_verified keccak e n st (gc_verifier (gw_config s))) t) in
        let? (s', o) := map_err EGateway (gateway_step s op) in
        Ok (Some (CGateway s'), write <$> gateway_subs o, None)
    | Some (CNexus s) =>
        let? op := of_option EParse (nx_call a t) in
        let? (s', o) := map_err ENexus (nexus_step s op) in
        Ok (Some (CNexus s'), write <$> nexus_subs o, None)
    | Some (CVerifier s) =>
        let? op := of_option EParse (vv_call (en_height e) a (q_active e n st) t) in
        let? (s', o) := map_err EVerifier (verifier_step keccak s op) in
        Ok (Some (CVerifier s'), write <$> verifier_subs o, None)
    | Some (CRewards s) =>
        let? op := of_option EParse (rw_call (en_height e) a (wb_funds m) t) in
        let? (s', _) := map_err ERewards (rewards_step s op) in
        Ok (Some (CRewards s'), [], None)
    | Some (CRegistry s) =>
        let? op := of_option EParse (sr_call (en_time e) a (wb_funds m) t) in
        let? (s', _) := map_err ERegistry (registry_step s op) in
        Ok (Some (CRegistry s'), [], None)
    | Some (CMultisig s) =>
        let? op := of_option EParse (ms_call (en_height e) a t) in
        let? (s', o) := map_err EMultisig (multisig_step wsid crypto s op) in
        Ok (Some (CMultisig s'), write <$> multisig_subs o, multisig_data o)
    | Some (CProver c s) =>
        let? pc := of_option EParse (pr_call t) in
        let? (s', o) := map_err EProver (prover_execute keccak wshash sec1 c (prover_env keccak e n st) s pc) in
        Ok (Some (CProver c s'), write <$> prover_subs o, None)
    end.

  (** as [run_subs], [exec_call], [system_step] *)
  Fixpoint wrun_subs (call1 : chain -> list wcall -> wsub -> res syserror (chain * list wcall * option N))
      (me : addr) (st : chain) (tr : list wcall) (subs : list wsub) : res syserror (chain * list wcall) :=
    match subs with
    | [] => Ok (st, tr)
    | m :: rest =>
        let? (r, data) := call1 st tr m in
        let? st' := if wb_reply m then reply r.1 me data else Ok r.1 in
        wrun_subs call1 me st' r.2 rest
    end.
  Fixpoint wexec_call (gas : nat) (e : wenv) (sender : addr) (st : chain) (tr : list wcall) (m : wsub)
    : res syserror (chain * list wcall * option N) :=
    match gas with
    | O => Err ENoGas
    | S g =>
        let k := {| wk_chain := st; wk_env := e; wk_index := length tr; wk_sender := sender; wk_sub := m |} in
        let? (r, data) := wreceive e (length tr) st sender m in
        let? (st', tr') := wrun_subs (wexec_call g e (wb_to m)) (wb_to m) (settle st (wb_to m) r.1) (tr ++ [k]) r.2 in
        Ok (st', tr', data)
    end.
  Record wtx := { wx_gas : nat; wx_env : wenv; wx_sender : addr; wx_sub : wsub }.
  Definition wsystem_step (st : chain) (t : wtx) : res syserror (chain * list wcall) :=
    let? _ := ensure (bool_decide (st !! wx_sender t = None)) ENotAnAccount in
    let? (r, _) := wexec_call (wx_gas t) (wx_env t) (wx_sender t) st [] (wx_sub t) in
    Ok r.
  (** the state after a history of texts, and the calls made *)
  Definition wsysrun (d : gmap addr deployed) (txs : list wtx) : chain := run wsystem_step (system_init d) txs.
  Definition wsyslog (d : gmap addr deployed) (txs : list wtx) : list (wtx * list wcall) :=
    log wsystem_step (system_init d) txs.
End WireSystem.

(** What a worker's daemon writes: ampd/src/handlers/evm_verify_msg.rs:128-142,
    evm_verify_worker_set.rs:121-138, sui_verify_msg.rs:79-93,
    sui_verify_worker_set.rs:84-101, multisig.rs:97-119
    ([serde_json::to_vec] of the contract's message type). *)
Definition tx_text (b : tx_body) : string :=
  match b with
  | BodyVote poll votes => to_json (e_vv (VvVote poll votes))
  | BodySignature session sig => to_json (e_ms (MsSubmit session sig))
  end.
