(** Model of the questions that can be put to the contracts (the [QueryMsg]
    types of contracts/*/src/msg.rs and the entry points [query] of each
    contract.rs) and of the texts in which they are asked and answered; and of
    all contracts on one chain, as in WireSystemModel, but with the questions
    they ask each other as the texts they really are.

    Simplifications: as for WireModel, JSON is read by one grammar. Addresses
    in questions are taken as they are ([addr_validate] is the chain's).
    A contract that fails or panics gives no answer, and the asker fails. *)
From Verif Require Import Base Text StdModel RouterTypes RegistryTypes OperatorsModel MultisigTypes
  RouterModel GatewayModel NexusModel RewardsModel RegistryModel VerifierModel MultisigModel EncodingModel ProverModel
  SystemModel EventsModel JsonModel WireModel StorageModel Storage2Model Storage3Model WireSystemModel.

(** ** Questions *)

(** connection-router/src/msg.rs:55-60; gateway/src/msg.rs:19-24;
    voting-verifier/src/msg.rs:58-69; multisig/src/msg.rs:53-67;
    multisig-prover/src/msg.rs:34-42; service-registry/src/msg.rs:53-70.
    The types of the nexus gateway (msg.rs:19) and of rewards (msg.rs:63) have
    no values. *)
Inductive question :=
| QChainInfo (chain : string)
| QMessages (ids : list ccid)
| QPoll (id : N) | QVerified (ms : list message) | QSetVerified (o : operators)
| QMultisig (id : N) | QSet (id : string) | QKey (worker : addr) (t : key_type)
| QProof (id : N) | QCurrentSet
| QActive (service chain : string) | QService (service : string) | QWorker (service : string) (worker : addr).

Definition e_question (q : question) : jval :=
  match q with
  | QChainInfo c => JObj [("get_chain_info", JStr c)]
  | QMessages ids => tagged "get_messages" [("message_ids", e_list e_ccid ids)]
  | QPoll id => tagged "get_poll" [("poll_id", e_uint id)]
  | QVerified ms => tagged "is_verified" [("messages", e_list e_message ms)]
  | QSetVerified o => tagged "is_worker_set_verified" [("new_operators", e_operators o)]
  | QMultisig id => tagged "get_multisig" [("session_id", e_uint id)]
  | QSet id => tagged "get_worker_set" [("worker_set_id", JStr id)]
  | QKey w t => tagged "get_public_key" [("worker_address", JStr w); ("key_type", e_key_type t)]
  | QProof id => tagged "get_proof" [("multisig_session_id", e_uint id)]
  | QCurrentSet => JStr "get_worker_set"
  | QActive s c => tagged "get_active_workers" [("service_name", JStr s); ("chain_name", JStr c)]
  | QService s => tagged "get_service" [("service_name", JStr s)]
  | QWorker s w => tagged "get_worker" [("service_name", JStr s); ("worker", JStr w)]
  end.

Definition d_rt_q (v : jval) : option question :=
  p ← variant v; if is p.1 "get_chain_info" then QChainInfo <$> d_chain p.2 else None.
Definition d_gw_q (v : jval) : option question :=
  p ← variant v;
  if is p.1 "get_messages" then
    struct ["message_ids"] (fun l => fld l "message_ids" (d_vec d_ccid) (fun i => Some (QMessages i))) p.2
  else None.
Definition d_vv_q (v : jval) : option question :=
  p ← variant v;
  if is p.1 "get_poll" then struct ["poll_id"] (fun l => fld l "poll_id" (d_uint U64) (fun i => Some (QPoll i))) p.2
  else if is p.1 "is_verified" then
    struct ["messages"] (fun l => fld l "messages" (d_vec d_message) (fun ms => Some (QVerified ms))) p.2
  else if is p.1 "is_worker_set_verified" then
    struct ["new_operators"] (fun l => fld l "new_operators" d_operators (fun o => Some (QSetVerified o))) p.2
  else None.
Definition d_ms_q (v : jval) : option question :=
  p ← variant v;
  if is p.1 "get_multisig" then
    struct ["session_id"] (fun l => fld l "session_id" (d_uint U64) (fun i => Some (QMultisig i))) p.2
  else if is p.1 "get_worker_set" then
    struct ["worker_set_id"] (fun l => fld l "worker_set_id" d_str (fun i => Some (QSet i))) p.2
  else if is p.1 "get_public_key" then
    struct ["worker_address"; "key_type"] (fun l =>
      fld l "worker_address" d_str (fun w => fld l "key_type" d_key_type (fun t => Some (QKey w t)))) p.2
  else None.
Definition d_pr_q (v : jval) : option question :=
  match v with
  | JStr s => if is s "get_worker_set" then Some QCurrentSet else None
  | _ =>
      p ← variant v;
      if is p.1 "get_proof" then
        struct ["multisig_session_id"] (fun l => fld l "multisig_session_id" (d_uint U64) (fun i => Some (QProof i))) p.2
      else None
  end.
Definition d_sr_q (v : jval) : option question :=
  p ← variant v;
  if is p.1 "get_active_workers" then
    struct ["service_name"; "chain_name"] (fun l =>
      fld l "service_name" d_str (fun s => fld l "chain_name" d_chain (fun c => Some (QActive s c)))) p.2
  else if is p.1 "get_service" then
    struct ["service_name"] (fun l => fld l "service_name" d_str (fun s => Some (QService s))) p.2
  else if is p.1 "get_worker" then
    struct ["service_name"; "worker"] (fun l =>
      fld l "service_name" d_str (fun s => fld l "worker" d_str (fun w => Some (QWorker s w)))) p.2
  else None.
(** the question a contract reads *)
Definition read_question (c : contract) (v : jval) : option question :=
  match c with
  | CRouter _ => d_rt_q v
  | CGateway _ => d_gw_q v
  | CVerifier _ => d_vv_q v
  | CMultisig _ => d_ms_q v
  | CProver _ _ => d_pr_q v
  | CRegistry _ => d_sr_q v
  | CNexus _ | CRewards _ => None
  end.

(** ** Answers *)

(** The [returns] attributes of the questions; multisig/src/msg.rs:76-81
    [Multisig]; multisig-prover/src/msg.rs:44-56 [ProofStatus],
    [GetProofResponse]. *)
Inductive answer :=
| AChainInfo (e : endpoint)
| AMessages (ms : list message)
| AVerified (l : list (ccid * bool)) | ASetVerified (b : bool)
| AMultisig (m : multisig) | ASet (w : worker_set) | AKey (k : public_key)
| AProof (p : proof_response)
| AWorkers (l : list worker) | AService (s : service) | AWorker (w : worker).

Definition e_pair {A B} (e1 : A -> jval) (e2 : B -> jval) (p : A * B) : jval := JArr [e1 p.1; e2 p.2].
Definition e_multisig (m : multisig) : jval :=
  JObj [("state", e_ms_state (mu_state m)); ("quorum", e_uint (mu_quorum m));
        ("signers", e_list (e_pair e_signer (e_opt e_signature)) (mu_signers m))].
Definition d_multisig : jval -> option multisig :=
  struct ["state"; "quorum"; "signers"] (fun l =>
    fld l "state" d_ms_state (fun s => fld l "quorum" (d_uint U256) (fun q =>
    fld l "signers" (d_vec (d_pair d_signer (d_opt d_signature))) (fun g =>
      Some {| mu_state := s; mu_quorum := q; mu_signers := g |})))).
Definition e_proof_status (s : proof_status) : jval :=
  match s with PfPending => JStr "pending" | PfCompleted d => tagged "completed" [("execute_data", e_hex d)] end.
Definition d_proof_status (v : jval) : option proof_status :=
  match v with
  | JStr s => if is s "pending" then Some PfPending else None
  | _ =>
      p ← variant v;
      if is p.1 "completed" then struct ["execute_data"] (fun l => fld l "execute_data" d_hex (fun d => Some (PfCompleted d))) p.2
      else None
  end.
Definition e_proof (p : proof_response) : jval :=
  JObj [("multisig_session_id", e_uint (pr_session p)); ("message_ids", e_list e_ccid (pr_ids p));
        ("data", e_data (pr_data p)); ("status", e_proof_status (pr_status p))].
Definition d_proof : jval -> option proof_response :=
  struct ["multisig_session_id"; "message_ids"; "data"; "status"] (fun l =>
    fld l "multisig_session_id" (d_uint U64) (fun i => fld l "message_ids" (d_vec d_ccid) (fun m =>
    fld l "data" d_data (fun d => fld l "status" d_proof_status (fun s =>
      Some {| pr_session := i; pr_ids := m; pr_data := d; pr_status := s |}))))).
Definition e_answer (a : answer) : jval :=
  match a with
  | AChainInfo e => e_endpoint e
  | AMessages ms => e_list e_message ms
  | AVerified l => e_list (e_pair e_ccid JBool) l
  | ASetVerified b => JBool b
  | AMultisig m => e_multisig m
  | ASet w => e_worker_set w
  | AKey k => e_public_key k
  | AProof p => e_proof p
  | AWorkers l => e_list e_worker l
  | AService s => e_service s
  | AWorker w => e_worker w
  end.
(** The answer that is read, of the type the question's asker expects:
    gateway/src/contract/query.rs:22-33; multisig-prover/src/execute.rs:75-100,
    103-111, 124-131, 237-246 and query.rs:27-34; voting-verifier/src/
    execute.rs:217-228. A poll is never answered, see [reply_of]. *)
Definition d_answer (q : question) (v : jval) : option answer :=
  match q with
  | QChainInfo _ => AChainInfo <$> d_endpoint v
  | QMessages _ => AMessages <$> d_vec d_message v
  | QPoll _ => None
  | QVerified _ => AVerified <$> d_vec (d_pair d_ccid d_bool) v
  | QSetVerified _ => ASetVerified <$> d_bool v
  | QMultisig _ => AMultisig <$> d_multisig v
  | QSet _ | QCurrentSet => ASet <$> d_worker_set v
  | QKey _ _ => AKey <$> d_public_key v
  | QProof _ => AProof <$> d_proof v
  | QActive _ _ => AWorkers <$> d_vec d_worker v
  | QService _ => AService <$> d_service v
  | QWorker _ _ => AWorker <$> d_worker v
  end.

(** ** Asking *)

(** A querier answers texts with texts. *)
Definition querier : Type := addr -> string -> option string.
(** [deps.querier.query]: the question is written, the answer read. *)
Definition asked (qr : querier) (a : addr) (q : question) : option answer :=
  t ← qr a (to_json (e_question q)); v ← of_wire t; d_answer q v.

Section Queries.
  Context (keccak : string -> string) (wshash : worker_set -> string)
          (sec1 : string -> option string) (recover : string -> string -> string -> option N).

  (** The entry points: connection-router/src/contract.rs [query]; gateway/
      src/contract.rs:44-56; voting-verifier/src/contract.rs:52-64, where
      [GetPoll] is [todo!()], a panic; multisig/src/contract.rs:300-315;
      multisig-prover/src/contract.rs:86-93; service-registry/src/
      contract.rs:330-345. [qr] answers what the contract asks in turn: only
      [GetProof] asks, and it asks for the session. *)
  Definition reply_of (qr : querier) (c : contract) (q : question) : option answer :=
    match c, q with
    | CRouter s, QChainInfo n => AChainInfo <$> ask (get_chain_info s n)
    | CGateway s, QMessages ids => AMessages <$> ask (GatewayModel.get_messages s ids)
    | CVerifier s, QVerified ms => AVerified <$> ask (is_verified keccak s ms)
    | CVerifier s, QSetVerified o => ASetVerified <$> ask (is_worker_set_verified keccak s o)
    | CMultisig s, QMultisig id => AMultisig <$> ask (get_multisig s id)
    | CMultisig s, QSet id => ASet <$> ask (get_worker_set s id)
    | CMultisig s, QKey w t => AKey <$> ask (get_public_key s w t)
    | CProver c s, QProof id =>
        let mu i := match asked qr (pc_multisig c) (QMultisig i) with Some (AMultisig m) => Some m | _ => None end in
        AProof <$> ask (get_proof keccak sec1 recover c s mu id)
    | CProver _ s, QCurrentSet => ASet <$> ask (query_worker_set s)
    | CRegistry s, QActive svc ch => AWorkers <$> ask (get_active_workers s svc ch)
    | CRegistry s, QService svc => AService <$> ask (get_service s svc)
    | CRegistry s, QWorker svc w => AWorker <$> ask (get_worker s svc w)
    | _, _ => None
    end.

  (** One level of questions on a chain; [oth] answers for the contracts that
      are not modelled, [deep] what a contract asks in turn. *)
  Definition level (deep : querier) (oth : querier) (st : chain) : querier := fun a t =>
    match st !! a with
    | Some c => v ← of_wire t; q ← read_question c v; r ← reply_of deep c q; Some (to_json (e_answer r))
    | None => oth a t
    end.
  (** Two levels are all: a prover asks for a session, and no modelled
      contract asks anything to answer that. *)
  Definition chain_querier (oth : querier) (st : chain) : querier :=
    level (level (fun _ _ => None) oth st) oth st.
End Queries.

(** The block, the texts that other contracts send and the texts with which
    they answer. *)
Record qenv := {
  qn_height : N;
  qn_time : N;
  qn_other : nat -> option (list wsub * option N);
  qn_answer : nat -> querier;
}.
Record qcall := { qk_chain : chain; qk_env : qenv; qk_index : nat; qk_sender : addr; qk_sub : wsub }.

Section QuerySystem.
  Context (keccak : string -> string) (wshash : worker_set -> string)
          (sec1 : string -> option string) (recover : string -> string -> string -> option N)
          (crypto : key_type -> string -> string -> string -> option bool).
  Notation wsid := (worker_set_id wshash).

  (** The questions of the contracts, as [q_is_verified] and the others of
      SystemModel, through texts. *)
  Definition tq_is_verified (qr : querier) (a : addr) (ms : list message) : option (list (ccid * bool)) :=
    match asked qr a (QVerified ms) with Some (AVerified l) => Some l | _ => None end.
  Definition tq_set_verified (qr : querier) (a : addr) (o : operators) : option bool :=
    match asked qr a (QSetVerified o) with Some (ASetVerified b) => Some b | _ => None end.
  Definition tq_messages (qr : querier) (a : addr) (ids : list ccid) : option (list message) :=
    match asked qr a (QMessages ids) with Some (AMessages ms) => Some ms | _ => None end.
  Definition tq_active (qr : querier) (a : addr) (svc ch : string) : option (list worker) :=
    match asked qr a (QActive svc ch) with Some (AWorkers l) => Some l | _ => None end.
  Definition tq_key (qr : querier) (a w : addr) (t : key_type) : option public_key :=
    match asked qr a (QKey w t) with Some (AKey k) => Some k | _ => None end.
  Definition t_prover_env (h : N) (qr : querier) : penv :=
    {| pe_height := h; pe_messages := tq_messages qr; pe_active := tq_active qr; pe_key := tq_key qr;
       pe_verified := tq_set_verified qr |}.

  (** One call: as [wreceive]. *)
  Definition qreceive (e : qenv) (n : nat) (st : chain) (sender : addr) (m : wsub)
    : res syserror (option contract * list wsub * option N) :=
    let a := sender in
    let t := wb_text m in
    let qr := chain_querier keccak sec1 recover (qn_answer e n) st in
    match st !! wb_to m with
    | None => let? (subs, data) := of_option EOther (qn_other e n) in Ok (None, subs, data)
    | Some (CRouter s) =>
        let? op := of_option EParse (rt_call a t) in
        let? (s', o) := map_err ERouter (router_step s op) in
        Ok (Some (CRouter s'), write <$> router_subs o, None)
    | Some (CGateway s) =>
        let? op := of_option EParse (gw_call a (tq_is_verified qr (gc_verifier (gw_config s))) t) in
        let? (s', o) := map_err EGateway (gateway_step s op) in
        Ok (Some (CGateway s'), write <$> gateway_subs o, None)
    | Some (CNexus s) =>
        let? op := of_option EParse (nx_call a t) in
        let? (s', o) := map_err ENexus (nexus_step s op) in
        Ok (Some (CNexus s'), write <$> nexus_subs o, None)
    | Some (CVerifier s) =>
        let? op := of_option EParse (vv_call (qn_height e) a (tq_active qr) t) in
        let? (s', o) := map_err EVerifier (verifier_step keccak s op) in
        Ok (Some (CVerifier s'), write <$> verifier_subs o, None)
    | Some (CRewards s) =>
        let? op := of_option EParse (rw_call (qn_height e) a (wb_funds m) t) in
        let? (s', _) := map_err ERewards (rewards_step s op) in
        Ok (Some (CRewards s'), [], None)
    | Some (CRegistry s) =>
        let? op := of_option EParse (sr_call (qn_time e) a (wb_funds m) t) in
        let? (s', _) := map_err ERegistry (registry_step s op) in
        Ok (Some (CRegistry s'), [], None)
    | Some (CMultisig s) =>
        let? op := of_option EParse (ms_call (qn_height e) a t) in
        let? (s', o) := map_err EMultisig (multisig_step wsid crypto s op) in
        Ok (Some (CMultisig s'), write <$> multisig_subs o, multisig_data o)
    | Some (CProver c s) =>
        let? pc := of_option EParse (pr_call t) in
        let? (s', o) := map_err EProver (prover_execute keccak wshash sec1 c (t_prover_env (qn_height e) qr) s pc) in
        Ok (Some (CProver c s'), write <$> prover_subs o, None)
    end.

  (** as [wrun_subs], [wexec_call], [wsystem_step] *)
  Fixpoint qrun_subs (call1 : chain -> list qcall -> wsub -> res syserror (chain * list qcall * option N))
      (me : addr) (st : chain) (tr : list qcall) (subs : list wsub) : res syserror (chain * list qcall) :=
    match subs with
    | [] => Ok (st, tr)
    | m :: rest =>
        let? (r, data) := call1 st tr m in
        let? st' := if wb_reply m then reply r.1 me data else Ok r.1 in
        qrun_subs call1 me st' r.2 rest
    end.
  Fixpoint qexec_call (gas : nat) (e : qenv) (sender : addr) (st : chain) (tr : list qcall) (m : wsub)
    : res syserror (chain * list qcall * option N) :=
    match gas with
    | O => Err ENoGas
    | S g =>
        let k := {| qk_chain := st; qk_env := e; qk_index := length tr; qk_sender := sender; qk_sub := m |} in
        let? (r, data) := qreceive e (length tr) st sender m in
        let? (st', tr') := qrun_subs (qexec_call g e (wb_to m)) (wb_to m) (settle st (wb_to m) r.1) (tr ++ [k]) r.2 in
        Ok (st', tr', data)
    end.
  Record qtx := { qx_gas : nat; qx_env : qenv; qx_sender : addr; qx_sub : wsub }.
  Definition qsystem_step (st : chain) (t : qtx) : res syserror (chain * list qcall) :=
    let? _ := ensure (bool_decide (st !! qx_sender t = None)) ENotAnAccount in
    let? (r, _) := qexec_call (qx_gas t) (qx_env t) (qx_sender t) st [] (qx_sub t) in
    Ok r.
  (** the state after a history of texts, and the calls made *)
  Definition qsysrun (d : gmap addr deployed) (txs : list qtx) : chain := run qsystem_step (system_init d) txs.
  Definition qsyslog (d : gmap addr deployed) (txs : list qtx) : list (qtx * list qcall) :=
    log qsystem_step (system_init d) txs.
End QuerySystem.
