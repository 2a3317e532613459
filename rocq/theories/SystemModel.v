(** All contracts on one chain. A transaction calls a contract; the messages
    of each response are executed depth first, in order, with the responding
    contract as their sender, inside the same transaction; an error anywhere
    undoes the whole transaction (CosmWasm's rules for [add_message] and
    [reply_on_success], the only ways these contracts send messages). Queries
    are answered by the contract asked, from its state at that moment.

    Contracts with other code, and accounts, are the addresses where no
    modelled contract is deployed. What they do is chosen by the transaction's
    environment, call by call, without restriction: the messages sent, the
    answers given. A contract that catches the error of a message is covered
    by one that does not send that message.

    Simplifications: the contracts are deployed at the start, whereas really
    calls to a contract fail before its instantiation (the histories here
    include those in which nobody calls a contract before some moment); bank
    transfers and messages to the nexus module always succeed; running out of
    gas is a bound, chosen by the transaction, on the depth of calls. *)
From Verif Require Import Base Text StdModel RouterTypes RegistryTypes OperatorsModel MultisigTypes
  RouterModel GatewayModel NexusModel RewardsModel RegistryModel VerifierModel MultisigModel EncodingModel ProverModel.

(** The storage of each contract. *)
Inductive contract :=
| CRouter (s : rtstate)
| CGateway (s : gwstate)
| CNexus (s : nxstate)
| CVerifier (s : vstate)
| CRewards (s : rstate)
| CRegistry (s : srstate)
| CMultisig (s : mstate)
| CProver (c : pconfig) (s : pstate).
Definition chain : Type := gmap addr contract.

(** Instantiation data. *)
Inductive deployed :=
| DRouter (c : rtconfig)
| DGateway (c : gwconfig)
| DNexus (c : nxconfig)
| DVerifier (c : vconfig)
| DRewards (governance : addr) (denom : string) (p : rparams) (height : N)
| DRegistry (governance : addr)
| DMultisig (governance rewards : addr) (grace : N)
| DProver (c : pconfig).
Definition deploy (d : deployed) : contract :=
  match d with
  | DRouter c => CRouter (router_init c)
  | DGateway c => CGateway (gateway_init c)
  | DNexus c => CNexus (nexus_init c)
  | DVerifier c => CVerifier (verifier_init c)
  | DRewards g d p h => CRewards (rewards_init g d p h)
  | DRegistry g => CRegistry (registry_init g)
  | DMultisig g r n => CMultisig (multisig_init g r n)
  | DProver c => CProver c prover_init
  end.

(** The [ExecuteMsg] types (msg.rs of each contract). Messages that are the
    same JSON value for several contracts are one constructor: [BRoute] is
    [RouteMessages] of router, gateway and nexus gateway. *)
Inductive body :=
| BRoute (ms : list message)
| BRegisterChain (name : string) (gateway : addr)
| BUpgradeGateway (name : string) (gateway : addr)
| BFreezeChain (name : string) (d : direction)
| BUnfreezeChain (name : string) (d : direction)
| BGatewayVerify (ms : list message)
| BFromNexus (ns : list nmessage)
| BVerify (ms : list message)
| BVerifyWorkerSet (message_id : string) (o : operators)
| BVote (id : N) (votes : list vote)
| BEndPoll (id : N)
| BRecord (event : string) (w : addr)
| BAddRewards (contract : addr)
| BDistribute (contract : addr) (limit : option N)
| BUpdateParams (p : rparams)
| BRegisterService (sv : service)
| BAuthorize (ws : list addr) (svc : string)
| BUnauthorize (ws : list addr) (svc : string)
| BDeclareChains (svc : string) (chains : list string)
| BBond (svc : string)
| BUnbond (svc : string)
| BClaim (svc : string)
| BStartSession (id msg chain : string)
| BSubmitSignature (id : N) (bytes : string)
| BRegisterWorkerSet (ws : worker_set)
| BRegisterPublicKey (t : key_type) (bytes : string)
| BSetCaller (auth : bool) (caller : addr)
| BProver (c : pcall).

(** A message for a contract; [sb_reply]: its sender wants a reply. *)
Record sub := { sb_to : addr; sb_body : body; sb_funds : list (string * N); sb_reply : bool }.
Definition plain (to : addr) (b : body) : sub := {| sb_to := to; sb_body := b; sb_funds := []; sb_reply := false |}.

(** Block height and time (nanoseconds); during the [n]-th call of the
    transaction, what the contract called does, if it is not a modelled one,
    and what such contracts answer to queries. *)
Record env := {
  en_height : N;
  en_time : N;
  en_other : nat -> option (list sub * option N);
  en_is_verified : nat -> addr -> list message -> option (list (ccid * bool));
  en_set_verified : nat -> addr -> operators -> option bool;
  en_messages : nat -> addr -> list ccid -> option (list message);
  en_active : nat -> addr -> string -> string -> option (list worker);
  en_key : nat -> addr -> addr -> key_type -> option public_key;
}.

Inductive syserror :=
| ENoGas | EParse | ENotAnAccount | EOther
| ERouter (e : rterror) | EGateway (e : gwerror) | ENexus (e : nxerror) | EVerifier (e : verror)
| ERewards (e : rerror) | ERegistry (e : srerror) | EMultisig (e : merror) | EProver (e : perror).

(** A call that was made, with the state it found. *)
Record call := { k_chain : chain; k_env : env; k_index : nat; k_sender : addr; k_sub : sub }.

(** The operation a message is for a contract of each kind: the [match] of
    each [execute]. *)
Definition router_op (a : addr) (b : body) : option rtop :=
  match b with
  | BRoute ms => Some (RouteMessages a ms)
  | BRegisterChain c g => Some (RegisterChain a c g)
  | BUpgradeGateway c g => Some (UpgradeGateway a c g)
  | BFreezeChain c d => Some (FreezeChain a c d)
  | BUnfreezeChain c d => Some (UnfreezeChain a c d)
  | _ => None
  end.
Definition gateway_op (answer : gwanswer) (a : addr) (b : body) : option gwop :=
  match b with
  | BRoute ms => Some (GwRouteMessages a ms answer)
  | BGatewayVerify ms => Some (GwVerifyMessages ms answer)
  | _ => None
  end.
Definition nexus_op (a : addr) (b : body) : option nxop :=
  match b with
  | BRoute ms => Some (NxRouteMessages a ms)
  | BFromNexus ns => Some (NxRouteMessagesFromNexus a ns)
  | _ => None
  end.
Definition verifier_op (h : N) (reg : registry_oracle) (a : addr) (b : body) : option vop :=
  match b with
  | BVerify ms => Some (VerifyMessages h reg ms)
  | BVerifyWorkerSet mid o => Some (VerifyWorkerSet h reg mid o)
  | BVote id vs => Some (Vote h a id vs)
  | BEndPoll id => Some (EndPoll h id)
  | _ => None
  end.
Definition rewards_op (h : N) (a : addr) (funds : list (string * N)) (b : body) : option rop :=
  match b with
  | BRecord ev w => Some (Record_ h a ev w)
  | BAddRewards c => Some (AddRewards c funds)
  | BDistribute c l => Some (Distribute h c l)
  | BUpdateParams p => Some (UpdateParams h a p)
  | _ => None
  end.
Definition registry_op (t : N) (a : addr) (funds : list (string * N)) (b : body) : option srop :=
  match b with
  | BRegisterService sv => Some (RegisterService a sv)
  | BAuthorize ws svc => Some (AuthorizeWorkers a ws svc)
  | BUnauthorize ws svc => Some (UnauthorizeWorkers a ws svc)
  | BDeclareChains svc cs => Some (DeclareChainSupport a svc cs)
  | BBond svc => Some (BondWorker a funds svc)
  | BUnbond svc => Some (UnbondWorker t a svc)
  | BClaim svc => Some (ClaimStake t a svc)
  | _ => None
  end.
Definition multisig_op (h : N) (a : addr) (b : body) : option mop :=
  match b with
  | BStartSession id msg chain => Some (StartSession a id msg chain)
  | BSubmitSignature id bytes => Some (SubmitSignature h a id bytes)
  | BRegisterWorkerSet ws => Some (RegisterWorkerSet a ws)
  | BRegisterPublicKey t bytes => Some (RegisterPublicKey a t bytes)
  | BSetCaller auth c => Some (SetCaller a auth c)
  | _ => None
  end.

(** The messages of each response. *)
Definition router_subs (o : rtout) : list sub :=
  match o with OutRouted sent _ => (fun x => plain x.1 (BRoute x.2)) <$> sent | _ => [] end.
Definition gateway_subs (o : gwout) : list sub :=
  ((fun x => plain x.1 (BVerify x.2)) <$> go_verify o) ++ ((fun x => plain x.1 (BRoute x.2)) <$> go_route o).
Definition nexus_subs (o : nxout) : list sub :=
  match o with NxToRouter sent => (fun x => plain x.1 (BRoute x.2)) <$> sent | NxToNexus _ => [] end.
Definition verifier_subs (o : vout) : list sub :=
  match o with OutEnded l _ => (fun x => plain x.1.1 (BRecord x.1.2 x.2)) <$> l | _ => [] end.
Definition multisig_subs (o : mout) : list sub :=
  match o with OutSigned x _ _ _ _ => [plain x.1.1 (BRecord x.1.2 x.2)] | _ => [] end.
Definition prover_subs (m : pmsg) : list sub :=
  match m with
  | MsgStart to id digest chain =>
      [{| sb_to := to; sb_body := BStartSession id digest chain; sb_funds := []; sb_reply := true |}]
  | MsgRegister to ws => [plain to (BRegisterWorkerSet ws)]
  end.
(** The response's data, as far as a reply reads it: multisig's contract.rs:131 *)
Definition multisig_data (o : mout) : option N :=
  match o with OutStarted id _ _ _ _ => Some id | _ => None end.

Section System.
  Context (keccak : string -> string) (wshash : worker_set -> string)
          (sec1 : string -> option string) (recover : string -> string -> string -> option N)
          (crypto : key_type -> string -> string -> string -> option bool).
  Notation wsid := (worker_set_id wshash).

  (** ** Queries *)
  Definition ask {A E} (r : res E A) : option A := match r with Ok a => Some a | _ => None end.
  Definition q_is_verified (e : env) (n : nat) (st : chain) (a : addr) (ms : list message)
    : option (list (ccid * bool)) :=
    match st !! a with
    | Some (CVerifier s) => ask (is_verified keccak s ms)
    | Some _ => None
    | None => en_is_verified e n a ms
    end.
  Definition q_set_verified (e : env) (n : nat) (st : chain) (a : addr) (o : operators) : option bool :=
    match st !! a with
    | Some (CVerifier s) => ask (is_worker_set_verified keccak s o)
    | Some _ => None
    | None => en_set_verified e n a o
    end.
  Definition q_messages (e : env) (n : nat) (st : chain) (a : addr) (ids : list ccid) : option (list message) :=
    match st !! a with
    | Some (CGateway s) => ask (GatewayModel.get_messages s ids)
    | Some _ => None
    | None => en_messages e n a ids
    end.
  Definition q_active (e : env) (n : nat) (st : chain) (a : addr) (svc ch : string) : option (list worker) :=
    match st !! a with
    | Some (CRegistry s) => ask (get_active_workers s svc ch)
    | Some _ => None
    | None => en_active e n a svc ch
    end.
  Definition q_key (e : env) (n : nat) (st : chain) (a w : addr) (t : key_type) : option public_key :=
    match st !! a with
    | Some (CMultisig s) => ask (get_public_key s w t)
    | Some _ => None
    | None => en_key e n a w t
    end.
  Definition prover_env (e : env) (n : nat) (st : chain) : penv :=
    {| pe_height := en_height e; pe_messages := q_messages e n st; pe_active := q_active e n st;
       pe_key := q_key e n st; pe_verified := q_set_verified e n st |}.

  (** ** One call: the new state of the contract called (none, for other
      contracts), its messages, its response data *)
  Definition receive (e : env) (n : nat) (st : chain) (sender : addr) (m : sub)
    : res syserror (option contract * list sub * option N) :=
    let a := sender in
    let b := sb_body m in
    match st !! sb_to m with
    | None => let? (subs, data) := of_option EOther (en_other e n) in Ok (None, subs, data)
    | Some (CRouter s) =>
        let? op := of_option EParse (router_op a b) in
        let? (s', o) := map_err ERouter (router_step s op) in
        Ok (Some (CRouter s'), router_subs o, None)
    | Some (CGateway s) =>
        let? op := of_option EParse (gateway_op (q_is_verified e n st (gc_verifier (gw_config s))) a b) in
        let? (s', o) := map_err EGateway (gateway_step s op) in
        Ok (Some (CGateway s'), gateway_subs o, None)
    | Some (CNexus s) =>
        let? op := of_option EParse (nexus_op a b) in
        let? (s', o) := map_err ENexus (nexus_step s op) in
        Ok (Some (CNexus s'), nexus_subs o, None)
    | Some (CVerifier s) =>
        let? op := of_option EParse (verifier_op (en_height e) (q_active e n st) a b) in
        let? (s', o) := map_err EVerifier (verifier_step keccak s op) in
        Ok (Some (CVerifier s'), verifier_subs o, None)
    | Some (CRewards s) =>
        let? op := of_option EParse (rewards_op (en_height e) a (sb_funds m) b) in
        let? (s', _) := map_err ERewards (rewards_step s op) in
        Ok (Some (CRewards s'), [], None)
    | Some (CRegistry s) =>
        let? op := of_option EParse (registry_op (en_time e) a (sb_funds m) b) in
        let? (s', _) := map_err ERegistry (registry_step s op) in
        Ok (Some (CRegistry s'), [], None)
    | Some (CMultisig s) =>
        let? op := of_option EParse (multisig_op (en_height e) a b) in
        let? (s', o) := map_err EMultisig (multisig_step wsid crypto s op) in
        Ok (Some (CMultisig s'), multisig_subs o, multisig_data o)
    | Some (CProver c s) =>
        let? pc := of_option EParse (match b with BProver pc => Some pc | _ => None end) in
        let? (s', o) := map_err EProver (prover_execute keccak wshash sec1 c (prover_env e n st) s pc) in
        Ok (Some (CProver c s'), prover_subs o, None)
    end.

  (** The reply to a message of [me]; only the prover asks for replies. *)
  Definition reply (st : chain) (me : addr) (data : option N) : res syserror chain :=
    match st !! me with
    | Some (CProver c s) =>
        let? (s', _) := map_err EProver (prover_reply s data) in Ok (<[me := CProver c s']> st)
    | _ => Ok st
    end.

  Definition settle (st : chain) (to : addr) (c : option contract) : chain :=
    match c with Some c => <[to := c]> st | None => st end.

  (** The messages of [me], one after the other. *)
  Fixpoint run_subs (call1 : chain -> list call -> sub -> res syserror (chain * list call * option N))
      (me : addr) (st : chain) (tr : list call) (subs : list sub) : res syserror (chain * list call) :=
    match subs with
    | [] => Ok (st, tr)
    | m :: rest =>
        let? (r, data) := call1 st tr m in
        let? st' := if sb_reply m then reply r.1 me data else Ok r.1 in
        run_subs call1 me st' r.2 rest
    end.

  (** A call with everything it leads to: the new state, the calls made so far
      (oldest first), the response data. *)
  Fixpoint exec_call (gas : nat) (e : env) (sender : addr) (st : chain) (tr : list call) (m : sub)
    : res syserror (chain * list call * option N) :=
    match gas with
    | O => Err ENoGas
    | S g =>
        let k := {| k_chain := st; k_env := e; k_index := length tr; k_sender := sender; k_sub := m |} in
        let? (r, data) := receive e (length tr) st sender m in
        let? (st', tr') := run_subs (exec_call g e (sb_to m)) (sb_to m) (settle st (sb_to m) r.1) (tr ++ [k]) r.2 in
        Ok (st', tr', data)
    end.

  (** A transaction: only accounts and other contracts send them. *)
  Record tx := { tx_gas : nat; tx_env : env; tx_sender : addr; tx_sub : sub }.
  Definition system_step (st : chain) (t : tx) : res syserror (chain * list call) :=
    let? _ := ensure (bool_decide (st !! tx_sender t = None)) ENotAnAccount in
    let? (r, _) := exec_call (tx_gas t) (tx_env t) (tx_sender t) st [] (tx_sub t) in
    Ok r.
  Definition system_init (d : gmap addr deployed) : chain := deploy <$> d.
End System.
