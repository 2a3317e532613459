(** Model of one run of ampd as a whole: ampd/src/handlers/config.rs (which
    configurations are accepted), the wiring and the result of ampd/src/lib.rs,
    ampd/src/commands/daemon.rs, and the other commands (ampd/src/commands). It
    puts together the subscription (SubscriptionModel), the handlers
    (HandlersModel) and the queue of transactions (QueueModel). *)
From Verif Require Import Base Text StdModel RouterTypes MultisigTypes EventsModel HandlersModel SubscriptionModel QueueModel
  SystemModel.

(** ** handlers/config.rs *)

(** config.rs:17-40 [Config], the URLs left out: the nodes' answers are in
    [call_env]. [name]: the chain's name as written, read by evm/mod.rs:12-17. *)
Inductive handler_config :=
| EvmMsgVerifier (contract : addr) (name : string)
| EvmWorkerSetVerifier (contract : addr) (name : string)
| MultisigSigner (contract : addr)
| SuiMsgVerifier (contract : addr)
| SuiWorkerSetVerifier (contract : addr).

Definition evm_msg_chain (c : handler_config) : option evm_chain :=
  match c with EvmMsgVerifier _ n => Some (evm_chain_of n) | _ => None end.
Definition evm_set_chain (c : handler_config) : option evm_chain :=
  match c with EvmWorkerSetVerifier _ n => Some (evm_chain_of n) | _ => None end.
Definition is_signer (c : handler_config) : bool := match c with MultisigSigner _ => true | _ => false end.
Definition is_sui_msg (c : handler_config) : bool := match c with SuiMsgVerifier _ => true | _ => false end.
Definition is_sui_set (c : handler_config) : bool := match c with SuiWorkerSetVerifier _ => true | _ => false end.

Global Instance evm_chain_eq_dec : EqDecision evm_chain.
Proof. solve_decision. Defined.
(** itertools [all_unique] *)
Fixpoint all_unique {A} `{EqDecision A} (l : list A) : bool :=
  match l with
  | [] => true
  | x :: l' => negb (bool_decide (x ∈ l')) && all_unique l'
  end.
Definition at_most_one (p : handler_config -> bool) (l : list handler_config) : bool :=
  (length (List.filter p l) <=? 1)%nat.
(** config.rs:42-157 [deserialize_handler_configs] and the five checks *)
Definition accepted (l : list handler_config) : bool :=
  all_unique (omap evm_msg_chain l) && all_unique (omap evm_set_chain l)
  && at_most_one is_signer l && at_most_one is_sui_msg l && at_most_one is_sui_set l.

(** lib.rs:191-259, the label a handler is registered with *)
Definition label (c : handler_config) : string :=
  match c with
  | EvmMsgVerifier _ n => evm_chain_str (evm_chain_of n) +:+ "-msg-verifier"
  | EvmWorkerSetVerifier _ n => evm_chain_str (evm_chain_of n) +:+ "-worker-set-verifier"
  | MultisigSigner _ => "multisig-signer"
  | SuiMsgVerifier _ => "sui-msg-verifier"
  | SuiWorkerSetVerifier _ => "sui-worker-set-verifier"
  end.

(** ** The handlers *)

(** What one call of a handler meets: the latest height, whether the queue
    takes messages, the nodes, the key daemon. *)
Record call_env := {
  ce_height : N;
  ce_open : bool;
  ce_evm : evm_rpc;
  ce_sui : sui_rpc;
  ce_sign : string -> string -> string -> option string;
}.
(** One handler during one run: what its stream yields, what its call for an
    event meets (given the events before), and when the token is found
    cancelled. *)
Record task_env := {
  te_items : list item;
  te_calls : list event -> call_env;
  te_stop : list event -> bool;
}.

Section Handle.
  Context (is_account : string -> bool) (base58 : string -> option string) (de_key : jval -> option string).
  (** the account of the worker *)
  Context (worker : addr).

  Definition hconfig_of (c : handler_config) : hconfig :=
    match c with
    | EvmMsgVerifier a n | EvmWorkerSetVerifier a n =>
        {| hc_worker := worker; hc_contract := a; hc_chain := evm_chain_of n |}
    | MultisigSigner a | SuiMsgVerifier a | SuiWorkerSetVerifier a =>
        {| hc_worker := worker; hc_contract := a; hc_chain := OtherChain "" |}
    end.
  (** lib.rs:191-259: the handler made for a configuration *)
  Definition handle (c : handler_config) (v : call_env) (ev : event) : answer :=
    let cfg := hconfig_of c in
    match c with
    | EvmMsgVerifier _ _ => evm_msg_handler is_account cfg (ce_height v) (ce_open v) (ce_evm v) ev
    | EvmWorkerSetVerifier _ _ => evm_ws_handler is_account cfg (ce_height v) (ce_open v) (ce_evm v) ev
    | MultisigSigner _ => multisig_handler is_account de_key cfg (ce_open v) (ce_sign v) ev
    | SuiMsgVerifier _ => sui_msg_handler is_account base58 cfg (ce_height v) (ce_open v) (ce_sui v) ev
    | SuiWorkerSetVerifier _ => sui_ws_handler is_account base58 cfg (ce_height v) (ce_open v) (ce_sui v) ev
    end.

  (** its task, as the event processor sees it. A panic ends the task like an
      error. *)
  Definition task_of (c : handler_config) (t : task_env) : handler_env :=
    {| he_items := te_items t; he_ok := fun given e => is_ok (handle c (te_calls t given) e);
       he_cancelled := te_stop t |}.
  (** the transactions it hands to the queue when it is given [evs] after [before] *)
  Fixpoint submitted (c : handler_config) (t : task_env) (before evs : list event) : list wasm_tx :=
    match evs with
    | [] => []
    | e :: evs' =>
        match handle c (te_calls t before) e with Ok (Some tx) => [tx] | _ => [] end
        ++ submitted c t (before ++ [e]) evs'
    end.
End Handle.

(** ** lib.rs: one run *)

(** lib.rs:313-329, the tasks *)
Inductive app_task := TaskSub | TaskHandlers | TaskQueue | TaskHeight | TaskState.
(** lib.rs:350-372, commands/daemon.rs: [Task] is a panic *)
Inductive app_error := EventSub | EventProcessor | BroadcasterFailed | HeightMonitor | Task | ReturnState.

(** One run of the daemon. [rn_queue]: what the queue finds in its channel and
    the other inputs of its loop, also those it does not get to when it stops;
    [rn_height]: whether the height monitor ends without error; [rn_first]: the
    task that ends first; [rn_signal]: whether the token is found cancelled
    then, because of SIGINT or SIGTERM; [rn_flush]: whether the state can be
    written; [rn_killed]: the process ends without getting there. *)
Record drun (B : Type) := {
  rn_latest : option N;
  rn_inputs : list sub_input;
  rn_receivers : list event -> bool;
  rn_handlers : list (handler_config * task_env);
  rn_broadcaster : B;
  rn_queue : list (input wasm_tx);
  rn_height : bool;
  rn_first : app_task;
  rn_signal : bool;
  rn_flush : bool;
  rn_killed : bool;
}.
Arguments rn_latest {B}. Arguments rn_inputs {B}. Arguments rn_receivers {B}. Arguments rn_handlers {B}.
Arguments rn_broadcaster {B}. Arguments rn_queue {B}. Arguments rn_height {B}. Arguments rn_first {B}.
Arguments rn_signal {B}. Arguments rn_flush {B}. Arguments rn_killed {B}.
(** What it leaves behind: the heights on disk, the handlers' outcomes, the
    calls the broadcaster received, how the queue ended, the exit result. *)
Record left_behind := {
  lb_heights : heights;
  lb_outcomes : list (string * SubscriptionModel.outcome);
  lb_calls : list (QueueModel.call wasm_tx);
  lb_queue : QueueModel.outcome wasm_tx;
  lb_exit : res app_error unit;
}.

Section Run.
  Context (is_account : string -> bool) (base58 : string -> option string) (de_key : jval -> option string).
  Context (worker : addr).
  Context (decode : string -> option string) (json : string -> option jval).
  Context {B : Type} (estimate : B -> list wasm_tx -> B * option N) (broadcast : B -> list wasm_tx -> B * bool).
  Context (batch_gas_limit : N).

  Definition session_of (x : drun B) : session :=
    {| se_latest := rn_latest x; se_inputs := rn_inputs x; se_receivers := rn_receivers x;
       se_handlers := (fun h => (label h.1, task_of is_account base58 de_key worker h.1 h.2)) <$> rn_handlers x;
       (* nothing is kept if the state cannot be written either *)
       se_crashed := rn_killed x || negb (rn_flush x) |}.

  (** what each task returns *)
  Definition sub_result (e : sub_end) : res app_error unit :=
    match e with SubFailed _ => Err EventSub | SubPanicked => Err Task | _ => Ok tt end.
  (** event_processor.rs:87-96: waits for all handlers *)
  Definition handlers_result (os : list (string * SubscriptionModel.outcome)) : res app_error unit :=
    if forallb (fun o => match ho_end o.2 with StreamError | HandlerError => false | _ => true end) os
    then Ok tt else Err EventProcessor.
  Definition queue_result (o : QueueModel.outcome wasm_tx) : res app_error unit :=
    match o with QueueModel.Stopped _ => Err BroadcasterFailed | Crashed => Err Task | _ => Ok tt end.

  (** lib.rs:331-346 and commands/daemon.rs:9-27: the result of the first task
      to end, or [Ok] if the token was cancelled by then; results of the other
      tasks are dropped. Both errors are merged into one report: the first
      stands for it. *)
  Definition exit_result (x : drun B) (sub : sub_end) (os : list (string * SubscriptionModel.outcome))
      (q : QueueModel.outcome wasm_tx) : res app_error unit :=
    let execution :=
      if rn_signal x then Ok tt
      else match rn_first x with
           | TaskSub => sub_result sub
           | TaskHandlers => handlers_result os
           | TaskQueue => queue_result q
           | TaskHeight => if rn_height x then Ok tt else Err HeightMonitor
           | TaskState => Ok tt
           end in
    let? _ := execution in
    if rn_flush x then Ok tt else Err ReturnState.

  (** lib.rs:49-56, 287-347, commands/daemon.rs. Simplification: the
      connections succeed, otherwise the run ends before anything is done. *)
  Definition run_daemon (s : heights) (x : drun B) : res sub_error left_behind :=
    let? start := start_from s in
    let sub := (sub_run decode json (rn_receivers x) start (rn_latest x) (rn_inputs x)).2 in
    let? r := run_session s (session_of x) in
    let '(_, calls, q) := qrun estimate broadcast batch_gas_limit (rn_broadcaster x) (rn_queue x) in
    Ok {| lb_heights := r.1; lb_outcomes := r.2; lb_calls := calls; lb_queue := q;
          lb_exit := exit_result x sub r.2 q |}.

  (** one run after the other, each with the heights on disk *)
  Fixpoint run_daemons (s : heights) (xs : list (drun B))
    : heights * list (heights * drun B * left_behind) :=
    match xs with
    | [] => (s, [])
    | x :: xs' =>
        match run_daemon s x with
        | Ok r => let (s', l) := run_daemons (lb_heights r) xs' in (s', (s, x, r) :: l)
        | _ => run_daemons s xs'
        end
    end.
End Run.

(** ** The key and the other commands *)

(** The key daemon's two requests (tofnd/grpc.rs, proto/tofnd/multisig.proto) *)
Record tofnd := {
  tf_keygen : string -> option string;
  tf_sign : string -> string -> string -> option string;
}.
(** config.rs:11-21 and tofnd/mod.rs:14-19, the parts used here *)
Record config := { cf_key_uid : string; cf_registry : addr; cf_handlers : list handler_config }.

(** commands/mod.rs:56-70 [worker_pub_key], lib.rs:87-98: the key on disk,
    otherwise a new one. Simplification: reading the state succeeds. *)
Definition worker_key (saved : option string) (t : tofnd) (cf : config) : res app_error string :=
  match saved with
  | Some k => Ok k
  | None => of_option Task (tf_keygen t (cf_key_uid cf))
  end.

(** commands/mod.rs:31-44 [SubCommand], those that send a transaction *)
Inductive command :=
| CmdBond (service : string) (amount : N) (denom : string)
| CmdDeclare (service : string) (chains : list string)
| CmdRegisterKey.

Section Commands.
  (** [PublicKey::account_id] *)
  Context (account : string -> addr).

  (** register_public_key.rs:46-58 [get_multisig_address] *)
  Definition signer_contract (c : handler_config) : option addr :=
    match c with MultisigSigner a => Some a | _ => None end.
  Definition multisig_address (cf : config) : option addr := head (omap signer_contract (cf_handlers cf)).

  (** bond_worker.rs:23-48, declare_chain_support.rs:21-46,
      register_public_key.rs:17-44: sender and message. Simplification: the
      amount and denomination are valid. *)
  Definition command_msg (cf : config) (key : string) (c : command) : res app_error (addr * sub) :=
    match c with
    | CmdBond svc amount denom =>
        Ok (account key, {| sb_to := cf_registry cf; sb_body := BBond svc; sb_funds := [(denom, amount)]; sb_reply := false |})
    | CmdDeclare svc chains =>
        Ok (account key, {| sb_to := cf_registry cf; sb_body := BDeclareChains svc chains; sb_funds := []; sb_reply := false |})
    | CmdRegisterKey =>
        let? m := of_option Task (multisig_address cf) in
        Ok (account key, {| sb_to := m; sb_body := BRegisterPublicKey KEcdsa key; sb_funds := []; sb_reply := false |})
    end.
  Definition run_command (saved : option string) (t : tofnd) (cf : config) (c : command)
    : res app_error (addr * sub) :=
    let? key := worker_key saved t cf in
    command_msg cf key c.
End Commands.
