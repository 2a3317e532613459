(** The prover and the multisig contract together: one transaction calls the
    prover, executes its message on the multisig, and hands the multisig's
    response data to the prover's reply (cosmwasm executes messages of a
    response inside the same transaction; an error anywhere undoes all of
    it). The worker-set identifier the two contracts use is the same
    function: worker_set.rs:55-57. *)
From Verif Require Import Base Text StdModel RegistryTypes RouterTypes MultisigTypes OperatorsModel MultisigModel
  EncodingModel ProverModel.

Record ssys := { sy_prover : pstate; sy_multisig : mstate }.

Inductive sop :=
| SProve (call : pcall) (env : penv)  (* a call of the prover, by anybody *)
| SMultisig (op : mop).               (* a direct call of the multisig *)

Inductive serror := SEProver (e : perror) | SEMultisig (e : merror).

(** The trace of a transaction: what the multisig executed and returned, and
    what the prover was called with and returned. *)
Record sout := { so_mop : mop; so_mout : mout; so_prover : option (pop * pout) }.

(** execute.rs:119-133: keys come from the multisig's query *)
Definition with_keys (env : penv) (m : mstate) : penv :=
  {| pe_height := pe_height env; pe_messages := pe_messages env; pe_active := pe_active env;
     pe_key := fun _ a t => match get_public_key m a t with Ok k => Some k | _ => None end;
     pe_verified := pe_verified env |}.

(** query.rs:36-40: the multisig's answer to [GetMultisig] *)
Definition sessions_of (m : mstate) (id : N) : option multisig :=
  match get_multisig m id with Ok mu => Some mu | _ => None end.

Section Signing.
  Context (keccak : string -> string) (wshash : worker_set -> string)
          (sec1 : string -> option string) (recover : string -> string -> string -> option N)
          (crypto : key_type -> string -> string -> string -> option bool).

  (** the message of the prover's response, sent from account [me] *)
  Definition message_op (me : addr) (m : pmsg) : mop :=
    match m with
    | MsgStart _ id digest chain => StartSession me id digest chain
    | MsgRegister _ ws => RegisterWorkerSet me ws
    end.
  (** contract.rs:112-120 of multisig: the response data of
      [StartSigningSession] is the session id *)
  Definition response_data (o : mout) : option N :=
    match o with OutStarted id _ _ _ _ => Some id | _ => None end.

  Definition signing_step (c : pconfig) (me : addr) (s : ssys) (op : sop) : res serror (ssys * sout) :=
    match op with
    | SProve call env =>
        let env' := with_keys env (sy_multisig s) in
        let? (p1, m) := map_err SEProver (prover_execute keccak wshash sec1 c env' (sy_prover s) call) in
        let mo := message_op me m in
        let? (ms, o) := map_err SEMultisig (multisig_step (worker_set_id wshash) crypto (sy_multisig s) mo) in
        let pop := {| po_call := call; po_env := env'; po_multisig := Some (response_data o) |} in
        match m with
        | MsgStart _ _ _ _ =>
            let? (p2, ev) := map_err SEProver (prover_reply p1 (response_data o)) in
            Ok ({| sy_prover := p2; sy_multisig := ms |},
                {| so_mop := mo; so_mout := o;
                   so_prover := Some (pop, {| px_msg := m; px_event := Some ev |}) |})
        | MsgRegister _ _ =>
            Ok ({| sy_prover := p1; sy_multisig := ms |},
                {| so_mop := mo; so_mout := o;
                   so_prover := Some (pop, {| px_msg := m; px_event := None |}) |})
        end
    | SMultisig mo =>
        let? (ms, o) := map_err SEMultisig (multisig_step (worker_set_id wshash) crypto (sy_multisig s) mo) in
        Ok ({| sy_prover := sy_prover s; sy_multisig := ms |},
            {| so_mop := mo; so_mout := o; so_prover := None |})
    end.

  Definition signing_init (g r : addr) (p : N) : ssys :=
    {| sy_prover := prover_init; sy_multisig := multisig_init g r p |}.

  (** [GetProof], asking the multisig *)
  Definition system_proof (c : pconfig) (s : ssys) (id : N) : res perror proof_response :=
    get_proof keccak sec1 recover c (sy_prover s) (sessions_of (sy_multisig s)) id.
End Signing.
