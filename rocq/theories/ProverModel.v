(** Model of contracts/multisig-prover/src (contract.rs, execute.rs,
    query.rs, reply.rs, state.rs). Answers of the contracts the prover
    queries are oracles carried by each call. *)
From Verif Require Import Base Text StdModel RegistryTypes RouterTypes MultisigTypes OperatorsModel
  MultisigModel EncodingModel.

(** state.rs:12-26 [Config]. Left out: the admin, which no code reads. *)
Record pconfig := {
  pc_gateway : addr;
  pc_multisig : addr;
  pc_registry : addr;
  pc_verifier : addr;
  pc_chain_id : N;
  pc_threshold : threshold;
  pc_service : string;
  pc_chain : string;
  pc_diff : N;
  pc_encoder : encoder;
  pc_key_type : key_type;
}.

(** state.rs:29-35 *)
Record pstate := {
  pv_batches : gmap string batch;
  pv_sessions : gmap N string;
  pv_reply : option string;
  pv_current : option worker_set;
  pv_next : option worker_set;
}.

(** contract.rs:23-54 [instantiate]; the configuration never changes and is
    kept apart. *)
Definition prover_init : pstate :=
  {| pv_batches := ∅; pv_sessions := ∅; pv_reply := None; pv_current := None; pv_next := None |}.

(** What the prover can see during a call: block height and the answers of
    the gateway ([GetMessages]), the service registry ([GetActiveWorkers]),
    the multisig ([GetPublicKey]) and the voting verifier
    ([IsWorkerSetVerified]); the first argument is the contract asked, [None]
    is a failed query. *)
Record penv := {
  pe_height : N;
  pe_messages : addr -> list ccid -> option (list message);
  pe_active : addr -> string -> string -> option (list worker);
  pe_key : addr -> addr -> key_type -> option public_key;
  pe_verified : addr -> operators -> option bool;
}.

(** msg.rs:25-32 [ExecuteMsg] *)
Inductive pcall := ConstructProof (ids : list ccid) | UpdateWorkerSet | ConfirmWorkerSet.

(** The message of a response: execute.rs:61-70, 217-227
    [StartSigningSession] with a reply, 195-201, 253-257 [RegisterWorkerSet] *)
Inductive pmsg :=
| MsgStart (to : addr) (id : string) (digest chain : string)
| MsgRegister (to : addr) (ws : worker_set).

Definition set_batches (s : pstate) m : pstate :=
  {| pv_batches := m; pv_sessions := pv_sessions s; pv_reply := pv_reply s;
     pv_current := pv_current s; pv_next := pv_next s |}.
Definition set_reply (s : pstate) b : pstate :=
  {| pv_batches := pv_batches s; pv_sessions := pv_sessions s; pv_reply := Some b;
     pv_current := pv_current s; pv_next := pv_next s |}.
Definition set_sets (s : pstate) cur next : pstate :=
  {| pv_batches := pv_batches s; pv_sessions := pv_sessions s; pv_reply := pv_reply s;
     pv_current := cur; pv_next := next |}.
Definition set_session (s : pstate) id b : pstate :=
  {| pv_batches := pv_batches s; pv_sessions := <[id := b]> (pv_sessions s); pv_reply := pv_reply s;
     pv_current := pv_current s; pv_next := pv_next s |}.

(** execute.rs:73-100 [get_messages] *)
Definition get_messages (c : pconfig) (env : penv) (ids : list ccid) : res perror (list message) :=
  let? ms := of_option PStd (pe_messages env (pc_gateway c) ids) in
  if negb (length ms =? length ids)%nat then Panic
  else if existsb (fun m => negb (m_dchain m =? pc_chain c)%string) ms then Panic
  else Ok ms.

(** execute.rs:102-139 [get_workers_info], 141-148 [make_worker_set] *)
Definition make_worker_set (c : pconfig) (env : penv) : res perror worker_set :=
  let? workers := of_option PStd (pe_active env (pc_registry c) (pc_service c) (pc_chain c)) in
  let? ps := try_map (worker_participant PServiceRegistry) workers in
  let? _ := ensure (negb (bool_decide (ps = []))) PNonEmpty in
  let? snap := snapshot_new (pc_threshold c) ps in
  let? keys := try_map (fun w => of_option PStd (pe_key env (pc_multisig c) (w_addr w) (pc_key_type c)))
                 workers in
  Ok (worker_set_new (zip ps keys) (s_quorum snap) (pe_height env)).

(** execute.rs:260-286 [should_update_worker_set]; [Vec::contains] compares
    whole signers *)
Definition not_in (l l' : list signer) : list signer :=
  List.filter (fun sg => negb (bool_decide (sg ∈ l'))) l.
Definition should_update (new cur : worker_set) (max : N) : bool :=
  max <? N.of_nat (length (not_in (signers_of new) (signers_of cur)) +
                   length (not_in (signers_of cur) (signers_of new))).

(** execute.rs:150-172 [get_next_worker_set] *)
Definition get_next_worker_set (c : pconfig) (env : penv) (s : pstate) : res perror (option worker_set) :=
  let? new := make_worker_set c env in
  match pv_current s with
  | Some cur => Ok (if should_update new cur (pc_diff c) then Some new else None)
  | None => Err NoWorkerSet
  end.

(** execute.rs:288-298 [different_set_in_progress] *)
Definition different_in_progress (s : pstate) (new : worker_set) : bool :=
  match pv_next s with
  | Some next => negb (bool_decide (ws_signers next = ws_signers new)) ||
                 negb (ws_threshold next =? ws_threshold new)
  | None => false
  end.

(** execute.rs:174-183 [save_next_worker_set] *)
Definition save_next (s : pstate) (new : worker_set) : res perror pstate :=
  if different_in_progress s new then Err WorkerSetConfirmationInProgress
  else Ok (set_sets s (pv_current s) (Some new)).

(** query.rs:63-82 [optimize_signers]: stable sort by falling weight, then
    signatures are kept while the weight kept is below the quorum; the sum
    panics beyond 256 bits. *)
Fixpoint scan_signers (q acc : N) (l : list (signer * option signature))
  : res perror (list (signer * option signature)) :=
  match l with
  | [] => Ok []
  | (sg, Some sig) :: l' =>
      if acc <? q then
        let? acc' := add_u256 acc (sg_weight sg) in
        let? r := scan_signers q acc' l' in Ok ((sg, Some sig) :: r)
      else let? r := scan_signers q acc l' in Ok ((sg, None) :: r)
  | (sg, None) :: l' => let? r := scan_signers q acc l' in Ok ((sg, None) :: r)
  end.
Definition optimize_signers (l : list (signer * option signature)) (q : N)
  : res perror (list (signer * option signature)) :=
  scan_signers q 0 (isort (fun x y => sg_weight y.1 <=? sg_weight x.1) l).

(** msg.rs:43-56 [ProofStatus], [GetProofResponse] *)
Inductive proof_status := PfPending | PfCompleted (execute_data : string).
Record proof_response := {
  pr_session : N; pr_ids : list ccid; pr_data : data; pr_status : proof_status;
}.

Section Prover.
  Context (keccak : string -> string) (wshash : worker_set -> string)
          (sec1 : string -> option string) (recover : string -> string -> string -> option N).

  (** multisig's worker_set.rs:55-57 [WorkerSet::id] *)
  Definition worker_set_id (ws : worker_set) : string := to_hex (wshash ws).

  (** execute.rs:35-55: the batch of a request and the state with it *)
  Definition find_batch (c : pconfig) (env : penv) (s : pstate) (ids : list ccid) (ms : list message)
    : res perror (pstate * batch) :=
    match pv_batches s !! batch_id keccak wshash ids None with
    | Some b => Ok (s, b)
    | None =>
        let? new := get_next_worker_set c env s in
        let? s1 := match new with Some ws => save_next s ws | None => Ok s end in
        let? b := build_batch keccak wshash sec1 (pc_chain_id c) (pc_encoder c) new ms in
        Ok (set_batches s1 (<[b_id b := b]> (pv_batches s1)), b)
    end.

  (** execute.rs:20-71 [construct_proof] *)
  Definition construct_proof (c : pconfig) (env : penv) (s : pstate) (ids : list ccid)
    : res perror (pstate * pmsg) :=
    let? ms := get_messages c env ids in
    let? (s1, b) := find_batch c env s ids ms in
    let s2 := set_reply s1 (b_id b) in
    let? cur := of_option PStd (pv_current s2) in
    let? digest := msg_digest keccak b in
    Ok (s2, MsgStart (pc_multisig c) (worker_set_id cur) digest (pc_chain c)).

  (** execute.rs:185-230 [update_worker_set] *)
  Definition update_worker_set (c : pconfig) (env : penv) (s : pstate) : res perror (pstate * pmsg) :=
    match pv_current s with
    | None =>
        let? new := make_worker_set c env in
        Ok (set_sets s (Some new) (pv_next s), MsgRegister (pc_multisig c) new)
    | Some cur =>
        let? o := get_next_worker_set c env s in
        let? new := of_option WorkerSetUnchanged o in
        let? s1 := save_next s new in
        let? b := build_batch keccak wshash sec1 (pc_chain_id c) (pc_encoder c) (Some new) [] in
        let s2 := set_reply (set_batches s1 (<[b_id b := b]> (pv_batches s1))) (b_id b) in
        let? digest := msg_digest keccak b in
        Ok (s2, MsgStart (pc_multisig c) (worker_set_id cur) digest (pc_chain c))
    end.

  (** execute.rs:232-258 [confirm_worker_set] *)
  Definition confirm_worker_set (c : pconfig) (env : penv) (s : pstate) : res perror (pstate * pmsg) :=
    let? ws := of_option PStd (pv_next s) in
    let? o := make_operators keccak sec1 (pc_encoder c) ws in
    let? ok := of_option PStd (pe_verified env (pc_verifier c) o) in
    let? _ := ensure ok WorkerSetNotConfirmed in
    Ok (set_sets s (Some ws) None, MsgRegister (pc_multisig c) ws).

  (** contract.rs:57-71 [execute]: nobody's permission is checked *)
  Definition prover_execute (c : pconfig) (env : penv) (s : pstate) (call : pcall)
    : res perror (pstate * pmsg) :=
    match call with
    | ConstructProof ids => construct_proof c env s ids
    | UpdateWorkerSet => update_worker_set c env s
    | ConfirmWorkerSet => confirm_worker_set c env s
    end.

  (** reply.rs:10-41 [start_multisig_reply], contract.rs:74-84 [reply]; the
      argument is the number the reply data decodes to, if it does. The
      result carries the event [ProofUnderConstruction]: batch id, session. *)
  Definition prover_reply (s : pstate) (data : option N) : res perror (pstate * (string * N)) :=
    let? b := of_option PStd (pv_reply s) in
    let? id := of_option InvalidContractReply data in
    Ok (set_session s id b, (b, id)).

  (** One transaction: the call, the multisig's execution of the message
      ([None]: refused, which undoes everything; [Some d]: accepted with reply
      data [d]), and the reply for [StartSigningSession]. *)
  Record pop := { po_call : pcall; po_env : penv; po_multisig : option (option N) }.
  Record pout := { px_msg : pmsg; px_event : option (string * N) }.
  Definition prover_step (c : pconfig) (s : pstate) (op : pop) : res perror (pstate * pout) :=
    let? (s1, m) := prover_execute c (po_env op) s (po_call op) in
    let? d := of_option PStd (po_multisig op) in
    match m with
    | MsgStart _ _ _ _ =>
        let? (s2, ev) := prover_reply s1 d in
        Ok (s2, {| px_msg := m; px_event := Some ev |})
    | MsgRegister _ _ => Ok (s1, {| px_msg := m; px_event := None |})
    end.

  (** query.rs:18-57 [get_proof]; [mu] is the multisig's answer to
      [GetMultisig]; a differing encoder panics. *)
  Definition get_proof (c : pconfig) (s : pstate) (mu : N -> option multisig) (id : N)
    : res perror proof_response :=
    let? bid := of_option PStd (pv_sessions s !! id) in
    let? b := of_option PStd (pv_batches s !! bid) in
    if negb (bool_decide (b_encoder b = pc_encoder c)) then Panic
    else
      let? m := of_option PStd (mu id) in
      let? st := match mu_state m with
                 | MPending => Ok PfPending
                 | MCompleted _ =>
                     let? l := optimize_signers (mu_signers m) (mu_quorum m) in
                     let? d := map_err (fun _ => PStd)
                                 (encode_execute_data keccak sec1 recover b (mu_quorum m) l) in
                     Ok (PfCompleted d)
                 end in
      Ok {| pr_session := id; pr_ids := b_ids b; pr_data := b_data b; pr_status := st |}.

  (** query.rs:59-61 [get_worker_set] *)
  Definition query_worker_set (s : pstate) : res perror worker_set := of_option PStd (pv_current s).
End Prover.
