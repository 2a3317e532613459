(** Model of contracts/voting-verifier/src (execute.rs, query.rs, state.rs,
    events.rs, contract.rs). *)
From Verif Require Import Base Text StdModel RouterTypes RegistryTypes OperatorsModel.

(** state.rs:17-27 [Config]; [voting_threshold] is a [MajorityThreshold]. *)
Record vconfig := {
  vc_registry : addr;
  vc_service : string;
  vc_gateway : string;
  vc_threshold : threshold;
  vc_expiry : N;
  vc_confirmations : N;
  vc_chain : string;
  vc_rewards : addr;
}.

(** state.rs:29-33 [Poll] *)
Inductive vpoll := MessagesPoll (p : poll) | WorkerSetPoll (p : poll).
Definition vpoll_poll (v : vpoll) : poll :=
  match v with MessagesPoll p | WorkerSetPoll p => p end.

(** state.rs:35-46 [Poll::try_map] *)
Definition vpoll_try_map {E} (f : poll -> res E poll) (v : vpoll) : res E vpoll :=
  match v with
  | MessagesPoll p => let? p' := f p in Ok (MessagesPoll p')
  | WorkerSetPoll p => let? p' := f p in Ok (WorkerSetPoll p')
  end.

(** state.rs:48-53 [PollContent] *)
Record poll_content (T : Type) := { c_content : T; c_poll : N; c_index : N }.
Arguments c_content {T} _.
Arguments c_poll {T} _.
Arguments c_index {T} _.
Arguments Build_poll_content {T} _ _ _.

(** state.rs:75-83: the contract's storage. [POLL_ID] is the last id given
    out (0 if none, counter.rs:20-22). *)
Record vstate := {
  v_config : vconfig;
  v_poll_id : N;
  v_polls : gmap N vpoll;
  v_messages : gmap string (poll_content message);
  v_worker_sets : gmap string (poll_content operators);
}.

(** contract.rs:12-32 [instantiate] *)
Definition verifier_init (c : vconfig) : vstate :=
  {| v_config := c; v_poll_id := 0; v_polls := ∅; v_messages := ∅; v_worker_sets := ∅ |}.

(** error.rs, the cases the modelled code raises *)
Inductive verror :=
| EmptyMessages | SourceChainMismatch | PollNotFound | Voting (e : voting_error)
| InvalidMessageID | RegistryError | InvalidBondingState | EmptyParticipants
| WorkerSetAlreadyConfirmed.

(** query.rs:10-16 [VerificationStatus] *)
Inductive vstatus := Verified | FailedToVerify | StatusInProgress | NotVerified.
Global Instance vstatus_eq_dec : EqDecision vstatus.
Proof. solve_decision. Defined.

(** Answer of the service registry's [GetActiveWorkers] query, as a function
    of registry contract, service and chain; [None] if the query fails. *)
Definition registry_oracle := addr -> string -> string -> option (list worker).

(** events.rs:112-117 and 130-142: what a poll-started event says about one
    item: transaction id and event index, and the rest of the message. *)
Record tx_event := {
  te_tx_id : string; te_index : N; te_daddr : string; te_dchain : string;
  te_src : string; te_hash : string;
}.
(** events.rs: [PollMetadata]. The participants come from a [HashMap];
    simplification: listed in key order. *)
Record poll_metadata := {
  pm_poll_id : N; pm_chain : string; pm_gateway : string; pm_confirmations : N;
  pm_expires_at : N; pm_participants : list addr;
}.

(** events.rs:161-177 [parse_message_id] *)
Definition parse_message_id (id : string) : res verror (string * N) :=
  match split ID_SEPARATOR id with
  | [tx; idx] =>
      let? tx' := of_option InvalidMessageID (nonempty_string_of tx) in
      let? n := of_option InvalidMessageID (parse_u64 idx) in
      Ok (tx', n)
  | _ => Err InvalidMessageID
  end.

(** events.rs:144-159 [TryFrom<Message> for TxEventConfirmation] *)
Definition tx_event_of (m : message) : res verror tx_event :=
  let? (tx, idx) := parse_message_id (cc_id (m_cc m)) in
  Ok {| te_tx_id := tx; te_index := idx; te_daddr := m_daddr m;
        te_dchain := m_dchain m; te_src := m_src m; te_hash := m_hash m |}.

Section Verifier.
  (** Keccak-256 is left abstract: everything below holds for every hash
      function, colliding ones included. *)
  Context (keccak : string -> string).

  Definition message_key (m : message) : string := keccak (message_preimage m).
  Definition operators_key (o : operators) : string := keccak (operators_preimage o).

  (** query.rs:58-92 [verification_status]; index_in_poll is a [u32]. *)
  Definition verification_status {T} `{EqDecision T} (s : vstate)
      (stored : option (poll_content T)) (content : T) : res verror vstatus :=
    match stored with
    | None => Ok NotVerified
    | Some c =>
        if bool_decide (c_content c = content) then
          match v_polls s !! c_poll c with
          | None => Panic
          | Some vp =>
              match poll_consensus (vpoll_poll vp) (N.to_nat (c_index c)) with
              | Ok (Some SucceededOnChain) => Ok Verified
              | Ok _ =>
                  if bool_decide (poll_status_ (vpoll_poll vp) = Finished)
                  then Ok FailedToVerify else Ok StatusInProgress
              | _ => Panic
              end
          end
        else Panic
    end.

  (** query.rs:42-48 [msg_verification_status] *)
  Definition message_status (s : vstate) (m : message) : res verror vstatus :=
    verification_status s (v_messages s !! message_key m) m.

  (** query.rs:50-56 [worker_set_verification_status] *)
  Definition worker_set_status (s : vstate) (o : operators) : res verror vstatus :=
    verification_status s (v_worker_sets s !! operators_key o) o.

  (** query.rs:18-33 [is_verified] *)
  Definition is_verified (s : vstate) (ms : list message) : res verror (list (ccid * bool)) :=
    try_map (fun m => let? st := message_status s m in
                      Ok (m_cc m, bool_decide (st = Verified))) ms.

  (** query.rs:35-40 [is_worker_set_verified] *)
  Definition is_worker_set_verified (s : vstate) (o : operators) : res verror bool :=
    let? st := worker_set_status s o in Ok (bool_decide (st = Verified)).

  (** execute.rs:217-241 [take_snapshot] *)
  Definition take_snapshot (c : vconfig) (reg : registry_oracle) (chain : string)
    : res verror snapshot :=
    let? workers := of_option RegistryError (reg (vc_registry c) (vc_service c) chain) in
    let? ps := try_map (worker_participant InvalidBondingState) workers in
    let? _ := ensure (negb (bool_decide (ps = []))) EmptyParticipants in
    snapshot_new (vc_threshold c) ps.

  (** snapshot.rs:54-60 [get_participants] *)
  Definition snapshot_addrs (s : snapshot) : list addr := (btree_iter (s_participants s)).*1.

  (** execute.rs:243-270 [create_worker_set_poll], [create_messages_poll] with
      counter.rs:24-29 [incr] *)
  Definition create_poll (mk : poll -> vpoll) (s : vstate) (height : N) (snap : snapshot) (size : nat)
    : res verror (vstate * N) :=
    let? id := add_u64 (v_poll_id s) 1 in
    let? expires := add_u64 height (vc_expiry (v_config s)) in
    Ok ({| v_config := v_config s; v_poll_id := id;
           v_polls := <[id := mk (poll_new id snap expires size)]> (v_polls s);
           v_messages := v_messages s; v_worker_sets := v_worker_sets s |}, id).

  (** execute.rs:119-125: store each message of the poll with its index;
      state.rs:60 [index_in_poll.try_into().unwrap()] *)
  Fixpoint save_messages (tbl : gmap string (poll_content message)) (id : N) (idx : N)
      (ms : list message) : res verror (gmap string (poll_content message)) :=
    match ms with
    | [] => Ok tbl
    | m :: ms' =>
        let? i := checked U32 idx in
        save_messages (<[message_key m := Build_poll_content m id i]> tbl) id (idx + 1) ms'
    end.

  (** execute.rs:97-103 *)
  Definition needs_poll (st : vstatus) : bool :=
    match st with
    | FailedToVerify | NotVerified => true
    | StatusInProgress | Verified => false
    end.

  Inductive vout :=
  | OutVerify (statuses : list (ccid * bool)) (started : option (list tx_event * poll_metadata))
  | OutWorkerSet (tx_id : string) (event_index : N) (o : operators) (meta : poll_metadata)
  | OutVoted (poll_id : N) (voter : addr)
  | OutEnded (rewards : list (addr * string * addr)) (result : poll_state).

  Definition metadata (c : vconfig) (id height : N) (snap : snapshot) : poll_metadata :=
    {| pm_poll_id := id; pm_chain := vc_chain c; pm_gateway := vc_gateway c;
       pm_confirmations := vc_confirmations c; pm_expires_at := height + vc_expiry c;
       pm_participants := snapshot_addrs snap |}.

  (** execute.rs:66-146 [verify_messages] *)
  Definition verify_messages (s : vstate) (height : N) (reg : registry_oracle) (ms : list message)
    : res verror (vstate * vout) :=
    let c := v_config s in
    let? _ := ensure (negb (bool_decide (ms = []))) EmptyMessages in
    let? _ := ensure (forallb (fun m => String.eqb (cc_chain (m_cc m)) (vc_chain c)) ms)
                     SourceChainMismatch in
    let? statuses := is_verified s ms in
    let? with_status := try_map (fun m => let? st := message_status s m in Ok (st, m)) ms in
    let todo := omap (fun '(st, m) => if needs_poll st then Some m else None) with_status in
    match todo with
    | [] => Ok (s, OutVerify statuses None)
    | m0 :: _ =>
        let? snap := take_snapshot c reg (cc_chain (m_cc m0)) in
        let? (s1, id) := create_poll MessagesPoll s height snap (length todo) in
        let? tbl := save_messages (v_messages s1) id 0 todo in
        let? events := try_map tx_event_of todo in
        Ok ({| v_config := v_config s1; v_poll_id := v_poll_id s1; v_polls := v_polls s1;
               v_messages := tbl; v_worker_sets := v_worker_sets s1 |},
            OutVerify statuses (Some (events, metadata c id height snap)))
    end.

  (** execute.rs:23-64 [verify_worker_set] *)
  Definition verify_worker_set (s : vstate) (height : N) (reg : registry_oracle)
      (message_id : string) (o : operators) : res verror (vstate * vout) :=
    let c := v_config s in
    let? done := is_worker_set_verified s o in
    let? _ := ensure (negb done) WorkerSetAlreadyConfirmed in
    let? snap := take_snapshot c reg (vc_chain c) in
    let? (s1, id) := create_poll WorkerSetPoll s height snap 1 in
    let tbl := <[operators_key o := Build_poll_content o id 0]> (v_worker_sets s1) in
    let? (tx, idx) := parse_message_id message_id in
    Ok ({| v_config := v_config s1; v_poll_id := v_poll_id s1; v_polls := v_polls s1;
           v_messages := v_messages s1; v_worker_sets := tbl |},
        OutWorkerSet tx idx o (metadata c id height snap)).

  Definition set_poll (s : vstate) (id : N) (vp : vpoll) : vstate :=
    {| v_config := v_config s; v_poll_id := v_poll_id s; v_polls := <[id := vp]> (v_polls s);
       v_messages := v_messages s; v_worker_sets := v_worker_sets s |}.

  (** execute.rs:148-172 [vote] *)
  Definition verifier_vote (s : vstate) (height : N) (sender : addr) (id : N) (votes : list vote)
    : res verror (vstate * vout) :=
    let? vp := of_option PollNotFound (v_polls s !! id) in
    let? vp' := vpoll_try_map (fun p => map_err Voting (poll_cast_vote p height sender votes)) vp in
    Ok (set_poll s id vp', OutVoted id sender).

  (** execute.rs:174-215 [end_poll]; the rewards messages are
      (contract, event id, worker). *)
  Definition verifier_end_poll (s : vstate) (height : N) (id : N) : res verror (vstate * vout) :=
    let? vp := of_option PollNotFound (v_polls s !! id) in
    let? vp' := vpoll_try_map (fun p => map_err Voting (poll_finish p height)) vp in
    let result := poll_state_of (vpoll_poll vp') in
    Ok (set_poll s id vp',
        OutEnded ((fun a => (vc_rewards (v_config s), dec id, a)) <$> ps_consensus_participants result)
                 result).

  (** contract.rs:35-51 [execute]. [verify_*] and [end_poll] ignore the
      sender, so those calls carry none; the registry answer is that of the
      call's moment. *)
  Inductive vop :=
  | VerifyMessages (height : N) (reg : registry_oracle) (ms : list message)
  | VerifyWorkerSet (height : N) (reg : registry_oracle) (message_id : string) (o : operators)
  | Vote (height : N) (sender : addr) (id : N) (votes : list vote)
  | EndPoll (height : N) (id : N).

  Definition verifier_step (s : vstate) (op : vop) : res verror (vstate * vout) :=
    match op with
    | VerifyMessages h reg ms => verify_messages s h reg ms
    | VerifyWorkerSet h reg mid o => verify_worker_set s h reg mid o
    | Vote h a id vs => verifier_vote s h a id vs
    | EndPoll h id => verifier_end_poll s h id
    end.
End Verifier.
