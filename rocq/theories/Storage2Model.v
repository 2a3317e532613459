(** The stores of the gateway, the nexus gateway, the rewards contract, the
    voting verifier and the prover as bytes: their calls as programs over the
    keys of StorageModel, one access after the other. *)
From Verif Require Import Base Text StdModel RegistryTypes RouterTypes MultisigTypes OperatorsModel MultisigModel EncodingModel.
From Verif Require Import GatewayModel NexusModel RewardsModel VerifierModel ProverModel StorageModel.

(** ** The gateway *)

Inductive gwval := GvConfig (c : gwconfig) | GvMessage (m : message).
Definition gwprog (A : Type) : Type := prog gwval (serr gwerror) A.

(** contracts/gateway/src/state.rs:34-38 [load_config], which panics if
    there is none *)
Definition g_config : gwprog gwconfig :=
  Get GW_CONFIG (fun o => match o with Some (GvConfig c) => Ret c | _ => Crash end).
(** state.rs:40-49 [save_outgoing_msg] *)
Definition g_save (m : message) : gwprog unit := Put (gw_message_key (m_cc m)) (GvMessage m) (Ret tt).
(** contract/execute.rs:26-40 [Contract::new], 48-128 *)
Definition gateway_prog (op : gwop) : gwprog gwout :=
  let! c := g_config in
  match op with
  | GwVerifyMessages msgs answer =>
      match msgs with
      | [] => Ret gwout_empty
      | _ =>
          let! _ := own (ensure_unique_ids msgs) in
          let! p := own (partition_by_verified answer msgs) in
          match p.2 with
          | [] => Ret gwout_empty
          | l => Ret {| go_verify := [(gc_verifier c, l)]; go_route := []; go_routed := []; go_failed := [] |}
          end
      end
  | GwRouteMessages sender msgs answer =>
      if bool_decide (sender = gc_router c) then
        let! _ := own (ensure_unique_ids msgs) in
        let! _ := for_each g_save msgs in
        Ret {| go_verify := []; go_route := []; go_routed := msgs; go_failed := [] |}
      else
        let! _ := own (ensure_unique_ids msgs) in
        let! p := own (partition_by_verified answer msgs) in
        Ret {| go_verify := [];
               go_route := match p.1 with [] => [] | l => [(gc_router c, l)] end;
               go_routed := p.1; go_failed := p.2 |}
  end.
Definition gateway_bytes_step (m : gmap string gwval) (op : gwop) : res (serr gwerror) (gmap string gwval * gwout) :=
  raw (gateway_prog op) m.
(** contract.rs:14-27 [instantiate] *)
Definition gateway_bytes_init (c : gwconfig) : gmap string gwval := {["config" := GvConfig c]}.
(** contract/query.rs:36-50 [get_messages]; a missing message is
    [LoadOutgoingMessage] *)
Definition g_messages (ids : list ccid) : gwprog (list message) :=
  collect (fun id => Get (gw_message_key id) (fun o =>
    match o with Some (GvMessage m) => Ret m | None => Fail (SOwn GwLoadOutgoingMessage) | _ => Fail SStd end)) ids.

(** ** The nexus gateway *)

Inductive nxval := NvConfig (c : nxconfig) | NvRouted.
Definition nxprog (A : Type) : Type := prog nxval (serr nxerror) A.

(** contracts/nexus-gateway/src/state.rs:41-58 *)
Definition n_config : nxprog nxconfig :=
  Get NX_CONFIG (fun o => match o with Some (NvConfig c) => Ret c | _ => Fail SStd end).
Definition n_is_routed (c : ccid) : nxprog bool :=
  Get (nx_routed_key c) (fun o => match o with Some NvRouted => Ret true | None => Ret false | _ => Fail SStd end).
Definition n_set_routed (c : ccid) : nxprog unit := Put (nx_routed_key c) NvRouted (Ret tt).
(** contract/execute.rs:49-56: keeps what is not routed yet *)
Fixpoint n_fresh (msgs : list message) : nxprog (list message) :=
  match msgs with
  | [] => Ret []
  | m :: ms =>
      let! b := n_is_routed (m_cc m) in
      let! r := n_fresh ms in
      Ret (if b : bool then r else m :: r)
  end.
(** contract/execute.rs:16-64 *)
Definition nexus_prog (op : nxop) : nxprog nxout :=
  let! c := n_config in
  match op with
  | NxRouteMessages sender msgs =>
      let! _ := own (ensure (bool_decide (sender = nc_router c)) NxUnauthorized) in
      let! fresh := n_fresh msgs in
      let! _ := for_each (fun m => n_set_routed (m_cc m)) fresh in
      Ret (NxToNexus (to_nexus <$> fresh))
  | NxRouteMessagesFromNexus sender msgs =>
      let! _ := own (ensure (bool_decide (sender = nc_nexus c)) NxUnauthorized) in
      match from_nexus <$> msgs with
      | [] => Ret (NxToRouter [])
      | ms => Ret (NxToRouter [(nc_router c, ms)])
      end
  end.
Definition nexus_bytes_step (m : gmap string nxval) (op : nxop) : res (serr nxerror) (gmap string nxval * nxout) :=
  raw (nexus_prog op) m.
(** contract.rs:14-28 [instantiate] *)
Definition nexus_bytes_init (c : nxconfig) : gmap string nxval := {["config" := NvConfig c]}.

(** ** The rewards contract *)

(** contracts/rewards/src/state.rs:18-33 [StoredParams], [EpochTally], 89-94
    [Event], 113-117 [RewardsPool] *)
Inductive rwval :=
| WvConfig (governance : addr) (denom : string) | WvParams (p : rparams) (updated : epoch)
| WvTally (t : tally) | WvEvent (id : string) (contract : addr) (epoch_num : N)
| WvPool (contract : addr) (balance : N) | WvMark (epoch_num : N).
Definition rwprog (A : Type) : Type := prog rwval (serr rerror) A.

(** contract/execute.rs:26-34 [Contract::new]; state.rs:191-193 [load_params]:
    both panic if there is nothing *)
Definition w_config : rwprog (addr * string) :=
  Get RW_CONFIG (fun o => match o with Some (WvConfig g d) => Ret (g, d) | _ => Crash end).
Definition w_params : rwprog (rparams * epoch) :=
  Get RW_PARAMS (fun o => match o with Some (WvParams p u) => Ret (p, u) | _ => Crash end).
(** state.rs:195-228 *)
Definition w_mark (c : addr) : rwprog (option N) :=
  Get (rw_watermark_key c) (fun o => match o with Some (WvMark n) => Ret (Some n) | None => Ret None | _ => Fail SStd end).
Definition w_event (ev : string) (c : addr) : rwprog (option N) :=
  Get (rw_event_key ev c) (fun o => match o with Some (WvEvent _ _ n) => Ret (Some n) | None => Ret None | _ => Fail SStd end).
Definition w_tally (c : addr) (n : N) : rwprog (option tally) :=
  Get (rw_tally_key c n) (fun o => match o with Some (WvTally t) => Ret (Some t) | None => Ret None | _ => Fail SStd end).
Definition w_pool (c : addr) : rwprog (addr * N) :=
  Get (rw_pool_key c) (fun o => match o with Some (WvPool c' n) => Ret (c', n) | None => Ret (c, 0) | _ => Fail SStd end).
(** execute.rs:45-61 [current_epoch] *)
Definition epoch_at (p : rparams) (u : epoch) (height : N) : res rerror epoch :=
  let d := rp_duration p in
  if height <? e_start u then Err BlockHeightInPast
  else if d =? 0 then Panic
  else
    let elapsed := (height - e_start u) / d in
    let? num := add_u64 (e_num u) elapsed in
    let? len := checked U64 (elapsed * d) in
    let? start := add_u64 (e_start u) len in
    Ok {| e_num := num; e_start := start |}.
Definition w_epoch (height : N) : rwprog epoch :=
  let! pu := w_params in own (epoch_at pu.1 pu.2 height).
(** execute.rs:70-116 [record_participation], [load_or_store_event] *)
Definition w_record (height : N) (contract : addr) (event : string) (w : addr) : rwprog unit :=
  let! cur := w_epoch height in
  let! old := w_event event contract in
  let! new := match old with
              | Some n => Ret (false, n)
              | None => Put (rw_event_key event contract) (WvEvent event contract (e_num cur)) (Ret (true, e_num cur))
              end in
  let! o := w_tally contract new.2 in
  let! t0 := match o with
             | Some t => Ret t
             | None => let! pu := w_params in
                       Ret {| ty_contract := contract; ty_count := 0; ty_part := ∅; ty_epoch := cur; ty_params := pu.1 |}
             end in
  let! t1 := own (tally_record t0 w) in
  let! count := own (if new.1 : bool then add_u64 (ty_count t1) 1 else Ok (ty_count t1)) in
  let t2 := {| ty_contract := ty_contract t1; ty_count := count; ty_part := ty_part t1;
               ty_epoch := ty_epoch t1; ty_params := ty_params t1 |} in
  Put (rw_tally_key (ty_contract t2) (e_num (ty_epoch t2))) (WvTally t2) (Ret tt).
(** execute.rs:161-183 [cumulate_rewards], [iterate_epoch_tallies]; a tally
    that cannot be read is left out *)
Fixpoint w_cumulate (c : addr) (epochs : list N) (acc : gmap addr N) : rwprog (gmap addr N) :=
  match epochs with
  | [] => Ret acc
  | n :: ns =>
      Get (rw_tally_key c n) (fun o =>
        let! acc' := match o with
                     | Some (WvTally t) => own (merge_rewards acc (rewards_by_worker t))
                     | _ => Ret acc
                     end in
        w_cumulate c ns acc')
  end.
(** execute.rs:118-159 [distribute_rewards], [process_rewards_for_epochs] *)
Definition w_distribute (height : N) (c : addr) (limit : option N) : rwprog (list (addr * N)) :=
  let limit := default DEFAULT_EPOCHS_TO_PROCESS limit in
  let! cur := w_epoch height in
  let! mark := w_mark c in
  let! from := own (match mark with Some last => add_u64 last 1 | None => Ok 0 end) in
  let! bound := own (add_u64 from limit) in
  let to := N.min (bound - 1) (e_num cur - EPOCH_PAYOUT_DELAY) in
  let! _ := own (ensure (negb ((to <? from) || (e_num cur <? EPOCH_PAYOUT_DELAY))) NoRewardsToDistribute) in
  let! rewards := w_cumulate c (epoch_range from to) ∅ in
  let! pool := w_pool c in
  let! total := own (sum_u128 (btree_iter rewards).*2) in
  let! _ := own (ensure (total <=? pool.2) PoolBalanceInsufficient) in
  Put (rw_pool_key pool.1) (WvPool pool.1 (pool.2 - total))
    (Put (rw_watermark_key c) (WvMark to) (Ret (btree_iter rewards))).
(** execute.rs:185-214 [update_params] *)
Definition w_update (governance : addr) (p : rparams) (height : N) (sender : addr) : rwprog unit :=
  let! _ := own (ensure (bool_decide (governance = sender)) RUnauthorized) in
  let! cur := w_epoch height in
  let! bound := own (add_u64 (e_start cur) (rp_duration p)) in
  let! cur' := own (if bound <? height then
                      let? n := add_u64 (e_num cur) 1 in Ok {| e_num := n; e_start := height |}
                    else Ok cur) in
  Put RW_PARAMS (WvParams p cur') (Ret tt).
(** contract.rs:67-84, execute.rs:216-227 [add_rewards] *)
Definition w_add (denom : string) (c : addr) (funds : list (string * N)) : rwprog unit :=
  let! amount := own match find (fun x : string * N => String.eqb x.1 denom) funds with
                     | Some x => if (length funds =? 1)%nat then Ok x.2 else Err RewardsModel.WrongDenom
                     | None => Err RewardsModel.WrongDenom
                     end in
  let! _ := own (ensure (negb (amount =? 0)) ZeroRewards) in
  let! pool := w_pool c in
  let! b := own (add_u128 pool.2 amount) in
  Put (rw_pool_key pool.1) (WvPool pool.1 b) (Ret tt).
(** contract.rs:49-114 [execute] *)
Definition rewards_prog (op : rop) : rwprog (list (addr * N)) :=
  let! cfg := w_config in
  match op with
  | Record_ h c ev w => let! _ := w_record h c ev w in Ret []
  | AddRewards c funds => let! _ := w_add cfg.2 c funds in Ret []
  | Distribute h c limit => w_distribute h c limit
  | UpdateParams h sender p => let! _ := w_update cfg.1 p h sender in Ret []
  end.
Definition rewards_bytes_step (m : gmap string rwval) (op : rop) : res (serr rerror) (gmap string rwval * list (addr * N)) :=
  raw (rewards_prog op) m.
(** contract.rs:18-46 [instantiate] *)
Definition rewards_bytes_init (governance : addr) (denom : string) (p : rparams) (height : N) : gmap string rwval :=
  <["params" := WvParams p {| e_num := 0; e_start := height |}]> {["config" := WvConfig governance denom]}.

(** ** The voting verifier *)

Inductive vvval :=
| VcConfig (c : vconfig) | VcPollId (n : N) | VcPoll (p : vpoll)
| VcMessage (c : poll_content message) | VcSet (c : poll_content operators).
Definition vvprog (A : Type) : Type := prog vvval (serr verror) A.

Section VerifierStore.
  Context (keccak : string -> string).

  Definition v_cfg : vvprog vconfig :=
    Get VV_CONFIG (fun o => match o with Some (VcConfig c) => Ret c | _ => Fail SStd end).
  (** contracts/voting-verifier/src/query.rs:70-88, the end of
      [verification_status] *)
  Definition status_in (vp : vpoll) (idx : N) : res verror vstatus :=
    match poll_consensus (vpoll_poll vp) (N.to_nat idx) with
    | Ok (Some SucceededOnChain) => Ok Verified
    | Ok _ =>
        if bool_decide (poll_status_ (vpoll_poll vp) = Finished) then Ok FailedToVerify else Ok StatusInProgress
    | _ => Panic
    end.
  (** query.rs:58-92 [verification_status] *)
  Definition v_status {T} `{EqDecision T} (stored : option (poll_content T)) (content : T) : vvprog vstatus :=
    match stored with
    | None => Ret NotVerified
    | Some c =>
        if bool_decide (c_content c = content) then
          Get (vv_poll_key (c_poll c)) (fun o =>
            match o with Some (VcPoll vp) => own (status_in vp (c_index c)) | _ => Crash end)
        else Crash
    end.
  (** query.rs:42-56 *)
  Definition v_message_status (m : message) : vvprog vstatus :=
    Get (vv_message_key (message_key keccak m)) (fun o =>
      match o with
      | Some (VcMessage c) => v_status (Some c) m
      | None => v_status None m
      | _ => Fail SStd
      end).
  Definition v_set_status (x : operators) : vvprog vstatus :=
    Get (vv_set_key (operators_key keccak x)) (fun o =>
      match o with
      | Some (VcSet c) => v_status (Some c) x
      | None => v_status None x
      | _ => Fail SStd
      end).
  (** query.rs:18-40 [is_verified], [is_worker_set_verified] *)
  Definition v_is_verified (ms : list message) : vvprog (list (ccid * bool)) :=
    collect (fun m => let! st := v_message_status m in Ret (m_cc m, bool_decide (st = Verified))) ms.
  Definition v_set_verified (x : operators) : vvprog bool :=
    let! st := v_set_status x in Ret (bool_decide (st = Verified)).
  (** execute.rs:217-241 [take_snapshot] *)
  Definition v_snapshot (reg : registry_oracle) (chain : string) : vvprog snapshot :=
    let! c := v_cfg in own (take_snapshot c reg chain).
  (** execute.rs:243-270 with packages/axelar-wasm-std/src/counter.rs:20-29
      ([cur] gives 0 for whatever cannot be read) *)
  Definition v_create (mk : poll -> vpoll) (height expiry : N) (snap : snapshot) (size : nat) : vvprog N :=
    Get VV_POLL_ID (fun o =>
      let! id := own (add_u64 (match o with Some (VcPollId n) => n | _ => 0 end) 1) in
      Put VV_POLL_ID (VcPollId id)
        (let! expires := own (add_u64 height expiry) in
         Put (vv_poll_key id) (VcPoll (mk (poll_new id snap expires size))) (Ret id))).
  (** execute.rs:119-125 *)
  Fixpoint v_save (id idx : N) (ms : list message) : vvprog unit :=
    match ms with
    | [] => Ret tt
    | m :: ms' =>
        let! i := own (checked U32 idx) in
        Put (vv_message_key (message_key keccak m)) (VcMessage (Build_poll_content m id i)) (v_save id (idx + 1) ms')
    end.
  (** execute.rs:66-146 [verify_messages] *)
  Definition v_verify (height : N) (reg : registry_oracle) (ms : list message) : vvprog vout :=
    let! _ := own (ensure (negb (bool_decide (ms = []))) EmptyMessages) in
    let! c0 := v_cfg in
    let! _ := own (ensure (forallb (fun m => String.eqb (cc_chain (m_cc m)) (vc_chain c0)) ms) SourceChainMismatch) in
    let! c := v_cfg in
    let! statuses := v_is_verified ms in
    let! with_status := collect (fun m => let! st := v_message_status m in Ret (st, m)) ms in
    match omap (fun '(st, m) => if needs_poll st then Some m else None) with_status with
    | [] => Ret (OutVerify statuses None)
    | m0 :: rest =>
        let! snap := v_snapshot reg (cc_chain (m_cc m0)) in
        let! id := v_create MessagesPoll height (vc_expiry c) snap (length (m0 :: rest)) in
        let! _ := v_save id 0 (m0 :: rest) in
        let! events := own (try_map tx_event_of (m0 :: rest)) in
        Ret (OutVerify statuses (Some (events, metadata c id height snap)))
    end.
  (** execute.rs:23-64 [verify_worker_set] *)
  Definition v_verify_set (height : N) (reg : registry_oracle) (mid : string) (x : operators) : vvprog vout :=
    let! d := v_set_verified x in
    let! _ := own (ensure (negb d) WorkerSetAlreadyConfirmed) in
    let! c := v_cfg in
    let! snap := v_snapshot reg (vc_chain c) in
    let! id := v_create WorkerSetPoll height (vc_expiry c) snap 1 in
    Put (vv_set_key (operators_key keccak x)) (VcSet (Build_poll_content x id 0))
      (let! p := own (VerifierModel.parse_message_id mid) in
       Ret (OutWorkerSet p.1 p.2 x (metadata c id height snap))).
  Definition v_poll (id : N) : vvprog vpoll :=
    Get (vv_poll_key id) (fun o =>
      match o with Some (VcPoll p) => Ret p | None => Fail (SOwn PollNotFound) | _ => Fail SStd end).
  (** execute.rs:148-215 [vote], [end_poll] *)
  Definition v_vote (height : N) (sender : addr) (id : N) (votes : list vote) : vvprog vout :=
    let! vp := v_poll id in
    let! vp' := own (vpoll_try_map (fun p => map_err Voting (poll_cast_vote p height sender votes)) vp) in
    Put (vv_poll_key id) (VcPoll vp') (Ret (OutVoted id sender)).
  Definition v_end (height id : N) : vvprog vout :=
    let! c := v_cfg in
    let! vp := v_poll id in
    let! vp' := own (vpoll_try_map (fun p => map_err Voting (poll_finish p height)) vp) in
    Put (vv_poll_key id) (VcPoll vp')
      (Ret (let result := poll_state_of (vpoll_poll vp') in
            OutEnded ((fun a => (vc_rewards c, dec id, a)) <$> ps_consensus_participants result) result)).
  Definition verifier_prog (op : vop) : vvprog vout :=
    match op with
    | VerifyMessages h reg ms => v_verify h reg ms
    | VerifyWorkerSet h reg mid x => v_verify_set h reg mid x
    | Vote h a id vs => v_vote h a id vs
    | EndPoll h id => v_end h id
    end.
  Definition verifier_bytes_step (m : gmap string vvval) (op : vop) : res (serr verror) (gmap string vvval * vout) :=
    raw (verifier_prog op) m.
End VerifierStore.
(** contract.rs:12-32 [instantiate] *)
Definition verifier_bytes_init (c : vconfig) : gmap string vvval := {["config" := VcConfig c]}.

(** ** The prover *)

Inductive prval :=
| QvConfig (c : pconfig) | QvReply (batch : string) | QvSet (ws : worker_set) | QvBatch (b : batch) | QvSession (batch : string).
Definition prprog (A : Type) : Type := prog prval (serr perror) A.

Section ProverStore.
  Context (keccak : string -> string) (wshash : worker_set -> string)
          (sec1 : string -> option string) (recover : string -> string -> string -> option N).

  Definition no_std {A} : prprog A := Fail (SOwn PStd).
  Definition x_config : prprog pconfig :=
    Get PR_CONFIG (fun o => match o with Some (QvConfig c) => Ret c | _ => no_std end).
  Definition x_current : prprog (option worker_set) :=
    Get PR_CURRENT (fun o => match o with Some (QvSet w) => Ret (Some w) | None => Ret None | _ => no_std end).
  Definition x_need {A} (p : prprog (option A)) : prprog A := let! o := p in own (of_option PStd o).
  Definition x_batch (id : string) : prprog (option batch) :=
    Get (pr_batch_key id) (fun o => match o with Some (QvBatch b) => Ret (Some b) | None => Ret None | _ => no_std end).
  (** contracts/multisig-prover/src/execute.rs:150-172 [get_next_worker_set] *)
  Definition x_next_set (c : pconfig) (env : penv) : prprog (option worker_set) :=
    let! o := x_current in
    let! new := own (make_worker_set c env) in
    match o with
    | Some cur => Ret (if should_update new cur (pc_diff c) then Some new else None)
    | None => Fail (SOwn NoWorkerSet)
    end.
  (** execute.rs:174-183, 288-298; a set in progress that cannot be read
      counts as none *)
  Definition x_save_next (new : worker_set) : prprog unit :=
    Get PR_NEXT (fun o =>
      let differs := match o with
                     | Some (QvSet next) => negb (bool_decide (ws_signers next = ws_signers new)) ||
                                            negb (ws_threshold next =? ws_threshold new)
                     | _ => false
                     end in
      if differs : bool then Fail (SOwn WorkerSetConfirmationInProgress)
      else Put PR_NEXT (QvSet new) (Ret tt)).
  (** execute.rs:35-55 *)
  Definition x_find (c : pconfig) (env : penv) (ids : list ccid) (ms : list message) : prprog batch :=
    let! o := x_batch (batch_id keccak wshash ids None) in
    match o with
    | Some b => Ret b
    | None =>
        let! new := x_next_set c env in
        let! _ := match new with Some ws => x_save_next ws | None => Ret tt end in
        let! b := own (build_batch keccak wshash sec1 (pc_chain_id c) (pc_encoder c) new ms) in
        Put (pr_batch_key (b_id b)) (QvBatch b) (Ret b)
    end.
  (** execute.rs:20-71 [construct_proof] *)
  Definition x_construct (env : penv) (ids : list ccid) : prprog pmsg :=
    let! c := x_config in
    let! ms := own (ProverModel.get_messages c env ids) in
    let! b := x_find c env ids ms in
    Put PR_REPLY (QvReply (b_id b))
      (let! cur := x_need x_current in
       let! digest := own (msg_digest keccak b) in
       Ret (MsgStart (pc_multisig c) (worker_set_id wshash cur) digest (pc_chain c))).
  (** execute.rs:185-230 [update_worker_set] *)
  Definition x_update (env : penv) : prprog pmsg :=
    let! c := x_config in
    let! o := x_current in
    match o with
    | None =>
        let! new := own (make_worker_set c env) in
        Put PR_CURRENT (QvSet new) (Ret (MsgRegister (pc_multisig c) new))
    | Some cur =>
        let! o := x_next_set c env in
        let! new := own (of_option WorkerSetUnchanged o) in
        let! _ := x_save_next new in
        let! b := own (build_batch keccak wshash sec1 (pc_chain_id c) (pc_encoder c) (Some new) []) in
        Put (pr_batch_key (b_id b)) (QvBatch b)
          (Put PR_REPLY (QvReply (b_id b))
            (let! digest := own (msg_digest keccak b) in
             Ret (MsgStart (pc_multisig c) (worker_set_id wshash cur) digest (pc_chain c))))
    end.
  (** execute.rs:232-258 [confirm_worker_set] *)
  Definition x_confirm (env : penv) : prprog pmsg :=
    let! c := x_config in
    Get PR_NEXT (fun o =>
      match o with
      | Some (QvSet ws) =>
          let! x := own (make_operators keccak sec1 (pc_encoder c) ws) in
          let! ok := own (of_option PStd (pe_verified env (pc_verifier c) x)) in
          let! _ := own (ensure ok WorkerSetNotConfirmed) in
          Put PR_CURRENT (QvSet ws) (Del PR_NEXT (Ret (MsgRegister (pc_multisig c) ws)))
      | _ => no_std
      end).
  (** reply.rs:10-41 [start_multisig_reply] *)
  Definition x_reply (data : option N) : prprog (string * N) :=
    Get PR_REPLY (fun o =>
      match o with
      | Some (QvReply b) =>
          let! id := own (of_option InvalidContractReply data) in
          Put (pr_session_key id) (QvSession b) (Ret (b, id))
      | _ => no_std
      end).
  (** contract.rs:57-84: the call, the multisig's answer, the reply *)
  Definition prover_prog (op : pop) : prprog pout :=
    let! m := match po_call op with
              | ConstructProof ids => x_construct (po_env op) ids
              | UpdateWorkerSet => x_update (po_env op)
              | ConfirmWorkerSet => x_confirm (po_env op)
              end in
    let! d := own (of_option PStd (po_multisig op)) in
    match m with
    | MsgStart _ _ _ _ => let! ev := x_reply d in Ret {| px_msg := m; px_event := Some ev |}
    | MsgRegister _ _ => Ret {| px_msg := m; px_event := None |}
    end.
  Definition prover_bytes_step (m : gmap string prval) (op : pop) : res (serr perror) (gmap string prval * pout) :=
    raw (prover_prog op) m.
  (** query.rs:18-61 [get_proof], [get_worker_set] *)
  Definition x_get_proof (mu : N -> option multisig) (id : N) : prprog proof_response :=
    let! c := x_config in
    Get (pr_session_key id) (fun o =>
      match o with
      | Some (QvSession bid) =>
          let! b := x_need (x_batch bid) in
          own (if negb (bool_decide (b_encoder b = pc_encoder c)) then Panic
               else
                 let? m := of_option PStd (mu id) in
                 let? st := match mu_state m with
                            | MPending => Ok PfPending
                            | MCompleted _ =>
                                let? l := optimize_signers (mu_signers m) (mu_quorum m) in
                                let? d := map_err (fun _ => PStd) (encode_execute_data keccak sec1 recover b (mu_quorum m) l) in
                                Ok (PfCompleted d)
                            end in
                 Ok {| pr_session := id; pr_ids := b_ids b; pr_data := b_data b; pr_status := st |})
      | _ => no_std
      end).
  Definition x_get_worker_set : prprog worker_set := x_need x_current.
End ProverStore.
(** contract.rs:23-54 [instantiate] *)
Definition prover_bytes_init (c : pconfig) : gmap string prval := {["config" := QvConfig c]}.
