(** The texts in the stores, letter by letter. *)
From Verif Require Import Base Text StdModel RouterTypes RegistryTypes OperatorsModel MultisigTypes.
From Verif Require Import EncodingModel VerifierModel RewardsModel RegistryModel RouterModel GatewayModel NexusModel MultisigModel ProverModel.
From Verif Require Import StorageModel Storage2Model EventsModel JsonModel WireModel WireSpec2.

Definition s_router (v : rtval) : string :=
  match v with
  | RvConfig c => fill "{'admin':%,'governance':%,'nexus_gateway':%}" [qt (rc_admin c); qt (rc_governance c); qt (rc_nexus c)]
  | RvChain e => fill "{'name':%,'gateway':{'address':%},'frozen_status':%}" [qt (ce_name e); qt (ce_gateway e); dec (ce_frozen e)]
  | RvLen n => dec n
  end.
Definition s_bond (b : bonding_state) : string :=
  match b with
  | Bonded n => fill "{'Bonded':{'amount':'%'}}" [dec n]
  | RequestedUnbonding n => fill "{'RequestedUnbonding':{'amount':'%'}}" [dec n]
  | Unbonding n t => fill "{'Unbonding':{'amount':'%','unbonded_at':'%'}}" [dec n; dec t]
  | Unbonded => fill "'Unbonded'" []
  end.
Definition s_registry (v : srval) : string :=
  match v with
  | SvConfig g => fill "{'governance':%}" [qt g]
  | SvService s =>
      fill "{'name':%,'service_contract':%,'min_num_workers':%,'max_num_workers':%,'min_worker_bond':'%','bond_denom':%,'unbonding_period_days':%,'description':%}"
        [qt (sv_name s); qt (sv_contract s); dec (sv_min_workers s); t_option (dec <$> sv_max_workers s); dec (sv_min_bond s); qt (sv_denom s);
         dec (sv_unbonding_days s); qt (sv_description s)]
  | SvDeclared => "null"
  | SvWorker w =>
      fill "{'address':%,'bonding_state':%,'authorization_state':'%','service_name':%}"
        [qt (w_addr w); s_bond (w_bond w); match w_auth w with Authorized => "Authorized" | NotAuthorized => "NotAuthorized" end; qt (w_service w)]
  end.
Definition s_state (s : ms_state) : string :=
  match s with MPending => fill "'pending'" [] | MCompleted h => fill "{'completed':{'completed_at':%}}" [dec h] end.
Definition k_multisig (v : msval) : string :=
  match v with
  | MvConfig g r p => fill "{'governance':%,'rewards_contract':%,'grace_period':%}" [qt g; qt r; dec p]
  | MvCounter n => fill "'%'" [dec n]
  | MvSession s => fill "{'id':'%','worker_set_id':%,'msg':'%','state':%}" [dec (ss_id s); qt (ss_wsid s); to_hex (ss_msg s); s_state (ss_state s)]
  | MvSig (SigEcdsa b) => fill "{'ecdsa':'%'}" [to_hex b]
  | MvSig (SigEcdsaRecoverable b) => fill "{'ecdsa_recoverable':'%'}" [to_hex b]
  | MvSig (SigEd25519 b) => fill "{'ed25519':'%'}" [to_hex b]
  | MvSet w => t_set w
  | MvKey k => fill "'%'" [to_hex k]
  | MvCaller => "null"
  end.
Definition s_gateway (v : gwval) : string :=
  match v with
  | GvConfig c => fill "{'verifier':%,'router':%}" [qt (gc_verifier c); qt (gc_router c)]
  | GvMessage m => t_message m
  end.
Definition s_nexus (v : nxval) : string :=
  match v with
  | NvConfig c => fill "{'nexus':%,'router':%}" [qt (nc_nexus c); qt (nc_router c)]
  | NvRouted => "null"
  end.
Definition s_epoch (e : epoch) : string := fill "{'epoch_num':%,'block_height_started':%}" [dec (e_num e); dec (e_start e)].
Definition s_count (p : addr * N) : string := fill "%:%" [qt p.1; dec p.2].
Definition s_rewards (v : rwval) : string :=
  match v with
  | WvConfig g d => fill "{'governance':%,'rewards_denom':%}" [qt g; qt d]
  | WvParams p u => fill "{'params':%,'last_updated':%}" [t_params p; s_epoch u]
  | WvTally t =>
      fill "{'contract':%,'event_count':%,'participation':{%},'epoch':%,'params':%}"
        [qt (ty_contract t); dec (ty_count t); commas (s_count <$> btree_iter (ty_part t)); s_epoch (ty_epoch t); t_params (ty_params t)]
  | WvEvent i c n => fill "{'event_id':%,'contract':%,'epoch_num':%}" [qt i; qt c; dec n]
  | WvPool c n => fill "{'contract':%,'balance':'%'}" [qt c; dec n]
  | WvMark n => dec n
  end.
Definition s_count_of (p : vote * N) : string :=
  fill "'%':'%'" [match p.1 with SucceededOnChain => "SucceededOnChain" | FailedOnChain => "FailedOnChain" | NotFound => "NotFound" end; dec p.2].
Definition s_votes (t : tallies) : string := fill "{%}" [commas (s_count_of <$> t)].
Definition s_voter (p : addr * participation) : string :=
  fill "%:{'weight':'%','vote':%}" [qt p.1; dec (pt_weight p.2); t_option ((fun vs => fill "[%]" [commas (t_vote <$> vs)]) <$> pt_vote p.2)].
Definition s_poll (p : poll) : string :=
  fill "{'poll_id':'%','quorum':'%','expires_at':%,'poll_size':%,'tallies':[%],'status':'%','participation':{%}}"
    [dec (poll_id p); dec (poll_quorum p); dec (poll_expires_at p); dec (poll_size p); commas (s_votes <$> poll_tallies p);
     match poll_status_ p with InProgress => "in_progress" | Finished => "finished" end;
     commas (s_voter <$> btree_iter (poll_participation p))].
Definition s_verifier (v : vvval) : string :=
  match v with
  | VcConfig c =>
      fill "{'service_registry_contract':%,'service_name':%,'source_gateway_address':%,'voting_threshold':['%','%'],'block_expiry':%,'confirmation_height':%,'source_chain':%,'rewards_contract':%}"
        [qt (vc_registry c); qt (vc_service c); qt (vc_gateway c); dec (t_num (vc_threshold c)); dec (t_den (vc_threshold c)); dec (vc_expiry c);
         dec (vc_confirmations c); qt (vc_chain c); qt (vc_rewards c)]
  | VcPollId n => fill "'%'" [dec n]
  | VcPoll (MessagesPoll p) => fill "{'messages':%}" [s_poll p]
  | VcPoll (WorkerSetPoll p) => fill "{'confirm_worker_set':%}" [s_poll p]
  | VcMessage c => fill "{'content':%,'poll_id':'%','index_in_poll':%}" [t_message (c_content c); dec (c_poll c); dec (c_index c)]
  | VcSet c => fill "{'content':%,'poll_id':'%','index_in_poll':%}" [t_operators (c_content c); dec (c_poll c); dec (c_index c)]
  end.
Definition s_encoder (e : encoder) : string := match e with Abi => "abi" | Bcs => "bcs" end.
Definition s_command (c : command) : string :=
  fill "{'id':'%','ty':'%','params':'%'}"
    [to_hex (c_id c); match c_ty c with ApproveContractCall => "approve_contract_call" | TransferOperatorship => "transfer_operatorship" end;
     to_hex (c_params c)].
Definition s_prover (admin : addr) (v : prval) : string :=
  match v with
  | QvConfig c =>
      fill "{'admin':%,'gateway':%,'multisig':%,'service_registry':%,'voting_verifier':%,'destination_chain_id':'%','signing_threshold':['%','%'],'service_name':%,'chain_name':%,'worker_set_diff_threshold':%,'encoder':'%','key_type':'%'}"
        [qt admin; qt (pc_gateway c); qt (pc_multisig c); qt (pc_registry c); qt (pc_verifier c); dec (pc_chain_id c);
         dec (t_num (pc_threshold c)); dec (t_den (pc_threshold c)); qt (pc_service c); qt (pc_chain c); dec (pc_diff c);
         s_encoder (pc_encoder c); match pc_key_type c with KEcdsa => "ecdsa" | KEd25519 => "ed25519" end]
  | QvReply b => fill "'%'" [to_hex b]
  | QvSet w => t_set w
  | QvBatch b =>
      fill "{'id':'%','message_ids':[%],'data':{'destination_chain_id':'%','commands':[%]},'encoder':'%'}"
        [to_hex (b_id b); commas (t_id <$> b_ids b); dec (EncodingModel.d_chain (b_data b)); commas (s_command <$> d_commands (b_data b));
         s_encoder (b_encoder b)]
  | QvSession b => fill "'%'" [to_hex b]
  end.
