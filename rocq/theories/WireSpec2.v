(** The texts of the calls, letter by letter, and texts that mean the same. *)
From Verif Require Import Base Text StdModel RouterTypes RegistryTypes OperatorsModel MultisigTypes
  RewardsModel RegistryModel RouterModel NexusModel ProverModel EventsModel JsonModel WireModel.

(** A pattern: ' stands for a double quote, % for the next text given. *)
Fixpoint fill (pattern : string) (args : list string) : string :=
  match pattern with
  | EmptyString => ""
  | String c r =>
      if Ascii.eqb c "'" then String """" (fill r args)
      else if Ascii.eqb c "%" then
        match args with
        | [] => fill r []
        | a :: args' => a +:+ fill r args'
        end
      else String c (fill r args)
  end.
Definition commas (l : list string) : string := join "," l.
(** a text in quotes, special characters escaped (C99) *)
Notation qt := quoted.

Definition t_id (c : ccid) : string := fill "{'chain':%,'id':%}" [qt (cc_chain c); qt (cc_id c)].
Definition t_message (m : message) : string :=
  fill "{'cc_id':%,'source_address':%,'destination_chain':%,'destination_address':%,'payload_hash':'%'}"
    [t_id (m_cc m); qt (m_src m); qt (m_dchain m); qt (m_daddr m); to_hex (m_hash m)].
Definition t_messages (ms : list message) : string := fill "[%]" [commas (t_message <$> ms)].
Definition t_vote (v : vote) : string :=
  match v with SucceededOnChain => fill "'succeeded_on_chain'" [] | FailedOnChain => fill "'failed_on_chain'" [] | NotFound => fill "'not_found'" [] end.
Definition t_weight (p : string * N) : string := fill "['%','%']" [to_hex p.1; dec p.2].
Definition t_operators (o : operators) : string :=
  fill "{'weights_by_addresses':[%],'threshold':'%'}" [commas (t_weight <$> o_weights o); dec (o_threshold o)].
Definition t_key (k : public_key) : string :=
  match pk_type k with KEcdsa => fill "{'ecdsa':'%'}" [to_hex (pk_bytes k)] | KEd25519 => fill "{'ed25519':'%'}" [to_hex (pk_bytes k)] end.
Definition t_signer (p : addr * signer) : string :=
  fill "%:{'address':%,'weight':'%','pub_key':%}" [qt p.1; qt (sg_addr p.2); dec (sg_weight p.2); t_key (sg_key p.2)].
Definition t_set (w : worker_set) : string :=
  fill "{'signers':{%},'threshold':'%','created_at':%}"
    [commas (t_signer <$> btree_iter (ws_signers w)); dec (ws_threshold w); dec (ws_created w)].
Definition t_direction (d : direction) : string :=
  match d with
  | DNone => fill "'None'" [] | DIncoming => fill "'Incoming'" [] | DOutgoing => fill "'Outgoing'" [] | DBidirectional => fill "'Bidirectional'" []
  end.
Definition t_bytes (s : string) : string := fill "[%]" [commas ((fun c => dec (N_of_ascii c)) <$> String.list_ascii_of_string s)].
Definition t_nmessage (n : nmessage) : string :=
  fill "{'source_chain':%,'source_address':%,'destination_chain':%,'destination_address':%,'payload_hash':%,'source_tx_id':%,'source_tx_index':%}"
    [qt (n_schain n); qt (n_saddr n); qt (n_dchain n); qt (n_daddr n); t_bytes (n_hash n); t_bytes (n_txid n); dec (n_index n)].
Definition t_option (o : option string) : string := match o with Some s => s | None => "null" end.
Definition t_params (p : rparams) : string :=
  fill "{'epoch_duration':'%','rewards_per_epoch':'%','participation_threshold':['%','%']}"
    [dec (rp_duration p); dec (rp_rewards p); dec (t_num (rp_threshold p)); dec (t_den (rp_threshold p))].

Definition t_vv (m : vv_msg) : string :=
  match m with
  | VvEndPoll id => fill "{'end_poll':{'poll_id':'%'}}" [dec id]
  | VvVote id vs => fill "{'vote':{'poll_id':'%','votes':[%]}}" [dec id; commas (t_vote <$> vs)]
  | VvVerifyMessages ms => fill "{'verify_messages':{'messages':%}}" [t_messages ms]
  | VvVerifyWorkerSet i o => fill "{'verify_worker_set':{'message_id':%,'new_operators':%}}" [qt i; t_operators o]
  end.
Definition t_ms (m : ms_msg) : string :=
  match m with
  | MsStart w d c s => fill "{'start_signing_session':{'worker_set_id':%,'msg':'%','chain_name':%,'sig_verifier':%}}"
      [qt w; to_hex d; qt c; t_option (qt <$> s)]
  | MsSubmit id sg => fill "{'submit_signature':{'session_id':'%','signature':'%'}}" [dec id; to_hex sg]
  | MsRegisterSet w => fill "{'register_worker_set':{'worker_set':%}}" [t_set w]
  | MsRegisterKey k => fill "{'register_public_key':{'public_key':%}}" [t_key k]
  | MsAuthorize a => fill "{'authorize_caller':{'contract_address':%}}" [qt a]
  | MsUnauthorize a => fill "{'unauthorize_caller':{'contract_address':%}}" [qt a]
  end.
Definition t_rw (m : rw_msg) : string :=
  match m with
  | RwRecord ev w => fill "{'record_participation':{'event_id':%,'worker_address':%}}" [qt ev; qt w]
  | RwDistribute c n => fill "{'distribute_rewards':{'contract_address':%,'epoch_count':%}}" [qt c; t_option (dec <$> n)]
  | RwAdd c => fill "{'add_rewards':{'contract_address':%}}" [qt c]
  | RwUpdate p => fill "{'update_params':{'params':%}}" [t_params p]
  end.
Definition t_gw (m : gw_msg) : string :=
  match m with
  | GwmVerify ms => fill "{'verify_messages':%}" [t_messages ms]
  | GwmRoute ms => fill "{'route_messages':%}" [t_messages ms]
  end.
Definition t_nx (m : nx_msg) : string :=
  match m with
  | NxmRoute ms => fill "{'route_messages':%}" [t_messages ms]
  | NxmFromNexus ns => fill "{'route_messages_from_nexus':[%]}" [commas (t_nmessage <$> ns)]
  end.
Definition t_rt (m : rt_msg) : string :=
  match m with
  | RtmRegister c g => fill "{'register_chain':{'chain':%,'gateway_address':%}}" [qt c; qt g]
  | RtmUpgrade c g => fill "{'upgrade_gateway':{'chain':%,'contract_address':%}}" [qt c; qt g]
  | RtmFreeze c d => fill "{'freeze_chain':{'chain':%,'direction':%}}" [qt c; t_direction d]
  | RtmUnfreeze c d => fill "{'unfreeze_chain':{'chain':%,'direction':%}}" [qt c; t_direction d]
  | RtmRoute ms => fill "{'route_messages':%}" [t_messages ms]
  end.
Definition t_pr (m : pcall) : string :=
  match m with
  | ConstructProof ids => fill "{'construct_proof':{'message_ids':[%]}}" [commas (t_id <$> ids)]
  | UpdateWorkerSet => fill "'update_worker_set'" []
  | ConfirmWorkerSet => fill "'confirm_worker_set'" []
  end.
Definition t_sr (m : sr_msg) : string :=
  match m with
  | SrmRegister s =>
      fill "{'register_service':{'service_name':%,'service_contract':%,'min_num_workers':%,'max_num_workers':%,'min_worker_bond':'%','bond_denom':%,'unbonding_period_days':%,'description':%}}"
        [qt (sv_name s); qt (sv_contract s); dec (sv_min_workers s); t_option (dec <$> sv_max_workers s); dec (sv_min_bond s); qt (sv_denom s);
         dec (sv_unbonding_days s); qt (sv_description s)]
  | SrmAuthorize ws s => fill "{'authorize_workers':{'workers':[%],'service_name':%}}" [commas (qt <$> ws); qt s]
  | SrmUnauthorize ws s => fill "{'unauthorize_workers':{'workers':[%],'service_name':%}}" [commas (qt <$> ws); qt s]
  | SrmDeclare s cs => fill "{'declare_chain_support':{'service_name':%,'chains':[%]}}" [qt s; commas (qt <$> cs)]
  | SrmBond s => fill "{'bond_worker':{'service_name':%}}" [qt s]
  | SrmUnbond s => fill "{'unbond_worker':{'service_name':%}}" [qt s]
  | SrmClaim s => fill "{'claim_stake':{'service_name':%}}" [qt s]
  end.

(** The same JSON, but for the order of the members of its objects. *)
Inductive same : jval -> jval -> Prop :=
| same_value v : same v v
| same_list l l' : same_all l l' -> same (JArr l) (JArr l')
| same_object l l0 l' : NoDup l.*1 -> same_members l l0 -> l0 ≡ₚ l' -> same (JObj l) (JObj l')
with same_all : list jval -> list jval -> Prop :=
| same_nil : same_all [] []
| same_cons v v' l l' : same v v' -> same_all l l' -> same_all (v :: l) (v' :: l')
with same_members : list (string * jval) -> list (string * jval) -> Prop :=
| same_none : same_members [] []
| same_member k v v' l l' : same v v' -> same_members l l' -> same_members ((k, v) :: l) ((k, v') :: l').

(** What is read, next to what the contracts themselves would write for it.
    Only strings may be spelled otherwise: in capitals, or a number with zeros
    (and a plus sign) before it. *)
Fixpoint zeros (n : nat) : string := match n with O => EmptyString | S n => String "0" (zeros n) end.
Definition respelled (s s0 : string) : Prop :=
  s = s0 \/ lower s = s0 \/ exists n z, s0 = dec n /\ (s = zeros z +:+ dec n \/ s = "+" +:+ zeros z +:+ dec n).
(** Every member is one that would be written, none is there twice; none is
    missing, unless [null] would be written. *)
Inductive fits : jval -> jval -> Prop :=
| fits_same v : fits v v
| fits_string s s0 : respelled s s0 -> fits (JStr s) (JStr s0)
| fits_array l l0 : Forall2 fits l l0 -> fits (JArr l) (JArr l0)
| fits_object l l0 : NoDup l.*1 -> (forall k v, (k, v) ∈ l -> exists v0, (k, v0) ∈ l0 /\ fits v v0) ->
    (forall k v0, (k, v0) ∈ l0 -> v0 = JNull \/ k ∈ l.*1) -> fits (JObj l) (JObj l0).
(** The one place where a member may be repeated is the table of signers, and
    the messages of the nexus module may have further members. *)
Definition plain_ms (m : ms_msg) : Prop := match m with MsRegisterSet _ => False | _ => True end.
Definition plain_nx (m : nx_msg) : Prop := match m with NxmFromNexus _ => False | _ => True end.
