(** What the theorems about questions and answers are stated with. *)
From Verif Require Import Base Text StdModel RouterTypes RegistryTypes OperatorsModel MultisigTypes
  RouterModel GatewayModel NexusModel RewardsModel RegistryModel VerifierModel MultisigModel EncodingModel ProverModel
  SystemModel EventsModel JsonModel WireModel WireSpec WireSpec2 WireSystemModel WireSystemSpec
  StorageModel Storage2Model Storage3Spec2 QueryModel.

(** ** The texts, letter by letter *)
Definition t_question (q : question) : string :=
  match q with
  | QChainInfo c => fill "{'get_chain_info':%}" [qt c]
  | QMessages ids => fill "{'get_messages':{'message_ids':[%]}}" [commas (t_id <$> ids)]
  | QPoll id => fill "{'get_poll':{'poll_id':'%'}}" [dec id]
  | QVerified ms => fill "{'is_verified':{'messages':%}}" [t_messages ms]
  | QSetVerified o => fill "{'is_worker_set_verified':{'new_operators':%}}" [t_operators o]
  | QMultisig id => fill "{'get_multisig':{'session_id':'%'}}" [dec id]
  | QSet id => fill "{'get_worker_set':{'worker_set_id':%}}" [qt id]
  | QKey w KEcdsa => fill "{'get_public_key':{'worker_address':%,'key_type':'ecdsa'}}" [qt w]
  | QKey w KEd25519 => fill "{'get_public_key':{'worker_address':%,'key_type':'ed25519'}}" [qt w]
  | QProof id => fill "{'get_proof':{'multisig_session_id':'%'}}" [dec id]
  | QCurrentSet => fill "'get_worker_set'" []
  | QActive s c => fill "{'get_active_workers':{'service_name':%,'chain_name':%}}" [qt s; qt c]
  | QService s => fill "{'get_service':{'service_name':%}}" [qt s]
  | QWorker s w => fill "{'get_worker':{'service_name':%,'worker':%}}" [qt s; qt w]
  end.
Definition t_status (p : ccid * bool) : string := fill "[%,%]" [t_id p.1; if p.2 then "true" else "false"].
Definition t_signed (p : signer * option signature) : string :=
  fill "[{'address':%,'weight':'%','pub_key':%},%]"
    [qt (sg_addr p.1); dec (sg_weight p.1); t_key (sg_key p.1); t_option ((fun s => k_multisig (MvSig s)) <$> p.2)].
Definition t_answer (a : answer) : string :=
  match a with
  | AChainInfo e => s_router (RvChain e)
  | AMessages ms => t_messages ms
  | AVerified l => fill "[%]" [commas (t_status <$> l)]
  | ASetVerified b => if b then "true" else "false"
  | AMultisig m =>
      fill "{'state':%,'quorum':'%','signers':[%]}" [s_state (mu_state m); dec (mu_quorum m); commas (t_signed <$> mu_signers m)]
  | ASet w => t_set w
  | AKey k => t_key k
  | AProof p =>
      fill "{'multisig_session_id':'%','message_ids':[%],'data':{'destination_chain_id':'%','commands':[%]},'status':%}"
        [dec (pr_session p); commas (t_id <$> pr_ids p); dec (EncodingModel.d_chain (pr_data p));
         commas (s_command <$> d_commands (pr_data p));
         match pr_status p with
         | PfPending => fill "'pending'" []
         | PfCompleted d => fill "{'completed':{'execute_data':'%'}}" [to_hex d]
         end]
  | AWorkers l => fill "[%]" [commas ((fun w => s_registry (SvWorker w)) <$> l)]
  | AService s => s_registry (SvService s)
  | AWorker w => s_registry (SvWorker w)
  end.

(** ** Values of their types *)
Definition proper_question (q : question) : Prop :=
  match q with
  | QChainInfo c | QActive _ c => proper_chain c
  | QMessages ids => Forall proper_id ids
  | QVerified ms => Forall proper_message ms
  | QSetVerified o => proper_operators o
  | QPoll id | QMultisig id | QProof id => id < 2 ^ 64
  | _ => True
  end.
(** What configurations, blocks and coins are by their types: chain names,
    256-bit chain ids, 64-bit heights and times, 128-bit amounts. *)
Definition typed_deployment (d : gmap addr deployed) : Prop :=
  forall a c, d !! a = Some c ->
    match c with
    | DProver c => proper_chain (pc_chain c) /\ pc_chain_id c < 2 ^ 256
    | DVerifier c => proper_chain (vc_chain c)
    | _ => True
    end.
Definition typed_funds (m : wsub) : Prop := Forall (fun c => c.2 < 2 ^ 128) (wb_funds m).
Definition typed_env (e : qenv) : Prop :=
  qn_height e < 2 ^ 64 /\ qn_time e < 2 ^ 64 /\
  forall n subs data, qn_other e n = Some (subs, data) -> Forall typed_funds subs.
Definition typed_tx (t : qtx) : Prop := typed_env (qx_env t) /\ typed_funds (qx_sub t).

(** ** The same history with questions for texts *)

(** What other contracts answer, put as questions and answers. *)
Definition read_answers (e : qenv) : wenv :=
  {| we_env :=
       {| en_height := qn_height e; en_time := qn_time e; en_other := fun _ => None;
          en_is_verified := fun n => tq_is_verified (qn_answer e n);
          en_set_verified := fun n => tq_set_verified (qn_answer e n);
          en_messages := fun n => tq_messages (qn_answer e n);
          en_active := fun n => tq_active (qn_answer e n);
          en_key := fun n => tq_key (qn_answer e n) |};
     we_other := qn_other e |}.
Definition read_qcall (k : qcall) : wcall :=
  {| wk_chain := qk_chain k; wk_env := read_answers (qk_env k); wk_index := qk_index k; wk_sender := qk_sender k;
     wk_sub := qk_sub k |}.
Definition read_qtx (t : qtx) : wtx :=
  {| wx_gas := qx_gas t; wx_env := read_answers (qx_env t); wx_sender := qx_sender t; wx_sub := qx_sub t |}.
Definition read_qentry (r : qtx * list qcall) : wtx * list wcall := (read_qtx r.1, read_qcall <$> r.2).

(** ** Answers without texts *)

(** What the contract at [a] answers to a question, no texts read or written:
    the functions of its model. A contract that has no such question does not
    answer. *)
Section Plain.
  Context (keccak : string -> string) (sec1 : string -> option string)
          (recover : string -> string -> string -> option N).
  Definition session_at (oth : querier) (st : chain) (a : addr) (id : N) : option multisig :=
    match st !! a with
    | Some (CMultisig s) => ask (get_multisig s id)
    | Some _ => None
    | None => match asked oth a (QMultisig id) with Some (AMultisig m) => Some m | _ => None end
    end.
  Definition plain_answer (oth : querier) (st : chain) (a : addr) (q : question) : option answer :=
    match st !! a, q with
    | Some (CRouter s), QChainInfo n => AChainInfo <$> rt_chains s !! n
    | Some (CGateway s), QMessages ids => AMessages <$> ask (GatewayModel.get_messages s ids)
    | Some (CVerifier s), QVerified ms => AVerified <$> ask (is_verified keccak s ms)
    | Some (CVerifier s), QSetVerified o => ASetVerified <$> ask (is_worker_set_verified keccak s o)
    | Some (CMultisig s), QMultisig id => AMultisig <$> ask (get_multisig s id)
    | Some (CMultisig s), QSet id => ASet <$> m_sets s !! id
    | Some (CMultisig s), QKey w t => AKey <$> ask (get_public_key s w t)
    | Some (CProver c s), QProof id =>
        AProof <$> ask (get_proof keccak sec1 recover c s (session_at oth st (pc_multisig c)) id)
    | Some (CProver c s), QCurrentSet => ASet <$> pv_current s
    | Some (CRegistry s), QActive svc ch => AWorkers <$> ask (get_active_workers s svc ch)
    | Some (CRegistry s), QService svc => AService <$> sr_services s !! svc
    | Some (CRegistry s), QWorker svc w => AWorker <$> sr_workers s !! (w, svc)
    | _, _ => None
    end.
End Plain.
