(** Specification vocabulary for the storage layer: what it means that
    storage places are kept apart, that a program over the store behaves as
    over a finite map of places, and that a store holds exactly the state of
    a contract. *)
From Verif Require Import Base Text StdModel RouterTypes MultisigTypes RegistryTypes.
From Verif Require Import RouterModel RegistryModel MultisigModel EncodingModel StorageModel.

(** What a contract declares: items, and maps with the number of leading key
    parts. *)
Record layout := { l_items : list string; l_maps : list (string * nat) }.
Definition place (L : layout) (k : skey) : Prop :=
  match k with
  | SItem n => n ∈ l_items L
  | SEntry ns ps _ => (ns, length ps) ∈ l_maps L
  end.
Definition starts_nul (s : string) : bool :=
  match s with String c _ => N_of_ascii c =? 0 | EmptyString => true end.
(** Names are used once, item names start with a byte other than 0, map names
    have fewer than 255 bytes. *)
Definition proper (L : layout) : bool :=
  bool_decide (NoDup (l_items L)) && bool_decide (NoDup (l_maps L).*1)
  && forallb (fun n => negb (starts_nul n)) (l_items L)
  && forallb (fun x => slen x.1 <? 255) (l_maps L).

(** The leading parts of the key have at most 65535 bytes. *)
Definition fits (k : skey) : Prop :=
  match k with SItem _ => True | SEntry _ ps _ => Forall (fun p => slen p <= 65535) ps end.
Global Instance fits_dec k : Decision (fits k).
Proof. destruct k; apply _. Defined.

(** The entries under leading parts, by the last part of their key. *)
Definition entries {V} (t : gmap skey V) (ns : string) (ps : list string) : gmap string V :=
  list_to_map (omap (M:=list) (fun kv => match kv.1 with
                               | SEntry ns' ps' l => if decide (ns' = ns /\ ps' = ps) then Some (l, kv.2) else None
                               | SItem _ => None
                               end) (map_to_list t)).

(** The same program over a finite map of places: no bytes. *)
Fixpoint ideal {V E A} (p : prog V E A) (t : gmap skey V) : res E (gmap skey V * A) :=
  match p with
  | Ret a => Ok (t, a)
  | Fail e => Err e
  | Crash => Panic
  | Get k f => if decide (fits k) then ideal (f (t !! k)) t else Panic
  | Put k v p' => if decide (fits k) then ideal p' (<[k := v]> t) else Panic
  | Del k p' => if decide (fits k) then ideal p' (delete k t) else Panic
  | Scan ns ps f =>
      if decide (fits (SEntry ns ps EmptyString)) then ideal (f (btree_iter (entries t ns ps))) t else Panic
  end.

(** A program that uses only what is declared, and scans under parts of
    fewer than 65535 bytes. *)
Fixpoint keeps {V E A} (L : layout) (p : prog V E A) : Prop :=
  match p with
  | Ret _ | Fail _ | Crash => True
  | Get k f => place L k /\ forall o, keeps L (f o)
  | Put k _ p' | Del k p' => place L k /\ keeps L p'
  | Scan ns ps f =>
      (ns, length ps) ∈ l_maps L /\ Forall (fun p => slen p < 65535) ps /\ forall l, keeps L (f l)
  end.

(** The bytes hold exactly the map. *)
Definition stored {V} (L : layout) (m : gmap string V) (t : gmap skey V) : Prop :=
  (forall k, is_Some (t !! k) -> place L k /\ fits k) /\
  (forall x v, m !! x = Some v <-> exists k, path k = Some x /\ t !! k = Some v).

(** Same answer, and related states afterwards. *)
Definition agree {E A M S} (R : M -> S -> Prop) (r1 : res E (M * A)) (r2 : res E (S * A)) : Prop :=
  match r1, r2 with
  | Ok (m, a), Ok (s, b) => a = b /\ R m s
  | Err e, Err f => e = f
  | Panic, Panic => True
  | _, _ => False
  end.

(** ** The declarations of the contracts *)
Definition router_layout : layout := {| l_items := ["config"]; l_maps := [("chains", 0%nat); ("gateways", 1%nat)] |}.
Definition registry_layout : layout :=
  {| l_items := ["config"]; l_maps := [("services", 0%nat); ("workers_per_chain", 2%nat); ("workers", 1%nat)] |}.
Definition multisig_layout : layout :=
  {| l_items := ["config"; "signing_session_counter"];
     l_maps := [("signing_sessions", 0%nat); ("signatures", 1%nat); ("worker_sets", 0%nat);
                ("registered_pub_keys", 1%nat); ("authorized_callers", 0%nat)] |}.
Definition gateway_layout : layout := {| l_items := ["config"]; l_maps := [("outgoing_messages", 1%nat)] |}.
Definition nexus_layout : layout := {| l_items := ["config"]; l_maps := [("routed_message_ids", 1%nat)] |}.
Definition verifier_layout : layout :=
  {| l_items := ["config"; "poll_id"];
     l_maps := [("polls", 0%nat); ("poll_messages", 0%nat); ("poll_worker_sets", 0%nat)] |}.
Definition rewards_layout : layout :=
  {| l_items := ["params"; "config"];
     l_maps := [("tallies", 1%nat); ("events", 1%nat); ("pools", 0%nat); ("rewards_watermarks", 0%nat)] |}.
Definition prover_layout : layout :=
  {| l_items := ["config"; "reply_tracker"; "current_worker_set"; "next_worker_set"];
     l_maps := [("command_batch", 0%nat); ("multisig_session_batch", 0%nat)] |}.

(** What each contract stores, as a user would name it. *)
Inductive rt_entry := RtConfig | RtChain (name : string) | RtIndex (g : addr) (name : string).
Inductive sr_entry := SrConfig | SrService (svc : string) | SrDeclared (svc chain : string) (a : addr)
                    | SrWorker (svc : string) (a : addr).
Inductive ms_entry := MsConfig | MsCounter | MsSession (id : N) | MsSig (id : N) (a : addr) | MsSet (id : string)
                    | MsKey (a : addr) (t : key_type) | MsCaller (a : addr).
Inductive gw_entry := GwConfig | GwMessage (c : ccid).
Inductive nx_entry := NxConfig | NxRouted (c : ccid).
Inductive vv_entry := VvConfig | VvPollId | VvPoll (id : N) | VvMessage (h : string) | VvSet (h : string).
Inductive rw_entry := RwParams | RwConfig | RwTally (c : addr) (epoch : N) | RwEvent (ev : string) (c : addr)
                    | RwPool (c : addr) | RwWatermark (c : addr).
Inductive pr_entry := PrConfig | PrReply | PrCurrent | PrNext | PrBatch (id : string) | PrSession (id : N).

Definition rt_place (e : rt_entry) : skey :=
  match e with RtConfig => RT_CONFIG | RtChain n => rt_chain_key n | RtIndex g n => rt_index_key g n end.
Definition sr_place (e : sr_entry) : skey :=
  match e with
  | SrConfig => SR_CONFIG | SrService s => sr_service_key s | SrDeclared s c a => sr_chain_key s c a
  | SrWorker s a => sr_worker_key s a
  end.
Definition ms_place (e : ms_entry) : skey :=
  match e with
  | MsConfig => MS_CONFIG | MsCounter => MS_COUNTER | MsSession i => ms_session_key i
  | MsSig i a => ms_sig_key i a | MsSet i => ms_set_key i | MsKey a t => ms_pub_key a t
  | MsCaller a => ms_caller_key a
  end.
Definition gw_place (e : gw_entry) : skey :=
  match e with GwConfig => GW_CONFIG | GwMessage c => gw_message_key c end.
Definition nx_place (e : nx_entry) : skey :=
  match e with NxConfig => NX_CONFIG | NxRouted c => nx_routed_key c end.
Definition vv_place (e : vv_entry) : skey :=
  match e with
  | VvConfig => VV_CONFIG | VvPollId => VV_POLL_ID | VvPoll i => vv_poll_key i
  | VvMessage h => vv_message_key h | VvSet h => vv_set_key h
  end.
Definition rw_place (e : rw_entry) : skey :=
  match e with
  | RwParams => RW_PARAMS | RwConfig => RW_CONFIG | RwTally c n => rw_tally_key c n
  | RwEvent ev c => rw_event_key ev c | RwPool c => rw_pool_key c | RwWatermark c => rw_watermark_key c
  end.
Definition pr_place (e : pr_entry) : skey :=
  match e with
  | PrConfig => PR_CONFIG | PrReply => PR_REPLY | PrCurrent => PR_CURRENT | PrNext => PR_NEXT
  | PrBatch i => pr_batch_key i | PrSession i => pr_session_key i
  end.
(** numbers are u64 *)
Definition ms_ok (e : ms_entry) : Prop :=
  match e with MsSession i | MsSig i _ => i < 2 ^ 64 | _ => True end.
Definition vv_ok (e : vv_entry) : Prop := match e with VvPoll i => i < 2 ^ 64 | _ => True end.
Definition rw_ok (e : rw_entry) : Prop := match e with RwTally _ n => n < 2 ^ 64 | _ => True end.
Definition pr_ok (e : pr_entry) : Prop := match e with PrSession i => i < 2 ^ 64 | _ => True end.

(** No two entries share their bytes. *)
Definition apart {X} (ok : X -> Prop) (at_ : X -> skey) : Prop :=
  forall e1 e2 x, ok e1 -> ok e2 -> path (at_ e1) = Some x -> path (at_ e2) = Some x -> e1 = e2.

(** ** The states of the three contracts, byte for byte *)

Definition router_stored (m : gmap string rtval) (s : rtstate) : Prop :=
  forall x v, m !! x = Some v <->
    (x = "config" /\ v = RvConfig (rt_config s)) \/
    (exists name e, rt_chains s !! name = Some e /\
       ((path (rt_chain_key name) = Some x /\ v = RvChain e) \/
        (path (rt_index_key (ce_gateway e) name) = Some x /\ v = RvLen (slen name)))).
(** Chain names in calls are chain names, addresses are shorter than 65535
    bytes. *)
Definition router_call_ok (op : rtop) : Prop :=
  match op with
  | RegisterChain _ c g | UpgradeGateway _ c g => chain_name_of c = Some c /\ slen g < 65535
  | FreezeChain _ c _ | UnfreezeChain _ c _ => chain_name_of c = Some c
  | RouteMessages a _ => slen a < 65535
  end.

Definition registry_stored (m : gmap string srval) (s : srstate) : Prop :=
  forall x v, m !! x = Some v <->
    (x = "config" /\ v = SvConfig (sr_governance s)) \/
    (exists svc sv, sr_services s !! svc = Some sv /\ path (sr_service_key svc) = Some x /\ v = SvService sv) \/
    (exists svc chain ws a, sr_chains s !! (svc, chain) = Some ws /\ ws !! a = Some tt /\
       path (sr_chain_key svc chain a) = Some x /\ v = SvDeclared) \/
    (exists svc a w, sr_workers s !! (svc, a) = Some w /\ path (sr_worker_key svc a) = Some x /\ v = SvWorker w).
(** Service and chain names are shorter than 65535 bytes. *)
Definition registry_call_ok (op : srop) : Prop :=
  match op with
  | RegisterService _ _ => True
  | AuthorizeWorkers _ _ svc | UnauthorizeWorkers _ _ svc | BondWorker _ _ svc | UnbondWorker _ _ svc
  | ClaimStake _ _ svc => slen svc < 65535
  | DeclareChainSupport _ svc cs => slen svc < 65535 /\ Forall (fun c => slen c < 65535) cs
  end.

Definition multisig_stored (m : gmap string msval) (s : mstate) : Prop :=
  forall x v, m !! x = Some v <->
    (x = "config" /\ v = MvConfig (m_governance s) (m_rewards s) (m_grace s)) \/
    (x = "signing_session_counter" /\ v = MvCounter (m_counter s)) \/
    (exists id ss, m_sessions s !! id = Some ss /\ path (ms_session_key id) = Some x /\ v = MvSession ss) \/
    (exists id sigs a sg, m_sigs s !! id = Some sigs /\ sigs !! a = Some sg /\
       path (ms_sig_key id a) = Some x /\ v = MvSig sg) \/
    (exists id ws, m_sets s !! id = Some ws /\ path (ms_set_key id) = Some x /\ v = MvSet ws) \/
    (exists a t k, m_keys s !! (a, t) = Some k /\ path (ms_pub_key a t) = Some x /\ v = MvKey k) \/
    (exists a, a ∈ m_callers s /\ path (ms_caller_key a) = Some x /\ v = MvCaller).
(** Session numbers are u64, addresses that register keys are at most 65535 bytes. *)
Definition multisig_call_ok (op : mop) : Prop :=
  match op with
  | SubmitSignature _ _ id _ => id < 2 ^ 64
  | RegisterPublicKey a _ _ => slen a <= 65535
  | _ => True
  end.
