(** The values in the stores as texts: what serde writes for each stored type
    and reads back, and the programs of StorageModel and Storage2Model over
    stores whose keys and values are both bytes.

    Storage goes through [cosmwasm_std::to_vec] and [from_slice], that is
    serde-json-wasm, as messages do (WireModel). A [HashMap] is written in
    the order of its keys; the real order is arbitrary. *)
From Verif Require Import Base Text StdModel RouterTypes RegistryTypes OperatorsModel MultisigTypes.
From Verif Require Import EncodingModel VerifierModel RewardsModel RegistryModel RouterModel GatewayModel NexusModel MultisigModel ProverModel.
From Verif Require Import StorageModel Storage2Model EventsModel JsonModel WireModel.

(** ** Programs over texts *)

(** Reading a text that is no value of its type is a [ParseErr]. The callers
    pass it on, panic, or take a default; here it ends the call. C104 says
    that it never happens. *)
Inductive terr (E : Type) := Unreadable (k : skey) | TOwn (e : E).
Global Arguments Unreadable {E}.
Global Arguments TOwn {E}.
(** The name of the item or map decides the type. *)
Definition name_of (k : skey) : string := match k with SItem n => n | SEntry ns _ _ => ns end.

Section Texts.
  Context {V : Type} (enc : V -> jval) (dec : string -> jval -> option V).
  (** cw-storage-plus item.rs, path.rs: [save] writes [to_vec], [may_load]
      reads with [from_slice] *)
  Definition to_text (v : V) : string := to_json (enc v).
  Definition of_text (k : skey) (t : string) : option V := v ← of_wire t; dec (name_of k) v.
  Fixpoint of_texts (ns : string) (ps : list string) (l : list (string * string)) : list (string * V) + skey :=
    match l with
    | [] => inl []
    | (x, t) :: l' =>
        match of_text (SEntry ns ps x) t, of_texts ns ps l' with
        | Some v, inl r => inl ((x, v) :: r)
        | Some _, inr k => inr k
        | None, _ => inr (SEntry ns ps x)
        end
    end.
  Fixpoint in_texts {E A} (p : prog V E A) : prog string (terr E) A :=
    match p with
    | Ret a => Ret a
    | Fail e => Fail (TOwn e)
    | Crash => Crash
    | Get k f => Get k (fun o =>
        match o with
        | None => in_texts (f None)
        | Some t => match of_text k t with Some v => in_texts (f (Some v)) | None => Fail (Unreadable k) end
        end)
    | Put k v p' => Put k (to_text v) (in_texts p')
    | Del k p' => Del k (in_texts p')
    | Scan ns ps f => Scan ns ps (fun l =>
        match of_texts ns ps l with inl r => in_texts (f r) | inr k => Fail (Unreadable k) end)
    end.
End Texts.

(** [()] *)
Definition d_unit (v : jval) : option unit := match v with JNull => Some tt | _ => None end.
Definition is (s t : string) : bool := String.eqb s t.

(** ** The router *)

(** contracts/connection-router/src/state.rs:85-91 [Config], 366-376
    [Gateway], [ChainEndpoint]; the flags of a [FlagSet] are written as one
    number of eight bits *)
Definition e_rt_config (c : rtconfig) : jval :=
  JObj [("admin", JStr (rc_admin c)); ("governance", JStr (rc_governance c)); ("nexus_gateway", JStr (rc_nexus c))].
Definition d_rt_config : jval -> option rtconfig :=
  struct ["admin"; "governance"; "nexus_gateway"] (fun l =>
    fld l "admin" d_str (fun a => fld l "governance" d_str (fun g => fld l "nexus_gateway" d_str (fun n =>
      Some {| rc_admin := a; rc_governance := g; rc_nexus := n |})))).
Definition e_endpoint (e : endpoint) : jval :=
  JObj [("name", JStr (ce_name e)); ("gateway", JObj [("address", JStr (ce_gateway e))]);
        ("frozen_status", JNum (ce_frozen e))].
Definition d_gateway : jval -> option addr := struct ["address"] (fun l => fld l "address" d_str Some).
Definition d_endpoint : jval -> option endpoint :=
  struct ["name"; "gateway"; "frozen_status"] (fun l =>
    fld l "name" WireModel.d_chain (fun n => fld l "gateway" d_gateway (fun g => fld l "frozen_status" (d_num 256) (fun f =>
      Some {| ce_name := n; ce_gateway := g; ce_frozen := f |})))).
(** cw-storage-plus multi.rs: the value of an index entry is the length of
    the primary key, an [u32] *)
Definition e_rtval (v : rtval) : jval :=
  match v with RvConfig c => e_rt_config c | RvChain e => e_endpoint e | RvLen n => JNum n end.
Definition d_rtval (ns : string) (v : jval) : option rtval :=
  if is ns "config" then RvConfig <$> d_rt_config v
  else if is ns "chains" then RvChain <$> d_endpoint v
  else if is ns "gateways" then RvLen <$> d_num (2 ^ 32) v
  else None.
Definition router_text_step (m : gmap string string) (op : rtop) : res (terr (serr rterror)) (gmap string string * rtout) :=
  raw (in_texts e_rtval d_rtval (router_prog op)) m.
Definition router_text_init (c : rtconfig) : gmap string string := to_text e_rtval <$> router_bytes_init c.

(** ** The service registry *)

(** contracts/service-registry/src/state.rs:9-12 [Config], 20-38 [Service],
    [Worker], 60-74 [BondingState], 125-129 [AuthorizationState]: all but the
    first derived without [cw_serde], so with the names as they are and
    without refusing unknown fields *)
Definition e_service (s : service) : jval :=
  JObj [("name", JStr (sv_name s)); ("service_contract", JStr (sv_contract s)); ("min_num_workers", JNum (sv_min_workers s));
        ("max_num_workers", e_opt JNum (sv_max_workers s)); ("min_worker_bond", e_uint (sv_min_bond s));
        ("bond_denom", JStr (sv_denom s)); ("unbonding_period_days", JNum (sv_unbonding_days s));
        ("description", JStr (sv_description s))].
Definition d_service : jval -> option service :=
  struct_open ["name"; "service_contract"; "min_num_workers"; "max_num_workers"; "min_worker_bond"; "bond_denom";
               "unbonding_period_days"; "description"] (fun l =>
    fld l "name" d_str (fun n => fld l "service_contract" d_str (fun c =>
    fld l "min_num_workers" (d_num U16) (fun mn => fld_opt l "max_num_workers" (d_num U16) (fun mx =>
    fld l "min_worker_bond" (d_uint U128) (fun b => fld l "bond_denom" d_str (fun dn =>
    fld l "unbonding_period_days" (d_num U16) (fun ud => fld l "description" d_str (fun ds =>
      Some {| sv_name := n; sv_contract := c; sv_min_workers := mn; sv_max_workers := mx;
              sv_min_bond := b; sv_denom := dn; sv_unbonding_days := ud; sv_description := ds |}))))))))).
Definition e_bond (b : bonding_state) : jval :=
  match b with
  | Bonded n => tagged "Bonded" [("amount", e_uint n)]
  | RequestedUnbonding n => tagged "RequestedUnbonding" [("amount", e_uint n)]
  | Unbonding n t => tagged "Unbonding" [("amount", e_uint n); ("unbonded_at", e_uint t)]
  | Unbonded => JStr "Unbonded"
  end.
Definition d_bond (v : jval) : option bonding_state :=
  match v with
  | JStr s => if is s "Unbonded" then Some Unbonded else None
  | _ =>
      p ← variant v;
      if is p.1 "Bonded" then
        struct_open ["amount"] (fun l => fld l "amount" (d_uint U128) (fun n => Some (Bonded n))) p.2
      else if is p.1 "RequestedUnbonding" then
        struct_open ["amount"] (fun l => fld l "amount" (d_uint U128) (fun n => Some (RequestedUnbonding n))) p.2
      else if is p.1 "Unbonding" then
        struct_open ["amount"; "unbonded_at"] (fun l => fld l "amount" (d_uint U128) (fun n =>
          fld l "unbonded_at" (d_uint U64) (fun t => Some (Unbonding n t)))) p.2
      else None
  end.
Definition e_auth (a : auth_state) : jval := JStr match a with Authorized => "Authorized" | NotAuthorized => "NotAuthorized" end.
Definition d_auth (v : jval) : option auth_state :=
  s ← d_str v; if is s "Authorized" then Some Authorized else if is s "NotAuthorized" then Some NotAuthorized else None.
Definition e_worker (w : worker) : jval :=
  JObj [("address", JStr (w_addr w)); ("bonding_state", e_bond (w_bond w)); ("authorization_state", e_auth (w_auth w));
        ("service_name", JStr (w_service w))].
Definition d_worker : jval -> option worker :=
  struct_open ["address"; "bonding_state"; "authorization_state"; "service_name"] (fun l =>
    fld l "address" d_str (fun a => fld l "bonding_state" d_bond (fun b => fld l "authorization_state" d_auth (fun t =>
    fld l "service_name" d_str (fun s => Some {| w_addr := a; w_bond := b; w_auth := t; w_service := s |}))))).
Definition e_srval (v : srval) : jval :=
  match v with
  | SvConfig g => JObj [("governance", JStr g)] | SvService s => e_service s | SvDeclared => JNull | SvWorker w => e_worker w
  end.
Definition d_srval (ns : string) (v : jval) : option srval :=
  if is ns "config" then struct ["governance"] (fun l => fld l "governance" d_str (fun g => Some (SvConfig g))) v
  else if is ns "services" then SvService <$> d_service v
  else if is ns "workers_per_chain" then (fun _ => SvDeclared) <$> d_unit v
  else if is ns "workers" then SvWorker <$> d_worker v
  else None.
Definition registry_text_step (m : gmap string string) (op : srop) : res (terr (serr srerror)) (gmap string string * srout) :=
  raw (in_texts e_srval d_srval (registry_prog op)) m.
Definition registry_text_init (g : addr) : gmap string string := to_text e_srval <$> registry_bytes_init g.

(** ** The multisig contract *)

(** contracts/multisig/src/state.rs:14-19 [Config]; types.rs:27-33
    [MultisigState]; signing.rs:13-19 [SigningSession]; key.rs:16-22
    [Signature] *)
Definition e_ms_state (s : ms_state) : jval :=
  match s with MPending => JStr "pending" | MCompleted h => tagged "completed" [("completed_at", JNum h)] end.
Definition d_ms_state (v : jval) : option ms_state :=
  match v with
  | JStr s => if is s "pending" then Some MPending else None
  | _ =>
      p ← variant v;
      if is p.1 "completed" then struct ["completed_at"] (fun l => fld l "completed_at" (d_num U64) (fun h => Some (MCompleted h))) p.2
      else None
  end.
Definition e_session (s : session) : jval :=
  JObj [("id", e_uint (ss_id s)); ("worker_set_id", JStr (ss_wsid s)); ("msg", e_hex (ss_msg s)); ("state", e_ms_state (ss_state s))].
Definition d_session : jval -> option session :=
  struct ["id"; "worker_set_id"; "msg"; "state"] (fun l =>
    fld l "id" (d_uint U64) (fun i => fld l "worker_set_id" d_str (fun w => fld l "msg" d_hex (fun m =>
    fld l "state" d_ms_state (fun s => Some {| ss_id := i; ss_wsid := w; ss_msg := m; ss_state := s |}))))).
Definition e_signature (s : signature) : jval :=
  match s with
  | SigEcdsa b => JObj [("ecdsa", e_hex b)]
  | SigEcdsaRecoverable b => JObj [("ecdsa_recoverable", e_hex b)]
  | SigEd25519 b => JObj [("ed25519", e_hex b)]
  end.
Definition d_signature (v : jval) : option signature :=
  p ← variant v;
  b ← d_hex p.2;
  if is p.1 "ecdsa" then Some (SigEcdsa b)
  else if is p.1 "ecdsa_recoverable" then Some (SigEcdsaRecoverable b)
  else if is p.1 "ed25519" then Some (SigEd25519 b)
  else None.
Definition e_msval (v : msval) : jval :=
  match v with
  | MvConfig g r p => JObj [("governance", JStr g); ("rewards_contract", JStr r); ("grace_period", JNum p)]
  | MvCounter n => e_uint n | MvSession s => e_session s | MvSig s => e_signature s
  | MvSet w => e_worker_set w | MvKey k => e_hex k | MvCaller => JNull
  end.
Definition d_msval (ns : string) (v : jval) : option msval :=
  if is ns "config" then
    struct ["governance"; "rewards_contract"; "grace_period"] (fun l =>
      fld l "governance" d_str (fun g => fld l "rewards_contract" d_str (fun r => fld l "grace_period" (d_num U64) (fun p =>
        Some (MvConfig g r p))))) v
  else if is ns "signing_session_counter" then MvCounter <$> d_uint U64 v
  else if is ns "signing_sessions" then MvSession <$> d_session v
  else if is ns "signatures" then MvSig <$> d_signature v
  else if is ns "worker_sets" then MvSet <$> d_worker_set v
  else if is ns "registered_pub_keys" then MvKey <$> d_hex v
  else if is ns "authorized_callers" then (fun _ => MvCaller) <$> d_unit v
  else None.
Definition multisig_text_step (wsid : worker_set -> string) (crypto : key_type -> string -> string -> string -> option bool)
    (m : gmap string string) (op : mop) : res (terr (serr merror)) (gmap string string * mout) :=
  raw (in_texts e_msval d_msval (multisig_prog wsid crypto op)) m.
Definition multisig_text_init (governance rewards : addr) (grace : N) : gmap string string :=
  to_text e_msval <$> multisig_bytes_init governance rewards grace.

(** ** The gateway and the nexus gateway *)

(** contracts/gateway/src/state.rs:19-23; contracts/nexus-gateway/src/state.rs:61-65 *)
Definition e_gwval (v : gwval) : jval :=
  match v with
  | GvConfig c => JObj [("verifier", JStr (gc_verifier c)); ("router", JStr (gc_router c))]
  | GvMessage m => e_message m
  end.
Definition d_gwval (ns : string) (v : jval) : option gwval :=
  if is ns "config" then
    struct ["verifier"; "router"] (fun l => fld l "verifier" d_str (fun a => fld l "router" d_str (fun r =>
      Some (GvConfig {| gc_verifier := a; gc_router := r |})))) v
  else if is ns "outgoing_messages" then GvMessage <$> d_message v
  else None.
Definition gateway_text_step (m : gmap string string) (op : gwop) : res (terr (serr gwerror)) (gmap string string * gwout) :=
  raw (in_texts e_gwval d_gwval (gateway_prog op)) m.
Definition gateway_text_init (c : gwconfig) : gmap string string := to_text e_gwval <$> gateway_bytes_init c.

Definition e_nxval (v : nxval) : jval :=
  match v with
  | NvConfig c => JObj [("nexus", JStr (nc_nexus c)); ("router", JStr (nc_router c))]
  | NvRouted => JNull
  end.
Definition d_nxval (ns : string) (v : jval) : option nxval :=
  if is ns "config" then
    struct ["nexus"; "router"] (fun l => fld l "nexus" d_str (fun a => fld l "router" d_str (fun r =>
      Some (NvConfig {| nc_nexus := a; nc_router := r |})))) v
  else if is ns "routed_message_ids" then (fun _ => NvRouted) <$> d_unit v
  else None.
Definition nexus_text_step (m : gmap string string) (op : nxop) : res (terr (serr nxerror)) (gmap string string * nxout) :=
  raw (in_texts e_nxval d_nxval (nexus_prog op)) m.
Definition nexus_text_init (c : nxconfig) : gmap string string := to_text e_nxval <$> nexus_bytes_init c.

(** ** The rewards contract *)

(** contracts/rewards/src/state.rs:11-33 [Config], [StoredParams],
    [EpochTally], 89-94 [Event], 106-117 [Epoch], [RewardsPool] *)
Definition e_epoch (e : epoch) : jval := JObj [("epoch_num", JNum (e_num e)); ("block_height_started", JNum (e_start e))].
Definition d_epoch : jval -> option epoch :=
  struct ["epoch_num"; "block_height_started"] (fun l =>
    fld l "epoch_num" (d_num U64) (fun n => fld l "block_height_started" (d_num U64) (fun s =>
      Some {| e_num := n; e_start := s |}))).
Definition e_counts (m : gmap addr N) : jval := JObj ((fun p => (p.1, JNum p.2)) <$> btree_iter m).
Definition e_tally (t : tally) : jval :=
  JObj [("contract", JStr (ty_contract t)); ("event_count", JNum (ty_count t)); ("participation", e_counts (ty_part t));
        ("epoch", e_epoch (ty_epoch t)); ("params", e_params (ty_params t))].
Definition d_tally : jval -> option tally :=
  struct ["contract"; "event_count"; "participation"; "epoch"; "params"] (fun l =>
    fld l "contract" d_str (fun c => fld l "event_count" (d_num U64) (fun n => fld l "participation" (d_map (d_num U64)) (fun m =>
    fld l "epoch" d_epoch (fun e => fld l "params" d_params (fun p =>
      Some {| ty_contract := c; ty_count := n; ty_part := m; ty_epoch := e; ty_params := p |})))))).
Definition e_rwval (v : rwval) : jval :=
  match v with
  | WvConfig g d => JObj [("governance", JStr g); ("rewards_denom", JStr d)]
  | WvParams p u => JObj [("params", e_params p); ("last_updated", e_epoch u)]
  | WvTally t => e_tally t
  | WvEvent id c n => JObj [("event_id", JStr id); ("contract", JStr c); ("epoch_num", JNum n)]
  | WvPool c n => JObj [("contract", JStr c); ("balance", e_uint n)]
  | WvMark n => JNum n
  end.
Definition d_rwval (ns : string) (v : jval) : option rwval :=
  if is ns "config" then
    struct ["governance"; "rewards_denom"] (fun l => fld l "governance" d_str (fun g => fld l "rewards_denom" d_str (fun d =>
      Some (WvConfig g d)))) v
  else if is ns "params" then
    struct ["params"; "last_updated"] (fun l => fld l "params" d_params (fun p => fld l "last_updated" d_epoch (fun u =>
      Some (WvParams p u)))) v
  else if is ns "tallies" then WvTally <$> d_tally v
  else if is ns "events" then
    struct ["event_id"; "contract"; "epoch_num"] (fun l => fld l "event_id" d_nonempty (fun i => fld l "contract" d_str (fun c =>
      fld l "epoch_num" (d_num U64) (fun n => Some (WvEvent i c n))))) v
  else if is ns "pools" then
    struct ["contract"; "balance"] (fun l => fld l "contract" d_str (fun c => fld l "balance" (d_uint U128) (fun n =>
      Some (WvPool c n)))) v
  else if is ns "rewards_watermarks" then WvMark <$> d_num U64 v
  else None.
Definition rewards_text_step (m : gmap string string) (op : rop) : res (terr (serr rerror)) (gmap string string * list (addr * N)) :=
  raw (in_texts e_rwval d_rwval (rewards_prog op)) m.
Definition rewards_text_init (g : addr) (denom : string) (p : rparams) (height : N) : gmap string string :=
  to_text e_rwval <$> rewards_bytes_init g denom p height.

(** ** The voting verifier *)

(** contracts/voting-verifier/src/state.rs:17-33 [Config], [Poll], 48-53
    [PollContent]; packages/axelar-wasm-std/src/voting.rs:146-158 [Tallies]
    (a map from the printed vote), 197-218 [PollStatus], [Participation],
    [WeightedPoll]. A name in the tallies that is no vote is refused here;
    the code stops when it meets it in [consensus]. *)
Definition vote_name (v : vote) : string :=
  match v with SucceededOnChain => "SucceededOnChain" | FailedOnChain => "FailedOnChain" | NotFound => "NotFound" end.
Definition vote_of_name (s : string) : option vote :=
  if is s "SucceededOnChain" then Some SucceededOnChain
  else if is s "FailedOnChain" then Some FailedOnChain
  else if is s "NotFound" then Some NotFound else None.
Definition e_tallies (t : tallies) : jval := JObj ((fun p => (vote_name p.1, e_uint p.2)) <$> t).
Fixpoint named_votes (l : list (string * N)) : option tallies :=
  match l with
  | [] => Some []
  | (s, n) :: l' => v ← vote_of_name s; r ← named_votes l'; Some ((v, n) :: r)
  end.
Definition d_tallies (v : jval) : option tallies := m ← d_map (d_uint U256) v; named_votes (btree_iter m).
Definition e_status (s : poll_status) : jval := JStr match s with InProgress => "in_progress" | Finished => "finished" end.
Definition d_status (v : jval) : option poll_status :=
  s ← d_str v; if is s "in_progress" then Some InProgress else if is s "finished" then Some Finished else None.
Definition e_participation (p : participation) : jval :=
  JObj [("weight", e_uint (pt_weight p)); ("vote", e_opt (e_list e_vote) (pt_vote p))].
Definition d_participation : jval -> option participation :=
  struct ["weight"; "vote"] (fun l => fld l "weight" (d_uint U256) (fun w => fld_opt l "vote" (d_vec d_vote) (fun v =>
    Some {| pt_weight := w; pt_vote := v |}))).
Definition e_poll (p : poll) : jval :=
  JObj [("poll_id", e_uint (poll_id p)); ("quorum", e_uint (poll_quorum p)); ("expires_at", JNum (poll_expires_at p));
        ("poll_size", JNum (poll_size p)); ("tallies", e_list e_tallies (poll_tallies p)); ("status", e_status (poll_status_ p));
        ("participation", JObj ((fun x => (x.1, e_participation x.2)) <$> btree_iter (poll_participation p)))].
Definition d_poll : jval -> option poll :=
  struct ["poll_id"; "quorum"; "expires_at"; "poll_size"; "tallies"; "status"; "participation"] (fun l =>
    fld l "poll_id" (d_uint U64) (fun i => fld l "quorum" (d_uint U256) (fun q => fld l "expires_at" (d_num U64) (fun x =>
    fld l "poll_size" (d_num U64) (fun n => fld l "tallies" (d_vec d_tallies) (fun t => fld l "status" d_status (fun s =>
    fld l "participation" (d_map d_participation) (fun m =>
      Some {| poll_id := i; poll_quorum := q; poll_expires_at := x; poll_size := n; poll_tallies := t;
              poll_status_ := s; poll_participation := m |})))))))).
Definition e_vpoll (p : vpoll) : jval :=
  match p with MessagesPoll p => JObj [("messages", e_poll p)] | WorkerSetPoll p => JObj [("confirm_worker_set", e_poll p)] end.
Definition d_vpoll (v : jval) : option vpoll :=
  p ← variant v;
  if is p.1 "messages" then MessagesPoll <$> d_poll p.2
  else if is p.1 "confirm_worker_set" then WorkerSetPoll <$> d_poll p.2
  else None.
Definition e_content {T} (e : T -> jval) (c : poll_content T) : jval :=
  JObj [("content", e (c_content c)); ("poll_id", e_uint (c_poll c)); ("index_in_poll", JNum (c_index c))].
Definition d_content {T} (d : jval -> option T) : jval -> option (poll_content T) :=
  struct ["content"; "poll_id"; "index_in_poll"] (fun l =>
    fld l "content" d (fun c => fld l "poll_id" (d_uint U64) (fun i => fld l "index_in_poll" (d_num (2 ^ 32)) (fun n =>
      Some (Build_poll_content c i n))))).
Definition e_vconfig (c : vconfig) : jval :=
  JObj [("service_registry_contract", JStr (vc_registry c)); ("service_name", JStr (vc_service c));
        ("source_gateway_address", JStr (vc_gateway c)); ("voting_threshold", e_threshold (vc_threshold c));
        ("block_expiry", JNum (vc_expiry c)); ("confirmation_height", JNum (vc_confirmations c));
        ("source_chain", JStr (vc_chain c)); ("rewards_contract", JStr (vc_rewards c))].
Definition d_vconfig : jval -> option vconfig :=
  struct ["service_registry_contract"; "service_name"; "source_gateway_address"; "voting_threshold"; "block_expiry";
          "confirmation_height"; "source_chain"; "rewards_contract"] (fun l =>
    fld l "service_registry_contract" d_str (fun r => fld l "service_name" d_nonempty (fun s =>
    fld l "source_gateway_address" d_nonempty (fun g => fld l "voting_threshold" d_majority (fun t =>
    fld l "block_expiry" (d_num U64) (fun x => fld l "confirmation_height" (d_num U64) (fun h =>
    fld l "source_chain" WireModel.d_chain (fun c => fld l "rewards_contract" d_str (fun w =>
      Some {| vc_registry := r; vc_service := s; vc_gateway := g; vc_threshold := t; vc_expiry := x;
              vc_confirmations := h; vc_chain := c; vc_rewards := w |}))))))))).
Definition e_vvval (v : vvval) : jval :=
  match v with
  | VcConfig c => e_vconfig c | VcPollId n => e_uint n | VcPoll p => e_vpoll p
  | VcMessage c => e_content e_message c | VcSet c => e_content e_operators c
  end.
Definition d_vvval (ns : string) (v : jval) : option vvval :=
  if is ns "config" then VcConfig <$> d_vconfig v
  else if is ns "poll_id" then VcPollId <$> d_uint U64 v
  else if is ns "polls" then VcPoll <$> d_vpoll v
  else if is ns "poll_messages" then VcMessage <$> d_content d_message v
  else if is ns "poll_worker_sets" then VcSet <$> d_content d_operators v
  else None.
Definition verifier_text_step (keccak : string -> string) (m : gmap string string) (op : vop)
    : res (terr (serr verror)) (gmap string string * vout) :=
  raw (in_texts e_vvval d_vvval (verifier_prog keccak op)) m.
Definition verifier_text_init (c : vconfig) : gmap string string := to_text e_vvval <$> verifier_bytes_init c.

(** ** The prover *)

(** contracts/multisig-prover/src/state.rs:11-26 [Config]; types.rs:17-37
    [CommandType], [Command], [BatchId], 86-92 [CommandBatch];
    encoding/mod.rs:17-22 [Encoder], 129-133 [Data]. The administrator, which
    the model of the prover leaves out of the configuration, is given. *)
Definition e_encoder (e : encoder) : jval := JStr match e with Abi => "abi" | Bcs => "bcs" end.
Definition d_encoder (v : jval) : option encoder :=
  s ← d_str v; if is s "abi" then Some Abi else if is s "bcs" then Some Bcs else None.
Definition e_command_type (t : command_type) : jval :=
  JStr match t with ApproveContractCall => "approve_contract_call" | TransferOperatorship => "transfer_operatorship" end.
Definition d_command_type (v : jval) : option command_type :=
  s ← d_str v;
  if is s "approve_contract_call" then Some ApproveContractCall
  else if is s "transfer_operatorship" then Some TransferOperatorship else None.
Definition e_command (c : command) : jval :=
  JObj [("id", e_hex (c_id c)); ("ty", e_command_type (c_ty c)); ("params", e_hex (c_params c))].
Definition d_command : jval -> option command :=
  struct ["id"; "ty"; "params"] (fun l => fld l "id" d_hex (fun i => fld l "ty" d_command_type (fun t =>
    fld l "params" d_hex (fun p => Some {| c_id := i; c_ty := t; c_params := p |})))).
Definition e_data (d : data) : jval :=
  JObj [("destination_chain_id", e_uint (EncodingModel.d_chain d)); ("commands", e_list e_command (d_commands d))].
Definition d_data : jval -> option data :=
  struct ["destination_chain_id"; "commands"] (fun l =>
    fld l "destination_chain_id" (d_uint U256) (fun c => fld l "commands" (d_vec d_command) (fun cs =>
      Some {| EncodingModel.d_chain := c; d_commands := cs |}))).
Definition e_batch (b : batch) : jval :=
  JObj [("id", e_hex (b_id b)); ("message_ids", e_list e_ccid (b_ids b)); ("data", e_data (b_data b));
        ("encoder", e_encoder (b_encoder b))].
Definition d_batch : jval -> option batch :=
  struct ["id"; "message_ids"; "data"; "encoder"] (fun l =>
    fld l "id" d_hex (fun i => fld l "message_ids" (d_vec d_ccid) (fun ms => fld l "data" d_data (fun d =>
    fld l "encoder" d_encoder (fun e => Some {| b_id := i; b_ids := ms; b_data := d; b_encoder := e |}))))).
Definition e_pconfig (admin : addr) (c : pconfig) : jval :=
  JObj [("admin", JStr admin); ("gateway", JStr (pc_gateway c)); ("multisig", JStr (pc_multisig c));
        ("service_registry", JStr (pc_registry c)); ("voting_verifier", JStr (pc_verifier c));
        ("destination_chain_id", e_uint (pc_chain_id c)); ("signing_threshold", e_threshold (pc_threshold c));
        ("service_name", JStr (pc_service c)); ("chain_name", JStr (pc_chain c));
        ("worker_set_diff_threshold", JNum (pc_diff c)); ("encoder", e_encoder (pc_encoder c));
        ("key_type", e_key_type (pc_key_type c))].
Definition d_pconfig : jval -> option pconfig :=
  struct ["admin"; "gateway"; "multisig"; "service_registry"; "voting_verifier"; "destination_chain_id"; "signing_threshold";
          "service_name"; "chain_name"; "worker_set_diff_threshold"; "encoder"; "key_type"] (fun l =>
    fld l "admin" d_str (fun _ => fld l "gateway" d_str (fun g => fld l "multisig" d_str (fun m =>
    fld l "service_registry" d_str (fun r => fld l "voting_verifier" d_str (fun v =>
    fld l "destination_chain_id" (d_uint U256) (fun i => fld l "signing_threshold" d_majority (fun t =>
    fld l "service_name" d_str (fun s => fld l "chain_name" WireModel.d_chain (fun c =>
    fld l "worker_set_diff_threshold" (d_num (2 ^ 32)) (fun n => fld l "encoder" d_encoder (fun e =>
    fld l "key_type" d_key_type (fun k =>
      Some {| pc_gateway := g; pc_multisig := m; pc_registry := r; pc_verifier := v; pc_chain_id := i; pc_threshold := t;
              pc_service := s; pc_chain := c; pc_diff := n; pc_encoder := e; pc_key_type := k |}))))))))))))).
Definition e_prval (admin : addr) (v : prval) : jval :=
  match v with
  | QvConfig c => e_pconfig admin c | QvReply b => e_hex b | QvSet w => e_worker_set w | QvBatch b => e_batch b
  | QvSession b => e_hex b
  end.
Definition d_prval (ns : string) (v : jval) : option prval :=
  if is ns "config" then QvConfig <$> d_pconfig v
  else if is ns "reply_tracker" then QvReply <$> d_hex v
  else if is ns "current_worker_set" then QvSet <$> d_worker_set v
  else if is ns "next_worker_set" then QvSet <$> d_worker_set v
  else if is ns "command_batch" then QvBatch <$> d_batch v
  else if is ns "multisig_session_batch" then QvSession <$> d_hex v
  else None.
Definition prover_text_step (admin : addr) (keccak : string -> string) (wshash : worker_set -> string)
    (sec1 : string -> option string) (m : gmap string string) (op : pop)
    : res (terr (serr perror)) (gmap string string * pout) :=
  raw (in_texts (e_prval admin) d_prval (prover_prog keccak wshash sec1 op)) m.
Definition prover_text_init (admin : addr) (c : pconfig) : gmap string string := to_text (e_prval admin) <$> prover_bytes_init c.
