(** Model of how the contracts keep their data in the key-value store of the
    chain: cw-storage-plus 1.1.0 ([Item], [Map], [Prefix], [MultiIndex],
    [IndexedMap]; an external crate, the parts used are modelled from its
    definitions), the storage declarations and key types of the contracts,
    and the router, the service registry and the multisig contract written
    down to single storage accesses.

    Left out here: the JSON form of values (a value is kept as it is; the key
    decides its type), which Storage3Model adds. Left out: the limits of the host on the length of keys and
    values, and that texts in keys are UTF-8. *)
From Verif Require Import Base Text StdModel RouterTypes MultisigTypes RegistryTypes.
From Verif Require Import RouterModel RegistryModel MultisigModel EncodingModel.

(** ** Keys *)

(** Storage places: an [Item] under its name, or an entry of a [Map] (its
    namespace, the leading parts of the key, the last part of the key). *)
Inductive skey := SItem (name : string) | SEntry (ns : string) (parts : list string) (last : string).
Global Instance skey_eq_dec : EqDecision skey.
Proof. solve_decision. Defined.
Global Instance skey_countable : Countable skey.
Proof.
  refine (inj_countable'
    (fun k => match k with SItem n => inl n | SEntry ns ps l => inr (ns, ps, l) end)
    (fun x => match x with inl n => SItem n | inr (ns, ps, l) => SEntry ns ps l end) _).
  by intros [].
Defined.

(** helpers.rs [encode_length]: two bytes, big endian; more than 0xFFFF
    panics ([None]) *)
Definition MAX_PART : N := 65535.
Definition with_length (s : string) : option string :=
  if slen s <=? MAX_PART then Some (be_bytes 2 (slen s) +:+ s) else None.
Fixpoint with_lengths (l : list string) : option string :=
  match l with
  | [] => Some EmptyString
  | s :: l' => match with_length s, with_lengths l' with
               | Some a, Some b => Some (a +:+ b)
               | _, _ => None
               end
  end.
(** helpers.rs [nested_namespaces_with_key], path.rs [Path::new]; item.rs
    [Item::as_slice] *)
Definition path (k : skey) : option string :=
  match k with
  | SItem n => Some n
  | SEntry ns ps l => match with_lengths (ns :: ps) with Some p => Some (p +:+ l) | None => None end
  end.

(** ** Ranges *)

(** prefix.rs / iter_helpers.rs [namespace_upper_bound]: the last byte that
    is not 255 is incremented and the 255s after it become 0 *)
Fixpoint bump (s : string) : bool * string :=
  match s with
  | EmptyString => (true, EmptyString)
  | String c s' =>
      let '(carry, r) := bump s' in
      if carry : bool then
        if N_of_ascii c =? 255 then (true, String (ascii_of_N 0) r)
        else (false, String (ascii_of_N (N_of_ascii c + 1)) r)
      else (false, String c r)
  end.
Definition upper_bound (s : string) : string := (bump s).2.

(** [Storage::range]: the entries with lower <= key < upper, ascending *)
Definition store_range {V} (m : gmap string V) (lo hi : string) : list (string * V) :=
  filter (fun kv => String.leb lo kv.1 = true /\ String.ltb kv.1 hi = true) (btree_iter m).

(** prefix.rs [range_with_prefix] without bounds: the keys lose the prefix
    ([trim]), which panics for a shorter key *)
Definition prefix_range {V E} (m : gmap string V) (p : string) : res E (list (string * V)) :=
  try_map (fun kv => if slen kv.1 <? slen p then Panic else Ok (sdrop (String.length p) kv.1, kv.2))
    (store_range m p (upper_bound p)).

(** ** Programs over the store *)

(** What a contract does with its store. [Fail] is an error of the contract,
    [Crash] a panic. *)
Inductive prog (V E A : Type) : Type :=
| Ret (a : A)
| Fail (e : E)
| Crash
| Get (k : skey) (f : option V -> prog V E A)
| Put (k : skey) (v : V) (p : prog V E A)
| Del (k : skey) (p : prog V E A)
| Scan (ns : string) (parts : list string) (f : list (string * V) -> prog V E A).
Global Arguments Ret {V E A}.
Global Arguments Fail {V E A}.
Global Arguments Crash {V E A}.
Global Arguments Get {V E A}.
Global Arguments Put {V E A}.
Global Arguments Del {V E A}.
Global Arguments Scan {V E A}.

Fixpoint pbind {V E A B} (p : prog V E A) (g : A -> prog V E B) : prog V E B :=
  match p with
  | Ret a => g a
  | Fail e => Fail e
  | Crash => Crash
  | Get k f => Get k (fun o => pbind (f o) g)
  | Put k v p' => Put k v (pbind p' g)
  | Del k p' => Del k (pbind p' g)
  | Scan ns ps f => Scan ns ps (fun l => pbind (f l) g)
  end.
Notation "'let!' x := r 'in' k" := (pbind r (fun x => k))
  (at level 200, x pattern, r at level 100, k at level 200, right associativity).
(** a computation that does not touch the store *)
Definition lift {V E A} (r : res E A) : prog V E A :=
  match r with Ok a => Ret a | Err e => Fail e | Panic => Crash end.
Fixpoint for_each {V E A} (f : A -> prog V E unit) (l : list A) : prog V E unit :=
  match l with
  | [] => Ret tt
  | a :: l' => let! _ := f a in for_each f l'
  end.
Fixpoint collect {V E A B} (f : A -> prog V E B) (l : list A) : prog V E (list B) :=
  match l with
  | [] => Ret []
  | a :: l' => let! b := f a in let! bs := collect f l' in Ret (b :: bs)
  end.

(** Running a program on the bytes. *)
Fixpoint raw {V E A} (p : prog V E A) (m : gmap string V) : res E (gmap string V * A) :=
  match p with
  | Ret a => Ok (m, a)
  | Fail e => Err e
  | Crash => Panic
  | Get k f => match path k with Some x => raw (f (m !! x)) m | None => Panic end
  | Put k v p' => match path k with Some x => raw p' (<[x := v]> m) | None => Panic end
  | Del k p' => match path k with Some x => raw p' (delete x m) | None => Panic end
  | Scan ns ps f =>
      match with_lengths (ns :: ps) with
      | Some x => let? l := prefix_range m x in raw (f l) m
      | None => Panic
      end
  end.

(** Errors of a contract, or of reading its store ([StdError]). *)
Inductive serr (E : Type) := SStd | SOwn (e : E).
Global Arguments SStd {E}.
Global Arguments SOwn {E}.
Definition own {V E A} (r : res E A) : prog V (serr E) A := lift (map_err SOwn r).

(** ** The keys of the contracts *)

(** [u64]: eight bytes, big endian (int_key.rs) *)
Definition u64_key (n : N) : string := be_bytes 8 n.
(** contracts/multisig/src/key.rs:182-195: one byte, the number of the
    variant (key.rs:11-14) *)
Definition key_type_key (t : key_type) : string :=
  String (ascii_of_N (match t with KEcdsa => 0 | KEd25519 => 1 end)) EmptyString.

(** contracts/connection-router/src/state.rs:93, 138-152 *)
Definition RT_CONFIG : skey := SItem "config".
Definition rt_chain_key (name : string) : skey := SEntry "chains" [] name.
(** multi.rs [MultiIndex::save]: the index value with its length, then the
    primary key *)
Definition rt_index_key (g : addr) (name : string) : skey := SEntry "gateways" [g] name.

(** contracts/service-registry/src/state.rs:14, 131-136 *)
Definition SR_CONFIG : skey := SItem "config".
Definition sr_service_key (svc : string) : skey := SEntry "services" [] svc.
Definition sr_chain_key (svc chain : string) (a : addr) : skey := SEntry "workers_per_chain" [svc; chain] a.
Definition sr_worker_key (svc : string) (a : addr) : skey := SEntry "workers" [svc] a.

(** contracts/multisig/src/state.rs:21-26, 59-60, 72-76 *)
Definition MS_CONFIG : skey := SItem "config".
Definition MS_COUNTER : skey := SItem "signing_session_counter".
Definition ms_session_key (id : N) : skey := SEntry "signing_sessions" [] (u64_key id).
Definition ms_sig_key (id : N) (a : addr) : skey := SEntry "signatures" [u64_key id] a.
Definition ms_set_key (id : string) : skey := SEntry "worker_sets" [] id.
Definition ms_pub_key (a : addr) (t : key_type) : skey := SEntry "registered_pub_keys" [a] (key_type_key t).
Definition ms_caller_key (a : addr) : skey := SEntry "authorized_callers" [] a.

(** contracts/gateway/src/state.rs:25-26; contracts/nexus-gateway/src/state.rs:10-11;
    the key of a [CrossChainId] is contracts/connection-router/src/state.rs:252-263 *)
Definition ccid_parts (c : ccid) : list string * string := ([cc_chain c], cc_id c).
Definition GW_CONFIG : skey := SItem "config".
Definition gw_message_key (c : ccid) : skey := SEntry "outgoing_messages" (ccid_parts c).1 (ccid_parts c).2.
Definition NX_CONFIG : skey := SItem "config".
Definition nx_routed_key (c : ccid) : skey := SEntry "routed_message_ids" (ccid_parts c).1 (ccid_parts c).2.

(** contracts/voting-verifier/src/state.rs:75-83; the key of a [PollId] is
    packages/axelar-wasm-std/src/voting.rs:109-118 *)
Definition VV_CONFIG : skey := SItem "config".
Definition VV_POLL_ID : skey := SItem "poll_id".
Definition vv_poll_key (id : N) : skey := SEntry "polls" [] (u64_key id).
Definition vv_message_key (hash : string) : skey := SEntry "poll_messages" [] hash.
Definition vv_set_key (hash : string) : skey := SEntry "poll_worker_sets" [] hash.

(** contracts/rewards/src/state.rs:169-184 *)
Definition RW_PARAMS : skey := SItem "params".
Definition RW_CONFIG : skey := SItem "config".
Definition rw_tally_key (c : addr) (epoch : N) : skey := SEntry "tallies" [c] (u64_key epoch).
Definition rw_event_key (ev : string) (c : addr) : skey := SEntry "events" [ev] c.
Definition rw_pool_key (c : addr) : skey := SEntry "pools" [] c.
Definition rw_watermark_key (c : addr) : skey := SEntry "rewards_watermarks" [] c.

(** contracts/multisig-prover/src/state.rs:28-35; the key of a [BatchId] is
    types.rs:53-62 *)
Definition PR_CONFIG : skey := SItem "config".
Definition PR_REPLY : skey := SItem "reply_tracker".
Definition PR_CURRENT : skey := SItem "current_worker_set".
Definition PR_NEXT : skey := SItem "next_worker_set".
Definition pr_batch_key (id : string) : skey := SEntry "command_batch" [] id.
Definition pr_session_key (id : N) : skey := SEntry "multisig_session_batch" [] (u64_key id).

(** key.rs [parse_length], de.rs [split_off] of tuples: a length, that many
    bytes, and the rest *)
Definition split_key (s : string) : option (string * string) :=
  match s with
  | String hi (String lo r) =>
      let n := N_of_ascii hi * 256 + N_of_ascii lo in
      if n <=? slen r then Some (stake (N.to_nat n) r, sdrop (N.to_nat n) r) else None
  | _ => None
  end.
(** contracts/connection-router/src/state.rs:265-277 [CrossChainId::from_vec],
    339-349 [ChainName::from_vec] *)
Definition ccid_from_key (s : string) : option ccid :=
  match split_key s with
  | Some (a, b) =>
      match chain_name_of a, nonempty_string_of b with
      | Some c, Some i => Some {| cc_chain := c; cc_id := i |}
      | _, _ => None
      end
  | None => None
  end.
(** packages/axelar-wasm-std/src/voting.rs:120-130 [PollId::from_vec] *)
Fixpoint be_value (s : string) (acc : N) : N :=
  match s with EmptyString => acc | String c s' => be_value s' (acc * 256 + N_of_ascii c) end.
Definition poll_id_from_key (s : string) : option N :=
  if slen s =? 8 then Some (be_value s 0) else None.

(** ** The router *)

Inductive rtval := RvConfig (c : rtconfig) | RvChain (e : endpoint) | RvLen (n : N).
Definition rtprog (A : Type) : Type := prog rtval (serr rterror) A.

(** [CONFIG.load] (contract/execute.rs:106-120; contract.rs:90-97 [Contract::new], where a
    missing configuration panics) *)
Definition p_config : rtprog rtconfig :=
  Get RT_CONFIG (fun o => match o with Some (RvConfig c) => Ret c | _ => Fail SStd end).
Definition p_contract : rtprog rtconfig :=
  Get RT_CONFIG (fun o => match o with Some (RvConfig c) => Ret c | _ => Crash end).
Definition p_chain (name : string) : rtprog (option endpoint) :=
  Get (rt_chain_key name)
    (fun o => match o with Some (RvChain e) => Ret (Some e) | None => Ret None | _ => Fail SStd end).
(** state.rs:119-136 [load_chain_by_gateway]; multi.rs
    [deserialize_multi_kv]: the primary key is the end of the index key, and
    the entry is read under it *)
Definition p_indexed (kv : string * rtval) : rtprog endpoint :=
  match kv.2 with
  | RvLen n =>
      if slen kv.1 <? n then Crash
      else
        let pk := sdrop (String.length kv.1 - N.to_nat n) kv.1 in
        let! o := p_chain pk in
        match o, chain_name_of pk with Some e, Some _ => Ret e | _, _ => Fail SStd end
  | _ => Fail SStd
  end.
Definition p_by_gateway (g : addr) : rtprog (option endpoint) :=
  Scan "gateways" [g] (fun l =>
    let! es := collect p_indexed l in
    match es with [] => Ret None | [e] => Ret (Some e) | _ => Crash end).
(** indexed_map.rs [IndexedMap::update] and [replace] with the index of
    state.rs:138-159 *)
Definition p_update (name : string) (f : option endpoint -> res rterror endpoint) : rtprog unit :=
  let! old := p_chain name in
  let! new := own (f old) in
  let! _ := match old with
            | Some o => Del (rt_index_key (ce_gateway o) name) (Ret tt)
            | None => Ret tt
            end in
  Put (rt_index_key (ce_gateway new) name) (RvLen (slen name))
    (Put (rt_chain_key name) (RvChain new) (Ret tt)).

(** contract/execute.rs:18-104 *)
Definition p_register (name : string) (g : addr) : rtprog rtout :=
  let! found := p_by_gateway g in
  let! _ := own (ensure (bool_decide (found = None)) GatewayAlreadyRegistered) in
  let! _ := p_update name (fun o =>
    match o with
    | Some _ => Err ChainAlreadyExists
    | None => Ok {| ce_name := name; ce_gateway := g; ce_frozen := direction_bits DNone |}
    end) in
  Ret (EvChainRegistered name g).
Definition p_upgrade (name : string) (g : addr) : rtprog rtout :=
  let! found := p_by_gateway g in
  let! _ := own (ensure (bool_decide (found = None)) GatewayAlreadyRegistered) in
  let! _ := p_update name (fun o =>
    match o with
    | None => Err ChainNotFound
    | Some e => Ok {| ce_name := ce_name e; ce_gateway := g; ce_frozen := ce_frozen e |}
    end) in
  Ret (EvGatewayUpgraded name g).
Definition p_set_frozen (name : string) (flags : N -> N) : rtprog rtout :=
  let! _ := p_update name (fun o =>
    match o with
    | None => Err ChainNotFound
    | Some e => Ok {| ce_name := ce_name e; ce_gateway := ce_gateway e; ce_frozen := flags (ce_frozen e) |}
    end) in
  Ret (EvChainFrozen name).

(** contract/execute.rs:126-203 *)
Definition p_validate (c : rtconfig) (sender : addr) (msgs : list message) : rtprog (list message) :=
  if bool_decide (sender = rc_nexus c) then Ret msgs
  else
    let! found := p_by_gateway sender in
    let! src := own (of_option GatewayNotRegistered found) in
    let! _ := own (ensure (negb (incoming_frozen src)) (RtChainFrozen (ce_name src))) in
    let! _ := own (ensure (negb (existsb (fun m => negb (bool_decide (cc_chain (m_cc m) = ce_name src))) msgs))
                     WrongSourceChain) in
    Ret msgs.
Definition p_destination (c : rtconfig) (sender : addr) (chain : string) : rtprog addr :=
  let! o := p_chain chain in
  match o with
  | Some e => if outgoing_frozen e then Fail (SOwn (RtChainFrozen (ce_name e))) else Ret (ce_gateway e)
  | None => if bool_decide (sender = rc_nexus c) then Fail (SOwn ChainNotFound) else Ret (rc_nexus c)
  end.
Definition p_route (c : rtconfig) (sender : addr) (msgs : list message) : rtprog rtout :=
  let! msgs := p_validate c sender msgs in
  let! sent := collect (fun x => let! g := p_destination c sender x.1 in Ret (g, x.2)) (group_by m_dchain msgs) in
  Ret (OutRouted sent msgs).

(** contract.rs:43-80 [execute] *)
Definition router_prog (op : rtop) : rtprog rtout :=
  let! config := p_contract in
  match op with
  | RegisterChain a c g =>
      let! cfg := p_config in
      let! _ := own (ensure (bool_decide (rc_governance cfg = a)) RtUnauthorized) in p_register c g
  | UpgradeGateway a c g =>
      let! cfg := p_config in
      let! _ := own (ensure (bool_decide (rc_governance cfg = a)) RtUnauthorized) in p_upgrade c g
  | FreezeChain a c d =>
      let! cfg := p_config in
      let! _ := own (ensure (bool_decide (rc_admin cfg = a)) RtUnauthorized) in
      p_set_frozen c (fun f => N.lor f (direction_bits d))
  | UnfreezeChain a c d =>
      let! cfg := p_config in
      let! _ := own (ensure (bool_decide (rc_admin cfg = a)) RtUnauthorized) in
      p_set_frozen c (fun f => N.ldiff f (direction_bits d))
  | RouteMessages a ms => p_route config a ms
  end.
Definition router_bytes_step (m : gmap string rtval) (op : rtop) : res (serr rterror) (gmap string rtval * rtout) :=
  raw (router_prog op) m.
(** contract.rs:12-40 [instantiate] *)
Definition router_bytes_init (c : rtconfig) : gmap string rtval := {["config" := RvConfig c]}.

(** ** The service registry *)

Inductive srval := SvConfig (governance : addr) | SvService (s : service) | SvDeclared | SvWorker (w : worker).
Definition srprog (A : Type) : Type := prog srval (serr srerror) A.

(** contract.rs:119-125 [require_governance] *)
Definition q_governance (sender : addr) : srprog unit :=
  Get SR_CONFIG (fun o =>
    match o with
    | Some (SvConfig g) => own (ensure (bool_decide (g = sender)) SrUnauthorized)
    | _ => Fail SStd
    end).
Definition q_service (svc : string) : srprog (option service) :=
  Get (sr_service_key svc)
    (fun o => match o with Some (SvService s) => Ret (Some s) | None => Ret None | _ => Fail SStd end).
Definition q_worker (svc : string) (a : addr) : srprog (option worker) :=
  Get (sr_worker_key svc a)
    (fun o => match o with Some (SvWorker w) => Ret (Some w) | None => Ret None | _ => Fail SStd end).
Definition q_save_worker (svc : string) (a : addr) (w : worker) : srprog unit :=
  Put (sr_worker_key svc a) (SvWorker w) (Ret tt).

(** contract.rs:128-163 *)
Definition q_register_service (sv : service) : srprog srout :=
  let! o := q_service (sv_name sv) in
  let! _ := own (ensure (bool_decide (o = None)) ServiceAlreadyExists) in
  Put (sr_service_key (sv_name sv)) (SvService sv) (Ret []).
(** contract.rs:165-197 *)
Definition q_authorize (workers : list addr) (svc : string) (st : auth_state) : srprog srout :=
  let! o := q_service svc in
  let! _ := own (of_option ServiceNotFound o) in
  let! _ := for_each (fun a =>
    let! w := q_worker svc a in
    q_save_worker svc a
      (match w with
       | Some w => {| w_addr := w_addr w; w_bond := w_bond w; w_auth := st; w_service := w_service w |}
       | None => {| w_addr := a; w_bond := Unbonded; w_auth := st; w_service := svc |}
       end)) workers in
  Ret [].
(** contract.rs:199-238 *)
Definition q_bond (sender : addr) (funds : list coin) (svc : string) : srprog srout :=
  let! o := q_service svc in
  let! sv := own (of_option ServiceNotFound o) in
  let! bond := own (match funds with
                    | [] => Ok 0
                    | _ => let? c := of_option WrongDenom
                                       (List.find (fun c => String.eqb c.1 (sv_denom sv)) funds) in Ok c.2
                    end) in
  let! w := q_worker svc sender in
  let! w' := own (match w with
                  | Some w => let? b := add_bond (w_bond w) bond in
                              Ok {| w_addr := w_addr w; w_bond := b; w_auth := w_auth w; w_service := w_service w |}
                  | None => Ok {| w_addr := sender; w_bond := Bonded bond; w_auth := NotAuthorized; w_service := svc |}
                  end) in
  let! _ := q_save_worker svc sender w' in
  Ret [].
(** contract.rs:240-259 *)
Definition q_declare (sender : addr) (svc : string) (chains : list string) : srprog srout :=
  let! o := q_service svc in
  let! _ := own (of_option ServiceNotFound o) in
  let! w := q_worker svc sender in
  let! _ := own (of_option WorkerNotFound w) in
  let! _ := for_each (fun c => Put (sr_chain_key svc c sender) SvDeclared (Ret tt)) chains in
  Ret [].
(** contract.rs:261-289 *)
Definition q_unbond (time : N) (sender : addr) (svc : string) : srprog srout :=
  let! o := q_service svc in
  let! _ := own (of_option ServiceNotFound o) in
  let! w := q_worker svc sender in
  let! w := own (of_option WorkerNotFound w) in
  let! b := own (unbond (w_bond w) true time) in
  let! _ := q_save_worker svc sender
              {| w_addr := w_addr w; w_bond := b; w_auth := w_auth w; w_service := w_service w |} in
  Ret [].
(** contract.rs:291-326 *)
Definition q_claim (time : N) (sender : addr) (svc : string) : srprog srout :=
  let! o := q_service svc in
  let! sv := own (of_option ServiceNotFound o) in
  let! w := q_worker svc sender in
  let! w := own (of_option WorkerNotFound w) in
  let! r := own (claim_bond (w_bond w) time (sv_unbonding_days sv)) in
  let! _ := q_save_worker svc sender
              {| w_addr := w_addr w; w_bond := r.1; w_auth := w_auth w; w_service := w_service w |} in
  Ret [(sender, (sv_denom sv, r.2))].
(** contract.rs:35-110 [execute] *)
Definition registry_prog (op : srop) : srprog srout :=
  match op with
  | RegisterService a sv => let! _ := q_governance a in q_register_service sv
  | AuthorizeWorkers a ws svc => let! _ := q_governance a in q_authorize ws svc Authorized
  | UnauthorizeWorkers a ws svc => let! _ := q_governance a in q_authorize ws svc NotAuthorized
  | DeclareChainSupport a svc cs => q_declare a svc cs
  | BondWorker a funds svc => q_bond a funds svc
  | UnbondWorker t a svc => q_unbond t a svc
  | ClaimStake t a svc => q_claim t a svc
  end.
Definition registry_bytes_step (m : gmap string srval) (op : srop) : res (serr srerror) (gmap string srval * srout) :=
  raw (registry_prog op) m.
(** contract.rs:19-33 [instantiate] *)
Definition registry_bytes_init (governance : addr) : gmap string srval := {["config" := SvConfig governance]}.

(** contract.rs:354-377 [get_active_workers]; [WORKERS.load] of a missing
    worker is an error *)
Definition q_active (svc chain : string) : srprog (list worker) :=
  let! o := q_service svc in
  let! sv := own (of_option ServiceNotFound o) in
  Scan "workers_per_chain" [svc; chain] (fun l =>
    let! ws := collect (fun kv => let! o := q_worker svc kv.1 in
                                  match o with Some w => Ret w | None => Fail SStd end) l in
    Ret (filter (fun w => w_auth w = Authorized)
          (filter (fun w => match w_bond w with Bonded n => sv_min_bond sv <=? n | _ => false end = true) ws))).

(** ** The multisig contract *)

Inductive msval :=
| MvConfig (governance rewards : addr) (grace : N) | MvCounter (n : N) | MvSession (s : session)
| MvSig (s : signature) | MvSet (w : worker_set) | MvKey (k : string) | MvCaller.
Definition msprog (A : Type) : Type := prog msval (serr merror) A.

Section MultisigStorage.
  Context (wsid : worker_set -> string).
  Context (crypto : key_type -> string -> string -> string -> option bool).

  Definition s_config : msprog (addr * addr * N) :=
    Get MS_CONFIG (fun o => match o with Some (MvConfig g r p) => Ret (g, r, p) | _ => Fail SStd end).
  Definition s_session (id : N) : msprog (option session) :=
    Get (ms_session_key id)
      (fun o => match o with Some (MvSession s) => Ret (Some s) | None => Ret None | _ => Fail SStd end).
  Definition s_set (id : string) : msprog (option worker_set) :=
    Get (ms_set_key id)
      (fun o => match o with Some (MvSet s) => Ret (Some s) | None => Ret None | _ => Fail SStd end).
  Definition s_sig (id : N) (a : addr) : msprog (option signature) :=
    Get (ms_sig_key id a)
      (fun o => match o with Some (MvSig s) => Ret (Some s) | None => Ret None | _ => Fail SStd end).
  (** state.rs:28-36 [load_session_signatures], collected into a hash map *)
  Definition s_sigs (id : N) : msprog (gmap addr signature) :=
    Scan "signatures" [u64_key id] (fun l =>
      let! l := collect (fun kv => match kv.2 with MvSig s => Ret (kv.1, s) | _ => Fail SStd end) l in
      Ret (list_to_map l)).

  (** contract.rs:49-65 with 217-224 [require_authorized_caller], 102-133
      [start_signing_session] *)
  Definition s_start (sender : addr) (id : string) (msg chain : string) : msprog mout :=
    let! _ := Get (ms_caller_key sender)
                (fun o => match o with Some MvCaller => Ret tt | None => Fail (SOwn MUnauthorized) | _ => Fail SStd end) in
    let! msg := own (of_option InvalidMessageFormat (msg_to_sign_of msg)) in
    let! o := s_set id in
    let! ws := own (of_option NoActiveWorkerSetFound o) in
    let! n := Get MS_COUNTER (fun o => match o with Some (MvCounter n) => Ret n | _ => Fail SStd end) in
    let! n := own (add_u64 n 1) in
    Put MS_COUNTER (MvCounter n)
      (Put (ms_session_key n) (MvSession {| ss_id := n; ss_wsid := id; ss_msg := msg; ss_state := MPending |})
        (Ret (OutStarted n id (sg_key <$> ws_signers ws) msg chain))).

  (** contract.rs:135-185 [submit_signature], state.rs:38-57
      [save_signature], signing.rs:31-45, contract.rs:252-296 *)
  Definition s_submit (height : N) (sender : addr) (id : N) (bytes : string) : msprog mout :=
    let! cfg := s_config in
    let! o := s_session id in
    let! ss := own (of_option SigningSessionNotFound o) in
    let! o := s_set (ss_wsid ss) in
    let! ws := own (of_option MStdError o) in
    let! signer := own (of_option NotAParticipant (ws_signers ws !! sender)) in
    let pk := sg_key signer in
    let! sg := own (of_option InvalidSignatureFormat (signature_try_from (pk_type pk) bytes)) in
    let! _ := own (validate_signature crypto ss sg pk cfg.2 height) in
    let! old := s_sig id sender in
    let! _ := own (ensure (bool_decide (old = None)) DuplicateSignature) in
    let! _ := Put (ms_sig_key id sender) (MvSig sg) (Ret tt) in
    let! sigs := s_sigs id in
    let! weight := own (signers_weight sigs ws) in
    let st := if bool_decide (ss_state ss = MPending) && (ws_threshold ws <=? weight)
              then MCompleted height else ss_state ss in
    let completed := match st with
                     | MCompleted c => if bool_decide (ss_state ss = st) then None else Some c
                     | MPending => None
                     end in
    Put (ms_session_key (ss_id ss))
      (MvSession {| ss_id := ss_id ss; ss_wsid := ss_wsid ss; ss_msg := ss_msg ss; ss_state := st |})
      (Ret (OutSigned (cfg.1.2, dec id, sender) id sender sg completed)).

  (** contract.rs:187-215 *)
  Definition s_register_set (ws : worker_set) : msprog mout :=
    Put (ms_set_key (wsid ws)) (MvSet ws) (Ret OutNone).
  Definition s_register_key (sender : addr) (t : key_type) (bytes : string) : msprog mout :=
    let! pk := own (of_option InvalidPublicKeyFormat (public_key_try_from t bytes)) in
    Put (ms_pub_key sender (pk_type pk)) (MvKey (pk_bytes pk)) (Ret (OutKey sender pk)).
  (** contract.rs:226-250 *)
  Definition s_caller (sender : addr) (auth : bool) (caller : addr) : msprog mout :=
    let! cfg := s_config in
    let! _ := own (ensure (bool_decide (cfg.1.1 = sender)) MUnauthorized) in
    (if auth then Put (ms_caller_key caller) MvCaller (Ret (OutCaller auth caller))
     else Del (ms_caller_key caller) (Ret (OutCaller auth caller))).

  (** contract.rs:38-84 [execute] *)
  Definition multisig_prog (op : mop) : msprog mout :=
    match op with
    | StartSession a id msg chain => s_start a id msg chain
    | SubmitSignature h a id b => s_submit h a id b
    | RegisterWorkerSet _ ws => s_register_set ws
    | RegisterPublicKey a t b => s_register_key a t b
    | SetCaller a auth c => s_caller a auth c
    end.
  Definition multisig_bytes_step (m : gmap string msval) (op : mop) : res (serr merror) (gmap string msval * mout) :=
    raw (multisig_prog op) m.
  (** contract.rs:19-35 [instantiate] *)
  Definition multisig_bytes_init (governance rewards : addr) (grace : N) : gmap string msval :=
    <["signing_session_counter" := MvCounter 0]> {["config" := MvConfig governance rewards grace]}.

  (** contract.rs:326-343 [get_multisig] *)
  Definition s_multisig (id : N) : msprog multisig :=
    let! o := s_session id in
    let! ss := own (of_option MStdError o) in
    let! o := s_set (ss_wsid ss) in
    let! ws := own (of_option MStdError o) in
    let! sigs := s_sigs (ss_id ss) in
    Ret {| mu_state := ss_state ss; mu_quorum := ws_threshold ws;
           mu_signers := (fun '(a, sg) => (sg, sigs !! a)) <$> btree_iter (ws_signers ws) |}.
End MultisigStorage.
