(** Model of the texts in which contracts are called: the JSON of the messages
    of contracts/*/src/msg.rs, written by [to_binary] and [wasm_execute] in the
    contracts and by [serde_json::to_vec] in ampd, and read by the chain's
    entry points into the types of the messages. [cw_serde] gives every
    message type snake_case variant names and refuses unknown fields.

    Simplifications: the contracts read with serde-json-wasm, whose source is
    not part of the repository; it is taken to read JSON by the same grammar
    as serde_json (JsonModel). Structures are read from objects only, and
    variants without content from strings only. *)
From Verif Require Import Base Text StdModel RouterTypes RegistryTypes OperatorsModel MultisigTypes EncodingModel
  VerifierModel RewardsModel RegistryModel RouterModel GatewayModel NexusModel MultisigModel ProverModel
  EventsModel JsonModel.

(** ** Text to values *)

(** As [JsonModel.value], but the members of an object are all kept: what
    happens to a key that is there twice depends on the type to be read. No
    type of a message is a fraction or negative, so such numbers are only kept
    apart from the others. *)
Fixpoint wvalue (depth : nat) (s : string) : option (jval * string) :=
  match depth with
  | O => None
  | S d =>
      match skip_ws s with
      | EmptyString => None
      | String c r =>
          let n := code c in
          if n =? 110 then (fun t => (JNull, t)) <$> after "ull" r
          else if n =? 116 then (fun t => (JBool true, t)) <$> after "rue" r
          else if n =? 102 then (fun t => (JBool false, t)) <$> after "alse" r
          else if n =? 34 then (fun p => (JStr p.1, p.2)) <$> str_body r
          else if n =? 45 then number (fun _ => true) true r
          else if (48 <=? n) && (n <=? 57) then number (fun _ => true) false (String c r)
          else if n =? 91 then
            match d with
            | O => None
            | _ =>
                match skip_ws r with
                | String e t =>
                    if code e =? 93 then Some (JArr [], t)
                    else (fun p => (JArr p.1, p.2)) <$> elements (wvalue d) (String.length r) r
                | EmptyString => None
                end
            end
          else if n =? 123 then
            match d with
            | O => None
            | _ =>
                match skip_ws r with
                | String e t =>
                    if code e =? 125 then Some (JObj [], t)
                    else (fun p => (JObj p.1, p.2)) <$> members (wvalue d) (String.length r) r
                | EmptyString => None
                end
            end
          else None
      end
  end.
Definition of_wire (s : string) : option jval :=
  match wvalue 128 s with
  | Some (v, r) => if is_empty (skip_ws r) then Some v else None
  | None => None
  end.

(** ** Values to Rust types *)

Definition d_bool (v : jval) : option bool := match v with JBool b => Some b | _ => None end.
Definition d_str (v : jval) : option string := match v with JStr s => Some s | _ => None end.
(** [u64], [u32], [u16], [u8]: a JSON number *)
Definition d_num (bound : N) (v : jval) : option N :=
  match v with JNum n => if n <? bound then Some n else None | _ => None end.
(** cosmwasm-std [Uint64], [Uint128], [Uint256]: a decimal number in a string *)
Definition d_uint (bound : N) (v : jval) : option N := s ← d_str v; parse_uint bound s.
(** nonempty/uint.rs:7-22 [nonempty::Uint64], read through [TryFrom] *)
Definition d_nonempty_u64 (v : jval) : option N :=
  n ← d_uint U64 v; match nonempty_u64 n with Ok m => Some m | _ => None end.
(** nonempty/uint.rs:92-94 [nonempty::Uint128]: no [try_from] attribute, so the
    derived code reads the number as it is. *)
Definition d_nonempty_u128 (v : jval) : option N := d_uint U128 v.
(** cosmwasm-std [HexBinary] *)
Definition d_hex (v : jval) : option string := s ← d_str v; of_hex s.
(** packages/axelar-wasm-std/src/hex.rs:12-19 [deserialize] for 32 bytes *)
Definition d_hash32 (v : jval) : option string :=
  b ← d_hex v; if (String.length b =? 32)%nat then Some b else None.
(** nonempty/string.rs:9-24, and [Address] (connection-router/src/state.rs:186-187) *)
Definition d_nonempty (v : jval) : option string := s ← d_str v; nonempty_string_of s.
(** connection-router/src/state.rs:279-308 [ChainName] *)
Definition d_chain (v : jval) : option string := s ← d_str v; chain_name_of s.
(** [Option]: [null] *)
Definition d_opt {A} (d : jval -> option A) (v : jval) : option (option A) :=
  match v with JNull => Some None | _ => Some <$> d v end.
Fixpoint d_all {A} (d : jval -> option A) (l : list jval) : option (list A) :=
  match l with
  | [] => Some []
  | v :: l' => a ← d v; r ← d_all d l'; Some (a :: r)
  end.
(** [Vec] *)
Definition d_vec {A} (d : jval -> option A) (v : jval) : option (list A) :=
  match v with JArr l => d_all d l | _ => None end.
(** pairs *)
Definition d_pair {A B} (d1 : jval -> option A) (d2 : jval -> option B) (v : jval) : option (A * B) :=
  match v with JArr [a; b] => x ← d1 a; y ← d2 b; Some (x, y) | _ => None end.
(** [BTreeMap] with string keys: of a repeated key the last value is kept. *)
Fixpoint d_entries {A} (d : jval -> option A) (l : list (string * jval)) (m : gmap string A)
  : option (gmap string A) :=
  match l with
  | [] => Some m
  | (k, v) :: l' => a ← d v; d_entries d l' (<[k := a]> m)
  end.
Definition d_map {A} (d : jval -> option A) (v : jval) : option (gmap string A) :=
  match v with JObj l => d_entries d l ∅ | _ => None end.
(** [Vec<u8>] and [[u8; 32]], read byte by byte *)
Fixpoint string_of_bytes (l : list N) : string :=
  match l with [] => EmptyString | n :: l' => String (ascii_of_N n) (string_of_bytes l') end.
Definition d_bytes (v : jval) : option string := string_of_bytes <$> d_vec (d_num 256) v.

(** a structure: all keys are known, none is there twice *)
Fixpoint distinct (l : list string) : bool :=
  match l with [] => true | x :: l' => negb (existsb (String.eqb x) l') && distinct l' end.
Fixpoint assoc (k : string) (l : list (string * jval)) : option jval :=
  match l with [] => None | (k', v) :: l' => if String.eqb k k' then Some v else assoc k l' end.
Definition struct {A} (names : list string) (f : list (string * jval) -> option A) (v : jval) : option A :=
  match v with
  | JObj l => if forallb (fun p => existsb (String.eqb p.1) names) l && distinct l.*1 then f l else None
  | _ => None
  end.
(** a field that must be there *)
Definition fld {A B} (l : list (string * jval)) (name : string) (d : jval -> option A) (k : A -> option B) : option B :=
  v ← assoc name l; a ← d v; k a.
(** a field of type [Option], which may be missing *)
Definition fld_opt {A B} (l : list (string * jval)) (name : string) (d : jval -> option A)
    (k : option A -> option B) : option B :=
  match assoc name l with None => k None | Some v => a ← d_opt d v; k a end.
(** a variant with content: an object with one member *)
Definition variant (v : jval) : option (string * jval) :=
  match v with JObj [p] => Some p | _ => None end.

(** connection-router/src/state.rs:217-222 [CrossChainId] *)
Definition e_ccid (c : ccid) : jval := JObj [("chain", JStr (cc_chain c)); ("id", JStr (cc_id c))].
Definition d_ccid : jval -> option ccid :=
  struct ["chain"; "id"] (fun l =>
    fld l "chain" d_chain (fun c => fld l "id" d_nonempty (fun i => Some {| cc_chain := c; cc_id := i |}))).
(** connection-router/src/state.rs:160-171 [Message] *)
Definition e_message (m : message) : jval :=
  JObj [("cc_id", e_ccid (m_cc m)); ("source_address", JStr (m_src m)); ("destination_chain", JStr (m_dchain m));
        ("destination_address", JStr (m_daddr m)); ("payload_hash", JStr (to_hex (m_hash m)))].
Definition d_message : jval -> option message :=
  struct ["cc_id"; "source_address"; "destination_chain"; "destination_address"; "payload_hash"] (fun l =>
    fld l "cc_id" d_ccid (fun c => fld l "source_address" d_nonempty (fun s =>
    fld l "destination_chain" d_chain (fun dc => fld l "destination_address" d_nonempty (fun da =>
    fld l "payload_hash" d_hash32 (fun h =>
      Some {| m_cc := c; m_src := s; m_dchain := dc; m_daddr := da; m_hash := h |})))))).
Definition e_list {A} (e : A -> jval) (l : list A) : jval := JArr (e <$> l).
Definition e_uint (n : N) : jval := JStr (dec n).
Definition e_hex (b : string) : jval := JStr (to_hex b).
(** voting.rs:136-144 [Vote] *)
Definition e_vote (v : vote) : jval :=
  JStr match v with
       | SucceededOnChain => "succeeded_on_chain" | FailedOnChain => "failed_on_chain" | NotFound => "not_found"
       end.
Definition d_vote (v : jval) : option vote :=
  s ← d_str v;
  if String.eqb s "succeeded_on_chain" then Some SucceededOnChain
  else if String.eqb s "failed_on_chain" then Some FailedOnChain
  else if String.eqb s "not_found" then Some NotFound else None.
(** operators.rs:8-12 [Operators]: the order of the addresses is the sender's. *)
Definition e_operators (o : operators) : jval :=
  JObj [("weights_by_addresses", e_list (fun p => JArr [e_hex p.1; e_uint p.2]) (o_weights o));
        ("threshold", e_uint (o_threshold o))].
Definition d_operators : jval -> option operators :=
  struct ["weights_by_addresses"; "threshold"] (fun l =>
    fld l "weights_by_addresses" (d_vec (d_pair d_hex (d_uint U256))) (fun ws =>
    fld l "threshold" (d_uint U256) (fun t => Some {| o_weights := ws; o_threshold := t |}))).
(** threshold.rs:17-24, 52-80 [Threshold], 100-107 [MajorityThreshold]: a pair
    of numbers, checked by [TryFrom] *)
Definition e_threshold (t : threshold) : jval := JArr [e_uint (t_num t); e_uint (t_den t)].
Definition d_threshold (v : jval) : option threshold :=
  p ← d_pair (d_uint U64) (d_uint U64) v; match threshold_try_from p.1 p.2 with Ok t => Some t | _ => None end.
Definition d_majority (v : jval) : option threshold :=
  t ← d_threshold v; match majority_try_from t with Ok m => Some m | _ => None end.
(** key.rs:9-14 [KeyType]; 110-138 [PublicKey] *)
Definition e_key_type (t : key_type) : jval := JStr match t with KEcdsa => "ecdsa" | KEd25519 => "ed25519" end.
Definition d_key_type (v : jval) : option key_type :=
  s ← d_str v; if String.eqb s "ecdsa" then Some KEcdsa else if String.eqb s "ed25519" then Some KEd25519 else None.
Definition e_public_key (k : public_key) : jval :=
  JObj [(match pk_type k with KEcdsa => "ecdsa" | KEd25519 => "ed25519" end, e_hex (pk_bytes k))].
Definition d_public_key (v : jval) : option public_key :=
  p ← variant v; t ← d_key_type (JStr p.1); b ← d_hex p.2; public_key_try_from t b.
(** multisig/src/msg.rs:69-75 [Signer]; worker_set.rs:9-20 [WorkerSet] *)
Definition e_signer (s : signer) : jval :=
  JObj [("address", JStr (sg_addr s)); ("weight", e_uint (sg_weight s)); ("pub_key", e_public_key (sg_key s))].
Definition d_signer : jval -> option signer :=
  struct ["address"; "weight"; "pub_key"] (fun l =>
    fld l "address" d_str (fun a => fld l "weight" (d_uint U256) (fun w => fld l "pub_key" d_public_key (fun k =>
      Some {| sg_addr := a; sg_weight := w; sg_key := k |})))).
Definition e_worker_set (w : worker_set) : jval :=
  JObj [("signers", JObj ((fun p => (p.1, e_signer p.2)) <$> btree_iter (ws_signers w)));
        ("threshold", e_uint (ws_threshold w)); ("created_at", JNum (ws_created w))].
Definition d_worker_set : jval -> option worker_set :=
  struct ["signers"; "threshold"; "created_at"] (fun l =>
    fld l "signers" (d_map d_signer) (fun m => fld l "threshold" (d_uint U256) (fun t =>
    fld l "created_at" (d_num U64) (fun c => Some {| ws_signers := m; ws_threshold := t; ws_created := c |})))).
(** connection-router/src/state.rs:378-387 [GatewayDirection]: derived without
    renaming *)
Definition e_direction (d : direction) : jval :=
  JStr match d with DNone => "None" | DIncoming => "Incoming" | DOutgoing => "Outgoing" | DBidirectional => "Bidirectional" end.
Definition d_direction (v : jval) : option direction :=
  s ← d_str v;
  if String.eqb s "None" then Some DNone else if String.eqb s "Incoming" then Some DIncoming
  else if String.eqb s "Outgoing" then Some DOutgoing else if String.eqb s "Bidirectional" then Some DBidirectional
  else None.
(** nexus-gateway/src/nexus.rs:13-25 [Message]: not a [cw_serde] type, so
    unknown fields are skipped; bytes are arrays of numbers. *)
Definition bytes_json (s : string) : jval := JArr ((fun c => JNum (code c)) <$> String.list_ascii_of_string s).
Definition e_nmessage (n : nmessage) : jval :=
  JObj [("source_chain", JStr (n_schain n)); ("source_address", JStr (n_saddr n));
        ("destination_chain", JStr (n_dchain n)); ("destination_address", JStr (n_daddr n));
        ("payload_hash", bytes_json (n_hash n)); ("source_tx_id", bytes_json (n_txid n));
        ("source_tx_index", JNum (n_index n))].
Definition nmessage_fields : list string :=
  ["source_chain"; "source_address"; "destination_chain"; "destination_address"; "payload_hash"; "source_tx_id";
   "source_tx_index"].
Definition struct_open {A} (names : list string) (f : list (string * jval) -> option A) (v : jval) : option A :=
  match v with
  | JObj l => if distinct (filter (fun k => existsb (String.eqb k) names = true) l.*1) then f l else None
  | _ => None
  end.
Definition d_nmessage : jval -> option nmessage :=
  struct_open nmessage_fields (fun l =>
    fld l "source_chain" d_chain (fun sc => fld l "source_address" d_nonempty (fun sa =>
    fld l "destination_chain" d_chain (fun dc => fld l "destination_address" d_nonempty (fun da =>
    fld l "payload_hash" d_bytes (fun h => if (String.length h =? 32)%nat then
    fld l "source_tx_id" d_bytes (fun t => if is_empty t then None else
    fld l "source_tx_index" (d_num U64) (fun i =>
      Some {| n_schain := sc; n_saddr := sa; n_dchain := dc; n_daddr := da; n_hash := h; n_txid := t; n_index := i |}))
    else None)))))).
(** rewards/src/msg.rs:11-25 [Params] *)
Definition e_params (p : rparams) : jval :=
  JObj [("epoch_duration", e_uint (rp_duration p)); ("rewards_per_epoch", e_uint (rp_rewards p));
        ("participation_threshold", e_threshold (rp_threshold p))].
Definition d_params : jval -> option rparams :=
  struct ["epoch_duration"; "rewards_per_epoch"; "participation_threshold"] (fun l =>
    fld l "epoch_duration" d_nonempty_u64 (fun d => fld l "rewards_per_epoch" d_nonempty_u128 (fun r =>
    fld l "participation_threshold" d_threshold (fun t =>
      Some {| rp_duration := d; rp_rewards := r; rp_threshold := t |})))).
Definition e_opt {A} (e : A -> jval) (o : option A) : jval := match o with Some a => e a | None => JNull end.

(** ** The messages of the contracts *)

Definition tagged (name : string) (fields : list (string * jval)) : jval := JObj [(name, JObj fields)].

(** voting-verifier/src/msg.rs:24-49 [ExecuteMsg] *)
Inductive vv_msg :=
| VvEndPoll (id : N)
| VvVote (id : N) (votes : list vote)
| VvVerifyMessages (ms : list message)
| VvVerifyWorkerSet (message_id : string) (o : operators).
Definition e_vv (m : vv_msg) : jval :=
  match m with
  | VvEndPoll id => tagged "end_poll" [("poll_id", e_uint id)]
  | VvVote id vs => tagged "vote" [("poll_id", e_uint id); ("votes", e_list e_vote vs)]
  | VvVerifyMessages ms => tagged "verify_messages" [("messages", e_list e_message ms)]
  | VvVerifyWorkerSet i o => tagged "verify_worker_set" [("message_id", JStr i); ("new_operators", e_operators o)]
  end.
Definition d_vv (v : jval) : option vv_msg :=
  p ← variant v;
  if String.eqb p.1 "end_poll" then
    struct ["poll_id"] (fun l => fld l "poll_id" (d_uint U64) (fun id => Some (VvEndPoll id))) p.2
  else if String.eqb p.1 "vote" then
    struct ["poll_id"; "votes"] (fun l => fld l "poll_id" (d_uint U64) (fun id =>
      fld l "votes" (d_vec d_vote) (fun vs => Some (VvVote id vs)))) p.2
  else if String.eqb p.1 "verify_messages" then
    struct ["messages"] (fun l => fld l "messages" (d_vec d_message) (fun ms => Some (VvVerifyMessages ms))) p.2
  else if String.eqb p.1 "verify_worker_set" then
    struct ["message_id"; "new_operators"] (fun l => fld l "message_id" d_nonempty (fun i =>
      fld l "new_operators" d_operators (fun o => Some (VvVerifyWorkerSet i o)))) p.2
  else None.

(** multisig/src/msg.rs:20-49 [ExecuteMsg] *)
Inductive ms_msg :=
| MsStart (worker_set digest chain : string) (sig_verifier : option string)
| MsSubmit (id : N) (signature : string)
| MsRegisterSet (ws : worker_set)
| MsRegisterKey (k : public_key)
| MsAuthorize (a : addr)
| MsUnauthorize (a : addr).
Definition e_ms (m : ms_msg) : jval :=
  match m with
  | MsStart w d c s => tagged "start_signing_session"
      [("worker_set_id", JStr w); ("msg", e_hex d); ("chain_name", JStr c); ("sig_verifier", e_opt JStr s)]
  | MsSubmit id sg => tagged "submit_signature" [("session_id", e_uint id); ("signature", e_hex sg)]
  | MsRegisterSet w => tagged "register_worker_set" [("worker_set", e_worker_set w)]
  | MsRegisterKey k => tagged "register_public_key" [("public_key", e_public_key k)]
  | MsAuthorize a => tagged "authorize_caller" [("contract_address", JStr a)]
  | MsUnauthorize a => tagged "unauthorize_caller" [("contract_address", JStr a)]
  end.
Definition d_ms (v : jval) : option ms_msg :=
  p ← variant v;
  if String.eqb p.1 "start_signing_session" then
    struct ["worker_set_id"; "msg"; "chain_name"; "sig_verifier"] (fun l =>
      fld l "worker_set_id" d_str (fun w => fld l "msg" d_hex (fun d => fld l "chain_name" d_chain (fun c =>
      fld_opt l "sig_verifier" d_str (fun s => Some (MsStart w d c s)))))) p.2
  else if String.eqb p.1 "submit_signature" then
    struct ["session_id"; "signature"] (fun l => fld l "session_id" (d_uint U64) (fun id =>
      fld l "signature" d_hex (fun sg => Some (MsSubmit id sg)))) p.2
  else if String.eqb p.1 "register_worker_set" then
    struct ["worker_set"] (fun l => fld l "worker_set" d_worker_set (fun w => Some (MsRegisterSet w))) p.2
  else if String.eqb p.1 "register_public_key" then
    struct ["public_key"] (fun l => fld l "public_key" d_public_key (fun k => Some (MsRegisterKey k))) p.2
  else if String.eqb p.1 "authorize_caller" then
    struct ["contract_address"] (fun l => fld l "contract_address" d_str (fun a => Some (MsAuthorize a))) p.2
  else if String.eqb p.1 "unauthorize_caller" then
    struct ["contract_address"] (fun l => fld l "contract_address" d_str (fun a => Some (MsUnauthorize a))) p.2
  else None.

(** rewards/src/msg.rs:27-62 [ExecuteMsg] *)
Inductive rw_msg :=
| RwRecord (event : string) (w : addr)
| RwDistribute (c : addr) (epochs : option N)
| RwAdd (c : addr)
| RwUpdate (p : rparams).
Definition e_rw (m : rw_msg) : jval :=
  match m with
  | RwRecord ev w => tagged "record_participation" [("event_id", JStr ev); ("worker_address", JStr w)]
  | RwDistribute c n => tagged "distribute_rewards" [("contract_address", JStr c); ("epoch_count", e_opt JNum n)]
  | RwAdd c => tagged "add_rewards" [("contract_address", JStr c)]
  | RwUpdate p => tagged "update_params" [("params", e_params p)]
  end.
Definition d_rw (v : jval) : option rw_msg :=
  p ← variant v;
  if String.eqb p.1 "record_participation" then
    struct ["event_id"; "worker_address"] (fun l => fld l "event_id" d_nonempty (fun ev =>
      fld l "worker_address" d_str (fun w => Some (RwRecord ev w)))) p.2
  else if String.eqb p.1 "distribute_rewards" then
    struct ["contract_address"; "epoch_count"] (fun l => fld l "contract_address" d_str (fun c =>
      fld_opt l "epoch_count" (d_num U64) (fun n => Some (RwDistribute c n)))) p.2
  else if String.eqb p.1 "add_rewards" then
    struct ["contract_address"] (fun l => fld l "contract_address" d_str (fun c => Some (RwAdd c))) p.2
  else if String.eqb p.1 "update_params" then
    struct ["params"] (fun l => fld l "params" d_params (fun q => Some (RwUpdate q))) p.2
  else None.

(** gateway/src/msg.rs:10-17 [ExecuteMsg] *)
Inductive gw_msg := GwmVerify (ms : list message) | GwmRoute (ms : list message).
Definition e_gw (m : gw_msg) : jval :=
  match m with
  | GwmVerify ms => JObj [("verify_messages", e_list e_message ms)]
  | GwmRoute ms => JObj [("route_messages", e_list e_message ms)]
  end.
Definition d_gw (v : jval) : option gw_msg :=
  p ← variant v;
  if String.eqb p.1 "verify_messages" then GwmVerify <$> d_vec d_message p.2
  else if String.eqb p.1 "route_messages" then GwmRoute <$> d_vec d_message p.2 else None.

(** aggregate-verifier/src/msg.rs:9-13 [ExecuteMsg] *)
Definition e_ag (ms : list message) : jval := tagged "verify_messages" [("messages", e_list e_message ms)].
Definition d_ag (v : jval) : option (list message) :=
  p ← variant v;
  if String.eqb p.1 "verify_messages" then
    struct ["messages"] (fun l => fld l "messages" (d_vec d_message) Some) p.2
  else None.

(** nexus-gateway/src/msg.rs:11-15 [ExecuteMsg] *)
Inductive nx_msg := NxmRoute (ms : list message) | NxmFromNexus (ns : list nmessage).
Definition e_nx (m : nx_msg) : jval :=
  match m with
  | NxmRoute ms => JObj [("route_messages", e_list e_message ms)]
  | NxmFromNexus ns => JObj [("route_messages_from_nexus", e_list e_nmessage ns)]
  end.
Definition d_nx (v : jval) : option nx_msg :=
  p ← variant v;
  if String.eqb p.1 "route_messages" then NxmRoute <$> d_vec d_message p.2
  else if String.eqb p.1 "route_messages_from_nexus" then NxmFromNexus <$> d_vec d_nmessage p.2 else None.

(** connection-router/src/msg.rs:14-52 [ExecuteMsg] *)
Inductive rt_msg :=
| RtmRegister (chain : string) (g : addr)
| RtmUpgrade (chain : string) (g : addr)
| RtmFreeze (chain : string) (d : direction)
| RtmUnfreeze (chain : string) (d : direction)
| RtmRoute (ms : list message).
Definition e_rt (m : rt_msg) : jval :=
  match m with
  | RtmRegister c g => tagged "register_chain" [("chain", JStr c); ("gateway_address", JStr g)]
  | RtmUpgrade c g => tagged "upgrade_gateway" [("chain", JStr c); ("contract_address", JStr g)]
  | RtmFreeze c d => tagged "freeze_chain" [("chain", JStr c); ("direction", e_direction d)]
  | RtmUnfreeze c d => tagged "unfreeze_chain" [("chain", JStr c); ("direction", e_direction d)]
  | RtmRoute ms => JObj [("route_messages", e_list e_message ms)]
  end.
Definition d_rt (v : jval) : option rt_msg :=
  p ← variant v;
  if String.eqb p.1 "register_chain" then
    struct ["chain"; "gateway_address"] (fun l => fld l "chain" d_chain (fun c =>
      fld l "gateway_address" d_str (fun g => Some (RtmRegister c g)))) p.2
  else if String.eqb p.1 "upgrade_gateway" then
    struct ["chain"; "contract_address"] (fun l => fld l "chain" d_chain (fun c =>
      fld l "contract_address" d_str (fun g => Some (RtmUpgrade c g)))) p.2
  else if String.eqb p.1 "freeze_chain" then
    struct ["chain"; "direction"] (fun l => fld l "chain" d_chain (fun c =>
      fld l "direction" d_direction (fun d => Some (RtmFreeze c d)))) p.2
  else if String.eqb p.1 "unfreeze_chain" then
    struct ["chain"; "direction"] (fun l => fld l "chain" d_chain (fun c =>
      fld l "direction" d_direction (fun d => Some (RtmUnfreeze c d)))) p.2
  else if String.eqb p.1 "route_messages" then RtmRoute <$> d_vec d_message p.2
  else None.

(** multisig-prover/src/msg.rs:25-32 [ExecuteMsg]: two variants without
    content *)
Definition e_pr (m : pcall) : jval :=
  match m with
  | ConstructProof ids => tagged "construct_proof" [("message_ids", e_list e_ccid ids)]
  | UpdateWorkerSet => JStr "update_worker_set"
  | ConfirmWorkerSet => JStr "confirm_worker_set"
  end.
Definition d_pr (v : jval) : option pcall :=
  match v with
  | JStr s => if String.eqb s "update_worker_set" then Some UpdateWorkerSet
              else if String.eqb s "confirm_worker_set" then Some ConfirmWorkerSet else None
  | _ =>
      p ← variant v;
      if String.eqb p.1 "construct_proof" then
        struct ["message_ids"] (fun l => fld l "message_ids" (d_vec d_ccid) (fun ids => Some (ConstructProof ids))) p.2
      else None
  end.

(** service-registry/src/msg.rs:10-53 [ExecuteMsg] *)
Inductive sr_msg :=
| SrmRegister (sv : service)
| SrmAuthorize (workers : list addr) (svc : string)
| SrmUnauthorize (workers : list addr) (svc : string)
| SrmDeclare (svc : string) (chains : list string)
| SrmBond (svc : string)
| SrmUnbond (svc : string)
| SrmClaim (svc : string).
Definition e_sr (m : sr_msg) : jval :=
  match m with
  | SrmRegister sv => tagged "register_service"
      [("service_name", JStr (sv_name sv)); ("service_contract", JStr (sv_contract sv));
       ("min_num_workers", JNum (sv_min_workers sv)); ("max_num_workers", e_opt JNum (sv_max_workers sv));
       ("min_worker_bond", e_uint (sv_min_bond sv)); ("bond_denom", JStr (sv_denom sv));
       ("unbonding_period_days", JNum (sv_unbonding_days sv)); ("description", JStr (sv_description sv))]
  | SrmAuthorize ws s => tagged "authorize_workers" [("workers", e_list JStr ws); ("service_name", JStr s)]
  | SrmUnauthorize ws s => tagged "unauthorize_workers" [("workers", e_list JStr ws); ("service_name", JStr s)]
  | SrmDeclare s cs => tagged "declare_chain_support" [("service_name", JStr s); ("chains", e_list JStr cs)]
  | SrmBond s => tagged "bond_worker" [("service_name", JStr s)]
  | SrmUnbond s => tagged "unbond_worker" [("service_name", JStr s)]
  | SrmClaim s => tagged "claim_stake" [("service_name", JStr s)]
  end.
Definition U16 : N := 2 ^ 16.
Definition d_sr (v : jval) : option sr_msg :=
  p ← variant v;
  if String.eqb p.1 "register_service" then
    struct ["service_name"; "service_contract"; "min_num_workers"; "max_num_workers"; "min_worker_bond"; "bond_denom";
            "unbonding_period_days"; "description"] (fun l =>
      fld l "service_name" d_str (fun n => fld l "service_contract" d_str (fun c =>
      fld l "min_num_workers" (d_num U16) (fun mn => fld_opt l "max_num_workers" (d_num U16) (fun mx =>
      fld l "min_worker_bond" (d_uint U128) (fun b => fld l "bond_denom" d_str (fun dn =>
      fld l "unbonding_period_days" (d_num U16) (fun ud => fld l "description" d_str (fun ds =>
        Some (SrmRegister {| sv_name := n; sv_contract := c; sv_min_workers := mn; sv_max_workers := mx;
                             sv_min_bond := b; sv_denom := dn; sv_unbonding_days := ud; sv_description := ds |})))))))))) p.2
  else if String.eqb p.1 "authorize_workers" then
    struct ["workers"; "service_name"] (fun l => fld l "workers" (d_vec d_str) (fun ws =>
      fld l "service_name" d_str (fun s => Some (SrmAuthorize ws s)))) p.2
  else if String.eqb p.1 "unauthorize_workers" then
    struct ["workers"; "service_name"] (fun l => fld l "workers" (d_vec d_str) (fun ws =>
      fld l "service_name" d_str (fun s => Some (SrmUnauthorize ws s)))) p.2
  else if String.eqb p.1 "declare_chain_support" then
    struct ["service_name"; "chains"] (fun l => fld l "service_name" d_str (fun s =>
      fld l "chains" (d_vec d_chain) (fun cs => Some (SrmDeclare s cs)))) p.2
  else if String.eqb p.1 "bond_worker" then
    struct ["service_name"] (fun l => fld l "service_name" d_str (fun s => Some (SrmBond s))) p.2
  else if String.eqb p.1 "unbond_worker" then
    struct ["service_name"] (fun l => fld l "service_name" d_str (fun s => Some (SrmUnbond s))) p.2
  else if String.eqb p.1 "claim_stake" then
    struct ["service_name"] (fun l => fld l "service_name" d_str (fun s => Some (SrmClaim s))) p.2
  else None.

(** ** Calls

    A call is a text with what the chain adds to it: the sender, the attached
    funds, the block. [None]: the text is refused before the contract runs. *)
Definition vv_call (h : N) (sender : addr) (reg : registry_oracle) (text : string) : option vop :=
  v ← of_wire text; m ← d_vv v;
  Some match m with
       | VvEndPoll id => EndPoll h id
       | VvVote id vs => Vote h sender id vs
       | VvVerifyMessages ms => VerifyMessages h reg ms
       | VvVerifyWorkerSet i o => VerifyWorkerSet h reg i o
       end.
(** multisig/src/contract.rs:41-84 [execute]. Left out: the check of the
    address of a signature verifier. *)
Definition ms_call (h : N) (sender : addr) (text : string) : option mop :=
  v ← of_wire text; m ← d_ms v;
  Some match m with
       | MsStart w d c _ => StartSession sender w d c
       | MsSubmit id sg => SubmitSignature h sender id sg
       | MsRegisterSet w => RegisterWorkerSet sender w
       | MsRegisterKey k => RegisterPublicKey sender (pk_type k) (pk_bytes k)
       | MsAuthorize a => SetCaller sender true a
       | MsUnauthorize a => SetCaller sender false a
       end.
Definition rw_call (h : N) (sender : addr) (funds : list (string * N)) (text : string) : option rop :=
  v ← of_wire text; m ← d_rw v;
  Some match m with
       | RwRecord ev w => Record_ h sender ev w
       | RwDistribute c n => Distribute h c n
       | RwAdd c => AddRewards c funds
       | RwUpdate p => UpdateParams h sender p
       end.
Definition gw_call (sender : addr) (answer : gwanswer) (text : string) : option gwop :=
  v ← of_wire text; m ← d_gw v;
  Some match m with
       | GwmVerify ms => GwVerifyMessages ms answer
       | GwmRoute ms => GwRouteMessages sender ms answer
       end.
Definition nx_call (sender : addr) (text : string) : option nxop :=
  v ← of_wire text; m ← d_nx v;
  Some match m with
       | NxmRoute ms => NxRouteMessages sender ms
       | NxmFromNexus ns => NxRouteMessagesFromNexus sender ns
       end.
Definition rt_call (sender : addr) (text : string) : option rtop :=
  v ← of_wire text; m ← d_rt v;
  Some match m with
       | RtmRegister c g => RegisterChain sender c g
       | RtmUpgrade c g => UpgradeGateway sender c g
       | RtmFreeze c d => FreezeChain sender c d
       | RtmUnfreeze c d => UnfreezeChain sender c d
       | RtmRoute ms => RouteMessages sender ms
       end.
Definition pr_call (text : string) : option pcall := v ← of_wire text; d_pr v.
Definition sr_call (time : N) (sender : addr) (funds : list coin) (text : string) : option srop :=
  v ← of_wire text; m ← d_sr v;
  Some match m with
       | SrmRegister sv => RegisterService sender sv
       | SrmAuthorize ws s => AuthorizeWorkers sender ws s
       | SrmUnauthorize ws s => UnauthorizeWorkers sender ws s
       | SrmDeclare s cs => DeclareChainSupport sender s cs
       | SrmBond s => BondWorker sender funds s
       | SrmUnbond s => UnbondWorker time sender s
       | SrmClaim s => ClaimStake time sender s
       end.
Definition ag_call (text : string) : option (list message) := v ← of_wire text; d_ag v.
