(** Model of packages/events/src/event.rs and packages/events-derive/src/lib.rs,
    of the serde decoders the worker daemon (ampd) applies to event attributes,
    and of the events the voting verifier and the multisig contract emit. *)
From Verif Require Import Base Text StdModel RouterTypes OperatorsModel VerifierModel EncodingModel.

(** [serde_json::Value]. Simplification: the numbers that are not unsigned
    integers (negative or fractional) are one constructor. *)
Inductive jval :=
| JNull
| JBool (b : bool)
| JNum (n : N)
| JOtherNum
| JStr (s : string)
| JArr (l : list jval)
| JObj (l : list (string * jval)).

(** event.rs:12-20 [Event] *)
Inductive event :=
| BlockBegin (height : N)
| BlockEnd (height : N)
| Abci (event_type : string) (attrs : gmap string jval).

Section Attributes.
  (** [decode]: base64 followed by utf-8 (event.rs:71-73), [None] if either
      fails; [json]: [serde_json::from_str]. Both are left abstract. *)
  Context (decode : string -> option string) (json : string -> option jval).

  (** event.rs:55-62: an attribute is parsed as JSON if it is JSON, and is a
      string otherwise. *)
  Definition attr_value (v : string) : jval := default (JStr v) (json v).

  (** event.rs:64-69, 55-62 [try_into_kv_pair] *)
  Definition kv_pair (a : string * string) : option (string * jval) :=
    match decode a.1, decode a.2 with
    | Some k, Some v => Some (k, attr_value v)
    | _, _ => None
    end.

  (** event.rs:32-53 [TryFrom<abci::Event>]; collecting into a map keeps the
      last value of a repeated key. *)
  Fixpoint kv_pairs (l : list (string * string)) : option (list (string * jval)) :=
    match l with
    | [] => Some []
    | a :: l' =>
        match kv_pair a, kv_pairs l' with
        | Some x, Some r => Some (x :: r)
        | _, _ => None
        end
    end.
  Definition event_of_abci (ty : string) (l : list (string * string)) : option event :=
    (fun kvs => Abci ty (list_to_map (reverse kvs))) <$> kv_pairs l.
End Attributes.

(** ** serde decoders *)

(** [u64] *)
Definition de_u64 (v : jval) : option N :=
  match v with JNum n => if n <? U64 then Some n else None | _ => None end.
(** [String] *)
Definition de_string (v : jval) : option string :=
  match v with JStr s => Some s | _ => None end.
(** cosmwasm [Uint64] and [Uint128]: a JSON string, [str::parse] *)
Definition de_uint (bound : N) (v : jval) : option N :=
  match v with JStr s => parse_uint bound s | _ => None end.
(** cosmwasm [Uint256]: a JSON string of decimal digits *)
Definition de_uint256 (v : jval) : option N :=
  match v with
  | JStr s => if is_empty s then None
              else match undec s 0 with
                   | Some n => if n <? U256 then Some n else None
                   | None => None
                   end
  | _ => None
  end.
(** [connection_router::state::ChainName] (state.rs: [try_from = "String"]) *)
Definition de_chain (v : jval) : option string :=
  match v with JStr s => chain_name_of s | _ => None end.
(** [HexBinary], and [hex] of a byte vector *)
Definition de_hex (v : jval) : option string :=
  match v with JStr s => of_hex s | _ => None end.
(** [H256], [H160] (impl-serde 0.4: the prefix is optional, the length must be
    exact) and [SuiAddress]. Simplification: impl-serde skips white space
    inside the digits; here it is an error. *)
Definition fixed_hex (len : nat) (s : string) : option string :=
  match of_hex (strip_0x s) with
  | Some b => if (String.length b =? len)%nat then Some b else None
  | None => None
  end.
Definition de_fixed (len : nat) (v : jval) : option string :=
  match v with JStr s => fixed_hex len s | _ => None end.
(** [Vec<T>] *)
Fixpoint opt_map {A B} (f : A -> option B) (l : list A) : option (list B) :=
  match l with
  | [] => Some []
  | x :: l' => match f x, opt_map f l' with Some y, Some r => Some (y :: r) | _, _ => None end
  end.
Definition de_vec {A} (f : jval -> option A) (v : jval) : option (list A) :=
  match v with JArr l => opt_map f l | _ => None end.
(** a pair: a JSON array of two *)
Definition de_pair {A B} (f : jval -> option A) (g : jval -> option B) (v : jval) : option (A * B) :=
  match v with
  | JArr [a; b] => match f a, g b with Some x, Some y => Some (x, y) | _, _ => None end
  | _ => None
  end.
(** a field of a struct decoded from a JSON object; unknown fields are
    ignored. Simplification: of a repeated field the first counts, where serde
    reports an error. *)
Fixpoint field_of (l : list (string * jval)) (k : string) : option jval :=
  match l with
  | [] => None
  | (k', v) :: l' => if String.eqb k k' then Some v else field_of l' k
  end.
Definition de_field {A} (v : jval) (k : string) (f : jval -> option A) : option A :=
  match v with
  | JObj l => match field_of l k with Some x => f x | None => None end
  | _ => None
  end.
(** a field of the event struct itself *)
Definition de_attr {A} (attrs : gmap string jval) (k : string) (f : jval -> option A) : option A :=
  match attrs !! k with Some v => f v | None => None end.

Section Types.
  (** Whether a string is a Cosmos account address ([AccountId::from_str],
      bech32); left abstract. *)
  Context (is_account : string -> bool).

  (** ampd/src/types.rs:34-35 [TMAddress] *)
  Definition de_account (v : jval) : option addr :=
    match v with JStr s => if is_account s then Some s else None | _ => None end.

  (** What the five poll and signing handlers read from an event. [A]: the
      thing voted on. *)
  Record evm_poll (A : Type) := {
    ep_contract : addr; ep_poll : N; ep_chain : string; ep_gateway : string;
    ep_confirmations : N; ep_expires : N; ep_item : A; ep_participants : list addr;
  }.
  Global Arguments ep_contract {A} _.
  Global Arguments ep_poll {A} _.
  Global Arguments ep_chain {A} _.
  Global Arguments ep_gateway {A} _.
  Global Arguments ep_confirmations {A} _.
  Global Arguments ep_expires {A} _.
  Global Arguments ep_item {A} _.
  Global Arguments ep_participants {A} _.
  Record sui_poll (A : Type) := {
    sp_contract : addr; sp_poll : N; sp_gateway : string; sp_expires : N; sp_item : A;
    sp_participants : list addr;
  }.
  Global Arguments sp_contract {A} _.
  Global Arguments sp_poll {A} _.
  Global Arguments sp_gateway {A} _.
  Global Arguments sp_expires {A} _.
  Global Arguments sp_item {A} _.
  Global Arguments sp_participants {A} _.

  (** handlers/evm_verify_msg.rs:30-38, sui_verify_msg.rs:24-32 [Message] *)
  Record tx_message := {
    xm_tx : string; xm_index : N; xm_daddr : string; xm_dchain : string; xm_src : string;
    xm_hash : string;
  }.
  (** handlers/evm_verify_worker_set.rs:28-39, sui_verify_worker_set.rs:26-37
      [WorkerSetConfirmation] *)
  Record tx_worker_set := {
    xw_tx : string; xw_index : N; xw_weights : list (string * N); xw_threshold : N;
  }.

  Definition de_message (tx src : jval -> option string) (v : jval) : option tx_message :=
    match de_field v "tx_id" tx, de_field v "event_index" de_u64,
          de_field v "destination_address" de_string, de_field v "destination_chain" de_chain,
          de_field v "source_address" src, de_field v "payload_hash" (de_fixed 32) with
    | Some a, Some b, Some c, Some d, Some e, Some f =>
        Some {| xm_tx := a; xm_index := b; xm_daddr := c; xm_dchain := d; xm_src := e; xm_hash := f |}
    | _, _, _, _, _, _ => None
    end.
  Definition de_worker_set (tx op : jval -> option string) (num : jval -> option N) (v : jval)
    : option tx_worker_set :=
    match de_field v "tx_id" tx, de_field v "event_index" de_u64,
          de_field v "operators" (fun o => de_field o "weights_by_addresses" (de_vec (de_pair op num))),
          de_field v "operators" (fun o => de_field o "threshold" num) with
    | Some a, Some b, Some c, Some d =>
        Some {| xw_tx := a; xw_index := b; xw_weights := c; xw_threshold := d |}
    | _, _, _, _ => None
    end.

  (** evm_verify_msg.rs:40-53, evm_verify_worker_set.rs:41-53
      [PollStartedEvent]; [key] is the attribute with the item. *)
  Definition de_evm_poll {A} (key : string) (item : jval -> option A) (at' : gmap string jval)
    : option (evm_poll A) :=
    match de_attr at' "_contract_address" de_account, de_attr at' "poll_id" (de_uint U64),
          de_attr at' "source_chain" de_chain, de_attr at' "source_gateway_address" (de_fixed 20),
          de_attr at' "confirmation_height" de_u64, de_attr at' "expires_at" de_u64,
          de_attr at' key item, de_attr at' "participants" (de_vec de_account) with
    | Some a, Some b, Some c, Some d, Some e, Some f, Some g, Some h =>
        Some {| ep_contract := a; ep_poll := b; ep_chain := c; ep_gateway := d;
                ep_confirmations := e; ep_expires := f; ep_item := g; ep_participants := h |}
    | _, _, _, _, _, _, _, _ => None
    end.
  (** sui_verify_msg.rs:34-44, sui_verify_worker_set.rs:39-49 *)
  Definition de_sui_poll {A} (key : string) (item : jval -> option A) (at' : gmap string jval)
    : option (sui_poll A) :=
    match de_attr at' "_contract_address" de_account, de_attr at' "poll_id" (de_uint U64),
          de_attr at' "source_gateway_address" (de_fixed 32), de_attr at' key item,
          de_attr at' "participants" (de_vec de_account), de_attr at' "expires_at" de_u64 with
    | Some a, Some b, Some c, Some d, Some e, Some f =>
        Some {| sp_contract := a; sp_poll := b; sp_gateway := c; sp_item := d;
                sp_participants := e; sp_expires := f |}
    | _, _, _, _, _, _ => None
    end.
End Types.

(** ** Events of the contracts *)
Section Emit.
  Context (json : string -> option jval).

  (** The JSON the contracts print, as the value it parses to. *)
  (** contracts/voting-verifier/src/events.rs:130-142 [TxEventConfirmation] *)
  Definition message_json (e : tx_event) : jval :=
    JObj [("tx_id", JStr (te_tx_id e)); ("event_index", JNum (te_index e));
          ("destination_address", JStr (te_daddr e)); ("destination_chain", JStr (te_dchain e));
          ("source_address", JStr (te_src e)); ("payload_hash", JStr (to_hex (te_hash e)))].
  (** events.rs:112-117 [WorkerSetConfirmation] *)
  Definition worker_set_json (tx : string) (idx : N) (o : operators) : jval :=
    JObj [("tx_id", JStr tx); ("event_index", JNum idx);
          ("operators", JObj [("weights_by_addresses",
                               JArr ((fun p => JArr [JStr (to_hex p.1); JStr (dec p.2)]) <$> o_weights o));
                              ("threshold", JStr (dec (o_threshold o)))])].
  (** events.rs:60-83 [From<PollMetadata>]: the chain name and the gateway are
      written as they are, not as JSON strings. [_contract_address] is added
      by the wasm module of the chain. *)
  Definition metadata_attrs (contract : addr) (m : poll_metadata) : gmap string jval :=
    list_to_map
      [("_contract_address", attr_value json contract);
       ("poll_id", JStr (dec (pm_poll_id m)));
       ("source_chain", attr_value json (pm_chain m));
       ("source_gateway_address", attr_value json (pm_gateway m));
       ("confirmation_height", JNum (pm_confirmations m));
       ("expires_at", JNum (pm_expires_at m));
       ("participants", JArr (JStr <$> pm_participants m))].
  (** events.rs:85-110 [From<PollStarted>]; the wasm module prefixes the event
      types with "wasm-". *)
  Definition messages_poll_event (contract : addr) (es : list tx_event) (m : poll_metadata) : event :=
    Abci "wasm-messages_poll_started"
         (<["messages" := JArr (message_json <$> es)]> (metadata_attrs contract m)).
  Definition worker_set_poll_event (contract : addr) (tx : string) (idx : N) (o : operators)
      (m : poll_metadata) : event :=
    Abci "wasm-worker_set_poll_started"
         (<["worker_set" := worker_set_json tx idx o]> (metadata_attrs contract m)).

  (** contracts/multisig/src/events.rs:44-64 [SigningStarted]: the session id
      and the digest are written as they are. [keys] is what the map of public
      keys prints as. *)
  Definition signing_event (contract : addr) (session : N) (keys : list (string * jval))
      (digest : string) : event :=
    Abci "wasm-signing_started"
         (list_to_map [("_contract_address", attr_value json contract);
                       ("session_id", JNum session);
                       ("pub_keys", JObj keys);
                       ("msg", attr_value json (to_hex digest))]).
End Emit.
