(** What is asked of ampd's handlers, in terms of the attributes of the event,
    the answers of the nodes asked, and the transaction submitted. *)
From Verif Require Import Base Text StdModel RouterTypes OperatorsModel EncodingModel EventsModel
  HandlersModel.

(** ** Reading the event *)

(** attribute [k] of an event of type [ty] is [v] *)
Definition has_attr (ev : event) (ty k : string) (v : jval) : Prop :=
  exists attrs, ev = Abci ty attrs /\ attrs !! k = Some v.
(** field [k] of a JSON object is [v] *)
Definition has_field (j : jval) (k : string) (v : jval) : Prop :=
  exists l, j = JObj l /\ field_of l k = Some v.
(** [s] is [len] bytes [b] in hex, with or without 0x *)
Definition hex_bytes (len : nat) (s b : string) : Prop :=
  String.length b = len /\
  (of_hex s = Some b \/ exists s', s = "0x" +:+ s' /\ of_hex s' = Some b).

(** A message of a poll. *)
Record message_fields (tx src : string -> string -> Prop) (j : jval) (t : string) (i : N)
    (daddr dchain s h : string) : Prop := {
  mf_tx : exists x, has_field j "tx_id" (JStr x) /\ tx x t;
  mf_index : has_field j "event_index" (JNum i);
  mf_daddr : has_field j "destination_address" (JStr daddr);
  mf_dchain : exists x, has_field j "destination_chain" (JStr x) /\ dchain = lower x;
  mf_src : exists x, has_field j "source_address" (JStr x) /\ src x s;
  mf_hash : exists x, has_field j "payload_hash" (JStr x) /\ hex_bytes 32 x h;
}.

(** A worker set of a poll: operators with weights, and a threshold. *)
Record worker_set_fields (tx op : string -> string -> Prop) (j : jval) (t : string) (i : N)
    (ops : list (string * N)) (threshold : N) : Prop := {
  wf_tx : exists x, has_field j "tx_id" (JStr x) /\ tx x t;
  wf_index : has_field j "event_index" (JNum i);
  wf_ops : exists o l, has_field j "operators" o /\ has_field o "weights_by_addresses" (JArr l) /\
    Forall2 (fun v p => exists x y, v = JArr [JStr x; JStr y] /\ op x p.1 /\ parse_uint U256 y = Some p.2)
            l ops;
  wf_threshold : exists o y, has_field j "operators" o /\ has_field o "threshold" (JStr y) /\
    parse_uint U256 y = Some threshold;
}.

(** The event is a poll of this worker's contract in which it takes part and
    which is open at [height]. *)
Definition poll_for (cfg : hconfig) (height : N) (ev : event) (ty : string) (poll : N) : Prop :=
  has_attr ev ty "_contract_address" (JStr (hc_contract cfg)) /\
  (exists x, has_attr ev ty "poll_id" (JStr x) /\ parse_u64 x = Some poll) /\
  (exists l, has_attr ev ty "participants" (JArr l) /\ JStr (hc_worker cfg) ∈ l) /\
  (exists e, has_attr ev ty "expires_at" (JNum e) /\ height < e).
(** ... and it is about the configured chain *)
Definition poll_of_chain (cfg : hconfig) (ev : event) (ty : string) : Prop :=
  exists x, has_attr ev ty "source_chain" (JStr x) /\ lower x = lower (evm_chain_str (hc_chain cfg)).

(** ** EVM *)

(** Block [b] counts as final: at or below the finalized block for Ethereum,
    at least [confs] blocks deep (counting itself) elsewhere. *)
Definition evm_final (c : evm_chain) (confs : N) (rpc : evm_rpc) (b : N) : Prop :=
  match c with
  | Ethereum => exists f, er_finalized rpc = Some (Some f) /\ b <= f
  | OtherChain _ => exists n, er_latest rpc = Some n /\ confs <= n /\ b + confs <= n + 1
  end.

(** The node's receipt for a request [q] is that of transaction [t], is in a
    final block, and its first log with index [i] is one of [t], emitted by
    [gateway], that decodes to [e]. A receipt without block number counts as
    in block 2^64-1. *)
Definition evm_seen (c : evm_chain) (confs : N) (rpc : evm_rpc) (q gateway t : string) (i : N)
    (e : gw_event) : Prop :=
  exists r l pre post,
    er_receipt rpc q = Some (Some r) /\ r_hash r = t /\
    evm_final c confs rpc (default (2 ^ 64 - 1) (r_block r)) /\
    r_logs r = pre ++ l :: post /\ Forall (fun l' => l_index l' <> Some i) pre /\
    l_index l = Some i /\ l_tx l = Some t /\ l_addr l = gateway /\ l_event l = Some e.

(** A node that answers with the receipt asked for. *)
Definition honest_receipts (rpc : evm_rpc) : Prop :=
  forall q r, er_receipt rpc q = Some (Some r) -> r_hash r = q.
(** Walking a hash set visits each element once. *)
Definition set_order (f : list string -> list string) : Prop :=
  forall l, NoDup (f l) /\ forall x, x ∈ f l <-> x ∈ l.

(** Vote [v] is right for the message [j] of a poll: it is [SucceededOnChain]
    only if some receipt the node answered with shows the call, and if the node
    answers with the receipts asked for, exactly if the receipt of the
    message's transaction shows it. *)
Definition evm_message_vote (c : evm_chain) (confs : N) (rpc : evm_rpc) (gateway : string)
    (j : jval) (v : vote) : Prop :=
  exists t i daddr dchain s h,
    message_fields (hex_bytes 32) (hex_bytes 20) j t i daddr dchain s h /\
    (v = SucceededOnChain \/ v = NotFound) /\
    (v = SucceededOnChain ->
       exists q dc, lower dc = dchain /\
         evm_seen c confs rpc q gateway t i (ContractCall s dc daddr h)) /\
    (honest_receipts rpc -> set_order (er_order rpc) ->
     (v = SucceededOnChain <->
       exists dc, lower dc = dchain /\ evm_seen c confs rpc t gateway t i (ContractCall s dc daddr h))).

(** The operators data the gateway emits for a set: the ABI encoding of
    (address[], uint256[], uint256). *)
Definition evm_operators (ops : list (string * N)) (threshold : N) : string :=
  abi_encode [TArray (TAddress ∘ fst <$> ops); TArray (TUint ∘ snd <$> ops); TUint threshold].

(** Vote [v] is right for the worker set [j] of a poll. *)
Definition evm_worker_set_vote (c : evm_chain) (confs : N) (rpc : evm_rpc) (gateway : string)
    (j : jval) (v : vote) : Prop :=
  exists t i ops threshold,
    worker_set_fields (hex_bytes 32) (hex_bytes 20) j t i ops threshold /\
    (v = SucceededOnChain \/ v = NotFound) /\
    (v = SucceededOnChain <->
      evm_seen c confs rpc t gateway t i (OperatorshipTransferred (evm_operators ops threshold))).

(** ** Sui *)
Definition sui_seen (b : sui_block) (gateway t : string) (i : N) (m n : string) (e : sui_event) : Prop :=
  sb_digest b = t /\ sb_checkpoint b = true /\
  exists pre post, sb_events b = pre ++ e :: post /\ Forall (fun e' => se_seq e' <> i) pre /\
    se_seq e = i /\ se_type e = Some (gateway, m, n).

Definition sui_message_vote (base58 : string -> option string) (bs : list sui_block) (gateway : string)
    (j : jval) (v : vote) : Prop :=
  exists t i daddr dchain s h,
    message_fields (fun x b => base58 x = Some b) (hex_bytes 32) j t i daddr dchain s h /\
    (v = SucceededOnChain \/ v = NotFound) /\
    (v = SucceededOnChain ->
       exists b e dc, b ∈ bs /\ lower dc = dchain /\ sui_seen b gateway t i "gateway" "ContractCall" e /\
         se_call e = Some (s, dc, daddr, h)) /\
    (NoDup (sb_digest <$> bs) ->
     (v = SucceededOnChain <->
       exists b e dc, b ∈ bs /\ lower dc = dchain /\ sui_seen b gateway t i "gateway" "ContractCall" e /\
         se_call e = Some (s, dc, daddr, h))).

(** The operators data of the Sui gateway: BCS of (vector<vector<u8>>,
    vector<u128>, u128). *)
Definition sui_operators (ops : list (string * N)) (threshold : N) : option string :=
  bcs_tuple [bcs_seq bcs_bytes ops.*1; bcs_seq (fun n => Some (le_bytes 16 n)) ops.*2;
             Some (le_bytes 16 threshold)].
(** [block]: the node's answer for the worker set's transaction *)
Definition sui_worker_set_vote (base58 : string -> option string) (rpc : sui_rpc) (gateway : string)
    (j : jval) (v : vote) : Prop :=
  exists t i ops threshold block,
    worker_set_fields (fun x b => base58 x = Some b) (fun x b => of_hex x = Some b) j t i ops threshold /\
    sr_block rpc t = Some block /\
    (v = SucceededOnChain \/ v = NotFound) /\
    (v = SucceededOnChain <->
      exists e d, sui_seen block gateway t i "validators" "OperatorshipTransferred" e /\
        se_transfer e = Some d /\ sui_operators ops threshold = Some d).
