(** Model of ampd's event handlers (ampd/src/handlers), of the checks they
    make on other chains (ampd/src/evm, ampd/src/sui) and of what they hand to
    the broadcast queue. *)
From Verif Require Import Base Text StdModel RouterTypes OperatorsModel EncodingModel EventsModel.

(** What a handler submits: a [MsgExecuteContract] (evm_verify_msg.rs:128-142,
    multisig.rs:97-119). Simplification: the JSON bodies are kept as values. *)
Inductive tx_body :=
| BodyVote (poll : N) (votes : list vote)
| BodySignature (session : N) (sig : string).
Record wasm_tx := { wt_sender : addr; wt_contract : addr; wt_body : tx_body }.

(** handlers/errors.rs *)
Inductive herror := DeserializeEvent | FinalizerError | TxReceipts | SignError | BroadcasterError.

(** handlers answer with the transaction given to the broadcaster, if any *)
Definition answer := res herror (option wasm_tx).

(** queued_broadcaster.rs, the client's [broadcast]: fails if the queue is gone *)
Definition submit (open : bool) (tx : wasm_tx) : answer :=
  if open then Ok (Some tx) else Err BroadcasterError.

(** ** EVM *)

(** evm/mod.rs:12-17 [ChainName] *)
Inductive evm_chain := Ethereum | OtherChain (s : string).
(** the derived [Display] *)
Definition evm_chain_str (c : evm_chain) : string :=
  match c with Ethereum => "Ethereum" | OtherChain s => s end.
(** serde: the variant's exact name, anything else is [Other] *)
Definition evm_chain_of (s : string) : evm_chain :=
  if String.eqb s "Ethereum" then Ethereum else OtherChain s.
(** evm/mod.rs:19-23: [eq_ignore_ascii_case] *)
Definition evm_chain_eq (c : evm_chain) (name : string) : bool :=
  String.eqb (lower (evm_chain_str c)) (lower name).

(** The gateway's events, decoded ([IAxelarGatewayEvents::decode_log]). *)
Inductive gw_event :=
| ContractCall (sender dchain daddr hash : string)
| OperatorshipTransferred (data : string)
| OtherEvent.
(** ethers [Log] and [TransactionReceipt], the fields used. [l_event] is what
    [decode_log] makes of the log's topics and data, [None] if it fails. *)
Record evm_log := { l_index : option N; l_tx : option string; l_addr : string; l_event : option gw_event }.
Record receipt := { r_hash : string; r_block : option N; r_logs : list evm_log }.

(** evm/json_rpc.rs [EthereumClient], the answers during one call of a
    handler: the number of the finalized block ([None]: the request failed,
    [Some None]: the block has no number), the latest block number, and the
    receipts. [er_order]: the order in which a [HashSet] is walked. *)
Record evm_rpc := {
  er_finalized : option (option N);
  er_latest : option N;
  er_receipt : string -> option (option receipt);
  er_order : list string -> list string;
}.

(** evm/finalizer.rs:33-46, 71-85 [latest_finalized_block_height], evm/mod.rs:25-44
    [finalizer]; the arithmetic of [U64] panics on overflow. *)
Definition finalized_height (c : evm_chain) (confs : N) (rpc : evm_rpc) : res herror N :=
  match c with
  | Ethereum =>
      match er_finalized rpc with
      | Some (Some n) => Ok n
      | _ => Err FinalizerError
      end
  | OtherChain _ =>
      let? n := of_option FinalizerError (er_latest rpc) in
      if n <? confs then Panic else checked U64 (n - confs + 1)
  end.

(** evm_verify_msg.rs:113-118, evm_verify_worker_set.rs:108-113 *)
Definition receipt_final (height : N) (r : receipt) : bool :=
  default (U64 - 1) (r_block r) <=? height.

(** evm_verify_msg.rs:91-126 [finalized_tx_receipts]: failed requests and
    missing receipts are dropped, later entries replace earlier ones. *)
Definition finalized_receipts (c : evm_chain) (confs : N) (rpc : evm_rpc) (txs : list string)
  : res herror (gmap string receipt) :=
  let? h := finalized_height c confs rpc in
  Ok (list_to_map (reverse
        (omap (fun t => match er_receipt rpc t with
                        | Some (Some r) => if receipt_final h r then Some (r_hash r, r) else None
                        | _ => None
                        end) (er_order rpc txs)))).
(** evm_verify_worker_set.rs:91-119 [finalized_tx_receipt] *)
Definition finalized_receipt (c : evm_chain) (confs : N) (rpc : evm_rpc) (tx : string)
  : res herror (option receipt) :=
  let? h := finalized_height c confs rpc in
  let? o := of_option FinalizerError (er_receipt rpc tx) in
  Ok (match o with Some r => if receipt_final h r then Some r else None | None => None end).

(** evm/verifier.rs:65-81 [get_event] *)
Definition get_event (gateway : string) (r : receipt) (idx : N) : option (evm_log * gw_event) :=
  match List.find (fun l => bool_decide (l_index l = Some idx)) (r_logs r) with
  | Some l => if String.eqb (l_addr l) gateway
              then (fun e => (l, e)) <$> l_event l else None
  | None => None
  end.

(** evm/verifier.rs:15-31: [msg.destination_chain == event.destination_chain]
    compares a [ChainName] with a string (connection-router/src/state.rs) *)
Definition evm_message_eq (l : evm_log) (e : gw_event) (m : tx_message) : bool :=
  match e with
  | ContractCall s c a h =>
      bool_decide (l_tx l = Some (xm_tx m)) && bool_decide (l_index l = Some (xm_index m))
      && String.eqb s (xm_src m) && chain_name_eq_str (xm_dchain m) c
      && String.eqb a (xm_daddr m) && String.eqb h (xm_hash m)
  | _ => false
  end.

(** evm/verifier.rs:33-63: the ABI encoding of operators, weights, threshold *)
Definition operators_data (w : tx_worker_set) : string :=
  abi_encode [TArray (TAddress ∘ fst <$> xw_weights w); TArray (TUint ∘ snd <$> xw_weights w);
              TUint (xw_threshold w)].
Definition evm_worker_set_eq (l : evm_log) (e : gw_event) (w : tx_worker_set) : bool :=
  match e with
  | OperatorshipTransferred d =>
      bool_decide (l_tx l = Some (xw_tx w)) && bool_decide (l_index l = Some (xw_index w))
      && String.eqb d (operators_data w)
  | _ => false
  end.

(** evm/verifier.rs:83-94 [verify_message], 96-107 [verify_worker_set] *)
Definition evm_verify_message (gateway : string) (r : receipt) (m : tx_message) : vote :=
  match get_event gateway r (xm_index m) with
  | Some (l, e) => if String.eqb (r_hash r) (xm_tx m) && evm_message_eq l e m
                   then SucceededOnChain else NotFound
  | None => NotFound
  end.
Definition evm_verify_worker_set (gateway : string) (r : receipt) (w : tx_worker_set) : vote :=
  match get_event gateway r (xw_index w) with
  | Some (l, e) => if String.eqb (r_hash r) (xw_tx w) && evm_worker_set_eq l e w
                   then SucceededOnChain else NotFound
  | None => NotFound
  end.

(** A handler's configuration: evm_verify_msg.rs:55-66 [Handler] and its
    likes; for the Sui handlers [hc_chain] is unused. *)
Record hconfig := { hc_worker : addr; hc_contract : addr; hc_chain : evm_chain }.

Section Handlers.
  Context (is_account : string -> bool).

  (** the skeleton common to the handlers: event of another type, event that
      cannot be decoded (events-derive/src/lib.rs:44-60) *)
  Definition typed {A} (ty : string) (de : gmap string jval -> option A) (ev : event)
      (k : A -> answer) : answer :=
    match ev with
    | Abci t attrs =>
        if String.eqb t ty
        then match de attrs with Some a => k a | None => Err DeserializeEvent end
        else Ok None
    | _ => Ok None
    end.

  Definition vote_tx (cfg : hconfig) (poll : N) (votes : list vote) : wasm_tx :=
    {| wt_sender := hc_worker cfg; wt_contract := hc_contract cfg; wt_body := BodyVote poll votes |}.

  (** evm_verify_msg.rs:164-182, evm_verify_worker_set.rs:160-178: whether the
      handler goes on with the poll. [height] is the latest block height. *)
  Definition evm_relevant {A} (cfg : hconfig) (height : N) (p : evm_poll A) : bool :=
    String.eqb (hc_contract cfg) (ep_contract p)
    && evm_chain_eq (hc_chain cfg) (ep_chain p)
    && bool_decide (hc_worker cfg ∈ ep_participants p)
    && negb (ep_expires p <=? height).

  Definition de_evm_messages :=
    de_evm_poll is_account "messages" (de_vec (de_message (de_fixed 32) (de_fixed 20))).
  Definition de_evm_worker_set :=
    de_evm_poll is_account "worker_set" (de_worker_set (de_fixed 32) (de_fixed 20) de_uint256).

  (** evm_verify_msg.rs:153-232 [handle] *)
  Definition evm_message_votes (p : evm_poll (list tx_message)) (rs : gmap string receipt) : list vote :=
    (fun m => match rs !! xm_tx m with
              | Some r => evm_verify_message (ep_gateway p) r m
              | None => NotFound
              end) <$> ep_item p.
  Definition evm_msg_handler (cfg : hconfig) (height : N) (open : bool) (rpc : evm_rpc) (ev : event)
    : answer :=
    typed "wasm-messages_poll_started" de_evm_messages ev (fun p =>
      if evm_relevant cfg height p then
        let? rs := finalized_receipts (hc_chain cfg) (ep_confirmations p) rpc (xm_tx <$> ep_item p) in
        submit open (vote_tx cfg (ep_poll p) (evm_message_votes p rs))
      else Ok None).

  (** evm_verify_worker_set.rs:149-211 [handle] *)
  Definition evm_ws_handler (cfg : hconfig) (height : N) (open : bool) (rpc : evm_rpc) (ev : event)
    : answer :=
    typed "wasm-worker_set_poll_started" de_evm_worker_set ev (fun p =>
      if evm_relevant cfg height p then
        let? o := finalized_receipt (hc_chain cfg) (ep_confirmations p) rpc (xw_tx (ep_item p)) in
        let v := match o with
                 | Some r => evm_verify_worker_set (ep_gateway p) r (ep_item p)
                 | None => NotFound
                 end in
        submit open (vote_tx cfg (ep_poll p) [v])
      else Ok None).

  (** ** Sui *)

  (** An event of a Sui transaction. [se_type]: address, module and name of
      its Move type, [None] for types of another shape; [se_call] and
      [se_transfer]: what its JSON body decodes to as a [ContractCall] and as
      an [OperatorshipTransferred] (sui/verifier.rs:12-23), if it does. *)
  Record sui_event := {
    se_seq : N;
    se_type : option (string * string * string);
    se_call : option (string * string * string * string);
    se_transfer : option string;
  }.
  Record sui_block := { sb_digest : string; sb_checkpoint : bool; sb_events : list sui_event }.
  (** sui/json_rpc.rs [SuiClient]: the node's answer to a request for one
      block and for several, [None] if the request fails. *)
  Record sui_rpc := {
    sr_block : string -> option sui_block;
    sr_blocks : list string -> option (list sui_block);
    sr_order : list string -> list string;
  }.
  (** sui/json_rpc.rs:32-48 *)
  Definition sui_finalized_block (rpc : sui_rpc) (d : string) : res herror (option sui_block) :=
    let? b := of_option TxReceipts (sr_block rpc d) in
    Ok (if sb_checkpoint b then Some b else None).
  (** sui/json_rpc.rs:50-70 *)
  Definition sui_finalized_blocks (rpc : sui_rpc) (ds : list string)
    : res herror (gmap string sui_block) :=
    let? bs := of_option TxReceipts (sr_blocks rpc (sr_order rpc ds)) in
    Ok (list_to_map (reverse (omap (fun b => if sb_checkpoint b then Some (sb_digest b, b) else None) bs))).

  (** sui/verifier.rs:85-95 [find_event] *)
  Definition find_event (b : sui_block) (seq : N) : option sui_event :=
    List.find (fun e => se_seq e =? seq) (sb_events b).
  (** sui/verifier.rs:49-61 *)
  Definition sui_message_eq (e : sui_event) (m : tx_message) : bool :=
    match se_call e with
    | Some (s, c, a, h) =>
        String.eqb s (xm_src m) && chain_name_eq_str (xm_dchain m) c
        && String.eqb a (xm_daddr m) && String.eqb h (xm_hash m)
    | None => false
    end.
  (** sui/verifier.rs:63-83: BCS of (Vec<Vec<u8>>, Vec<u128>, u128) *)
  Definition sui_operators_data (w : tx_worker_set) : option string :=
    bcs_tuple [bcs_seq bcs_bytes (xw_weights w).*1;
               bcs_seq (fun n => Some (le_bytes 16 n)) (xw_weights w).*2;
               Some (le_bytes 16 (xw_threshold w))].
  (** sui/verifier.rs:97-112 [verify_message] *)
  Definition sui_verify_message (gateway : string) (b : sui_block) (m : tx_message) : vote :=
    match find_event b (xm_index m) with
    | Some e =>
        if String.eqb (sb_digest b) (xm_tx m)
           && bool_decide (se_type e = Some (gateway, "gateway", "ContractCall"))
           && sui_message_eq e m
        then SucceededOnChain else NotFound
    | None => NotFound
    end.
  (** sui/verifier.rs:114-130 [verify_worker_set]; the encoding is only made
      if the event is of the right type and decodes, and then expected to
      succeed. *)
  Definition sui_verify_worker_set (gateway : string) (b : sui_block) (w : tx_worker_set)
    : res herror vote :=
    match find_event b (xw_index w) with
    | Some e =>
        if String.eqb (sb_digest b) (xw_tx w)
           && bool_decide (se_type e = Some (gateway, "validators", "OperatorshipTransferred"))
        then match se_transfer e with
             | Some payload =>
                 let? d := expect (sui_operators_data w) in
                 Ok (if String.eqb payload d then SucceededOnChain else NotFound)
             | None => Ok NotFound
             end
        else Ok NotFound
    | None => Ok NotFound
    end.

  (** base58 of 32 bytes ([TransactionDigest]); left abstract *)
  Context (base58 : string -> option string).
  Definition de_digest (v : jval) : option string :=
    match v with JStr s => base58 s | _ => None end.

  (** sui_verify_msg.rs:119-133, sui_verify_worker_set.rs:127-141 *)
  Definition sui_relevant {A} (cfg : hconfig) (height : N) (p : sui_poll A) : bool :=
    String.eqb (hc_contract cfg) (sp_contract p)
    && bool_decide (hc_worker cfg ∈ sp_participants p)
    && negb (sp_expires p <=? height).

  Definition de_sui_messages :=
    de_sui_poll is_account "messages" (de_vec (de_message de_digest (de_fixed 32))).
  Definition de_sui_worker_set :=
    de_sui_poll is_account "worker_set" (de_worker_set de_digest de_hex (de_uint U128)).

  (** sui_verify_msg.rs:104-155 [handle] *)
  Definition sui_message_votes (p : sui_poll (list tx_message)) (bs : gmap string sui_block) : list vote :=
    (fun m => match bs !! xm_tx m with
              | Some b => sui_verify_message (sp_gateway p) b m
              | None => NotFound
              end) <$> sp_item p.
  Definition sui_msg_handler (cfg : hconfig) (height : N) (open : bool) (rpc : sui_rpc) (ev : event)
    : answer :=
    typed "wasm-messages_poll_started" de_sui_messages ev (fun p =>
      if sui_relevant cfg height p then
        let? bs := sui_finalized_blocks rpc (xm_tx <$> sp_item p) in
        submit open (vote_tx cfg (sp_poll p) (sui_message_votes p bs))
      else Ok None).

  (** sui_verify_worker_set.rs:112-170 [handle] *)
  Definition sui_ws_handler (cfg : hconfig) (height : N) (open : bool) (rpc : sui_rpc) (ev : event)
    : answer :=
    typed "wasm-worker_set_poll_started" de_sui_worker_set ev (fun p =>
      if sui_relevant cfg height p then
        let? o := sui_finalized_block rpc (xw_tx (sp_item p)) in
        let? v := match o with
                  | Some b => sui_verify_worker_set (sp_gateway p) b (sp_item p)
                  | None => Ok NotFound
                  end in
        submit open (vote_tx cfg (sp_poll p) [v])
      else Ok None).

  (** ** Multisig *)

  (** One entry of the [pub_keys] attribute (multisig.rs:39-67): the key's
      JSON decoded to the bytes the signer is asked to use, [None] if it is
      not a valid key; left abstract. *)
  Context (de_key : jval -> option string).

  Record signing := { sg_contract : addr; sg_session : N; sg_keys : list (addr * string); sg_msg : string }.
  Definition de_keys (v : jval) : option (list (addr * string)) :=
    match v with
    | JObj l => opt_map (fun kv => match de_account is_account (JStr kv.1), de_key kv.2 with
                                   | Some a, Some k => Some (a, k)
                                   | _, _ => None
                                   end) l
    | _ => None
    end.
  (** tofnd/mod.rs [MessageDigest]: 32 bytes *)
  Definition de_digest32 (v : jval) : option string :=
    match v with
    | JStr s => match of_hex s with Some b => bytes32 b | None => None end
    | _ => None
    end.
  (** multisig.rs:27-37 [SigningStartedEvent] *)
  Definition de_signing (at' : gmap string jval) : option signing :=
    match de_attr at' "_contract_address" (de_account is_account), de_attr at' "session_id" de_u64,
          de_attr at' "pub_keys" de_keys, de_attr at' "msg" de_digest32 with
    | Some a, Some b, Some c, Some d =>
        Some {| sg_contract := a; sg_session := b; sg_keys := c; sg_msg := d |}
    | _, _, _, _ => None
    end.
  (** collecting into a [HashMap]: the last entry of a repeated address *)
  Definition key_of (ks : list (addr * string)) (a : addr) : option string :=
    (list_to_map (reverse ks) : gmap addr string) !! a.

  (** multisig.rs:129-171 [handle]. [sign] is the key daemon: key id, digest
      and public key to signature, [None] if it refuses. *)
  Definition multisig_handler (cfg : hconfig) (open : bool)
      (sign : string -> string -> string -> option string) (ev : event) : answer :=
    typed "wasm-signing_started" de_signing ev (fun s =>
      if String.eqb (hc_contract cfg) (sg_contract s) then
        match key_of (sg_keys s) (hc_worker cfg) with
        | Some pk =>
            let? sig := of_option SignError (sign (hc_contract cfg) (sg_msg s) pk) in
            submit open {| wt_sender := hc_worker cfg; wt_contract := hc_contract cfg;
                           wt_body := BodySignature (sg_session s) sig |}
        | None => Ok None
        end
      else Ok None).
End Handlers.
