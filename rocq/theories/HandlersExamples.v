(** Concrete events, nodes and answers of ampd's handlers. *)
From Verif Require Import Base BaseLemmas Text TextLemmas StdModel StdSpec RouterTypes RegistryTypes OperatorsModel EncodingModel
  VerifierModel VerifierSpec VerifierExamples EventsModel HandlersModel HandlersSpec HandlersProofs HandlersProofs2 HandlersProofs3
  WorkersSpec.

Definition hx_json : string -> option jval := fun _ => None.
Definition hx_acc : string -> bool := fun _ => true.
(** 20-byte and 32-byte values *)
Definition hx_gw : string := "gateway-of-20-bytes!".
Definition hx_src : string := "sender-20-bytes-long".
Definition hx_op : string := "operator-of-20-bytes".
Definition hx_tx1 : string := "transaction-one-of-32-bytes-long".
Definition hx_tx2 : string := "transaction-two-of-32-bytes-long".
Definition hx_hash : string := "payload-hash-having-32-bytes-all".

Definition hx_vcfg : vconfig :=
  {| vc_registry := "registry"; vc_service := "validators"; vc_gateway := "0x" +:+ to_hex hx_gw;
     vc_threshold := {| t_num := 2; t_den := 3 |}; vc_expiry := 10; vc_confirmations := 5;
     vc_chain := "eth"; vc_rewards := "rewards" |}.
Lemma hx_valid : valid_vconfig hx_vcfg.
Proof. exists 2, 3, {| t_num := 2; t_den := 3 |}. split; by vm_compute. Qed.
Definition hx_msg (tx : string) (i : string) : message :=
  {| m_cc := {| cc_chain := "eth"; cc_id := "0x" +:+ to_hex tx +:+ ":" +:+ i |}; m_src := "0x" +:+ to_hex hx_src;
     m_dchain := "avax"; m_daddr := "0xdest"; m_hash := hx_hash |}.
Definition hx_m1 := hx_msg hx_tx1 "1".
Definition hx_m2 := hx_msg hx_tx2 "4".
Definition hx_operators : operators := operators_new [(hx_op, 3)] 2.

(** The node: the first transaction calls the gateway in log 1, the second
    (in a block too young) in log 4; a third hands over to operators. *)
Definition hx_call : gw_event := ContractCall hx_src "Avax" "0xdest" hx_hash.
Definition hx_log (i : N) (tx : string) (e : gw_event) : evm_log :=
  {| l_index := Some i; l_tx := Some tx; l_addr := hx_gw; l_event := Some e |}.
Definition hx_node : evm_rpc :=
  {| er_finalized := Some (Some 90); er_latest := Some 100;
     er_receipt := fun q =>
       if String.eqb q hx_tx1
       then Some (Some {| r_hash := hx_tx1; r_block := Some 96;
                          r_logs := [hx_log 0 hx_tx1 OtherEvent; hx_log 1 hx_tx1 hx_call;
                                     hx_log 2 hx_tx1 (OperatorshipTransferred (evm_operators (o_weights hx_operators) 2))] |})
       else if String.eqb q hx_tx2
       then Some (Some {| r_hash := hx_tx2; r_block := Some 97; r_logs := [hx_log 4 hx_tx2 hx_call] |})
       else None;
     er_order := remove_dups |}.
Lemma hx_honest : honest_receipts hx_node.
Proof.
  intros q r. unfold hx_node, er_receipt.
  destruct (String.eqb_spec q hx_tx1) as [->|_]; [by intros [= <-]|].
  destruct (String.eqb_spec q hx_tx2) as [->|_]; [by intros [= <-]|done].
Qed.
Lemma hx_order : set_order (er_order hx_node).
Proof. intros l. split; [apply NoDup_remove_dups|]. intros x. apply elem_of_remove_dups. Qed.

Definition hx_cfg (w : addr) : hconfig := {| hc_worker := w; hc_contract := "verifier"; hc_chain := OtherChain "Eth" |}.
Definition hx_meta : poll_metadata :=
  {| pm_poll_id := 7; pm_chain := "eth"; pm_gateway := "0x" +:+ to_hex hx_gw; pm_confirmations := 5;
     pm_expires_at := 50; pm_participants := ["w1"; "w2"] |}.
Definition hx_events : list tx_event :=
  [ {| te_tx_id := "0x" +:+ to_hex hx_tx1; te_index := 1; te_daddr := "0xdest"; te_dchain := "avax";
       te_src := to_hex hx_src; te_hash := hx_hash |};
    {| te_tx_id := to_hex hx_tx2; te_index := 4; te_daddr := "0xdest"; te_dchain := "avax";
       te_src := to_hex hx_src; te_hash := hx_hash |} ].
Definition hx_poll : event := messages_poll_event hx_json "verifier" hx_events hx_meta.
Definition hx_ws_poll : event := worker_set_poll_event hx_json "verifier" (to_hex hx_tx1) 2 hx_operators hx_meta.

Lemma hx_votes :
  evm_msg_handler hx_acc (hx_cfg "w1") 49 true hx_node hx_poll =
    Ok (Some {| wt_sender := "w1"; wt_contract := "verifier"; wt_body := BodyVote 7 [SucceededOnChain; NotFound] |}) /\
  evm_ws_handler hx_acc (hx_cfg "w1") 49 true hx_node hx_ws_poll =
    Ok (Some {| wt_sender := "w1"; wt_contract := "verifier"; wt_body := BodyVote 7 [SucceededOnChain] |}).
Proof. split; vm_compute; reflexivity. Qed.
(** not for others, not when over *)
Lemma hx_ignored :
  evm_msg_handler hx_acc (hx_cfg "w3") 49 true hx_node hx_poll = Ok None /\
  evm_msg_handler hx_acc (hx_cfg "w1") 50 true hx_node hx_poll = Ok None /\
  evm_ws_handler hx_acc (hx_cfg "w3") 49 true hx_node hx_ws_poll = Ok None /\
  evm_ws_handler hx_acc (hx_cfg "w1") 49 true hx_node hx_poll = Ok None.
Proof. repeat split; vm_compute; reflexivity. Qed.

(** The spelling of the configured name decides what is final. *)
Definition hx_eth_poll : event :=
  messages_poll_event hx_json "verifier" hx_events
    {| pm_poll_id := 7; pm_chain := "ethereum"; pm_gateway := "0x" +:+ to_hex hx_gw; pm_confirmations := 5;
       pm_expires_at := 50; pm_participants := ["w1"; "w2"] |}.
Lemma c58_spelling : exists name name' ev rpc,
  lower name = lower name' /\ honest_receipts rpc /\ set_order (er_order rpc) /\
  let cfg n := {| hc_worker := "w1"; hc_contract := "verifier"; hc_chain := evm_chain_of n |} in
  let tx vs := Ok (Some {| wt_sender := "w1"; wt_contract := "verifier"; wt_body := BodyVote 7 vs |}) in
  evm_msg_handler hx_acc (cfg name) 49 true rpc ev = tx [NotFound; NotFound] /\
  evm_msg_handler hx_acc (cfg name') 49 true rpc ev = tx [SucceededOnChain; NotFound].
Proof.
  exists "Ethereum", "ethereum", hx_eth_poll, hx_node. split; [done|]. split; [exact hx_honest|]. split; [exact hx_order|].
  split; vm_compute; reflexivity.
Qed.

(** ** Sui *)
Definition hs_gw : string := "gateway-package-having-32-bytes!".
Definition hs_src : string := "sender-address-with-32-bytes-ok!".
Definition hs_b58 : string -> option string := fun s => if String.eqb s "digest1" then Some hx_tx1 else None.
Definition hs_meta : poll_metadata :=
  {| pm_poll_id := 8; pm_chain := "sui"; pm_gateway := "0x" +:+ to_hex hs_gw; pm_confirmations := 1;
     pm_expires_at := 50; pm_participants := ["w1"; "w2"] |}.
Definition hs_poll : event :=
  messages_poll_event hx_json "sui verifier"
    [ {| te_tx_id := "digest1"; te_index := 3; te_daddr := "0xdest"; te_dchain := "avax";
         te_src := to_hex hs_src; te_hash := hx_hash |} ] hs_meta.
Definition hs_ws_poll : event := worker_set_poll_event hx_json "sui verifier" "digest1" 4 hx_operators hs_meta.
Definition hs_block : sui_block :=
  {| sb_digest := hx_tx1; sb_checkpoint := true;
     sb_events := [ {| se_seq := 3; se_type := Some (hs_gw, "gateway", "ContractCall");
                       se_call := Some (hs_src, "avax", "0xdest", hx_hash); se_transfer := None |};
                    {| se_seq := 4; se_type := Some (hs_gw, "validators", "OperatorshipTransferred");
                       se_call := None; se_transfer := sui_operators (o_weights hx_operators) 2 |} ] |}.
Definition hs_node : sui_rpc :=
  {| sr_block := fun _ => Some hs_block; sr_blocks := fun _ => Some [hs_block]; sr_order := remove_dups |}.
Definition hs_cfg (w : addr) : hconfig := {| hc_worker := w; hc_contract := "sui verifier"; hc_chain := OtherChain "sui" |}.
Lemma hs_votes :
  sui_msg_handler hx_acc hs_b58 (hs_cfg "w1") 49 true hs_node hs_poll =
    Ok (Some {| wt_sender := "w1"; wt_contract := "sui verifier"; wt_body := BodyVote 8 [SucceededOnChain] |}) /\
  sui_ws_handler hx_acc hs_b58 (hs_cfg "w1") 49 true hs_node hs_ws_poll =
    Ok (Some {| wt_sender := "w1"; wt_contract := "sui verifier"; wt_body := BodyVote 8 [SucceededOnChain] |}) /\
  sui_msg_handler hx_acc hs_b58 (hs_cfg "w3") 49 true hs_node hs_poll = Ok None /\
  sui_ws_handler hx_acc hs_b58 (hs_cfg "w1") 50 true hs_node hs_ws_poll = Ok None.
Proof. repeat split; vm_compute; reflexivity. Qed.

(** ** Multisig *)
Definition hm_key : jval -> option string := fun v => match v with JStr s => Some s | _ => None end.
Definition hm_sign : addr -> string -> string -> option string := fun _ d k => Some (d +:+ k).
Definition hm_event : event := signing_event hx_json "multisig" 5 [("w1", JStr "key1"); ("w2", JStr "key2")] hx_hash.
Definition hm_cfg (w : addr) : hconfig := {| hc_worker := w; hc_contract := "multisig"; hc_chain := Ethereum |}.
Lemma hm_signs :
  multisig_handler hx_acc hm_key (hm_cfg "w2") true hm_sign hm_event =
    Ok (Some {| wt_sender := "w2"; wt_contract := "multisig"; wt_body := BodySignature 5 (hx_hash +:+ "key2") |}) /\
  multisig_handler hx_acc hm_key (hm_cfg "w3") true hm_sign hm_event = Ok None.
Proof. split; vm_compute; reflexivity. Qed.

(** ** Events that stop a handler *)

(** Anyone can have the verifier emit an event no EVM worker can decode. *)
Lemma c67_bad_id : exists c op ev,
  valid_vconfig c /\
  (forall k json, emitted json "verifier" <$> vlog k c [op] = [Some (ev json)]) /\
  forall json acc cfg height open rpc, evm_msg_handler acc cfg height open rpc (ev json) = Err DeserializeEvent.
Proof.
  set (bad := {| m_cc := {| cc_chain := "eth"; cc_id := "x:0" |}; m_src := "0x" +:+ to_hex hx_src;
     m_dchain := "avax"; m_daddr := "0xdest"; m_hash := hx_hash |}).
  set (es := [{| te_tx_id := "x"; te_index := 0; te_daddr := "0xdest"; te_dchain := "avax";
                 te_src := "0x" +:+ to_hex hx_src; te_hash := hx_hash |}]).
  set (meta := {| pm_poll_id := 1; pm_chain := "eth"; pm_gateway := "0x" +:+ to_hex hx_gw; pm_confirmations := 5;
                  pm_expires_at := 15; pm_participants := ["w1"; "w2"; "w3"] |}).
  exists hx_vcfg, (VerifyMessages 5 ex_reg [bad]), (fun json => messages_poll_event json "verifier" es meta).
  split; [exact hx_valid|]. split.
  - intros k json.
    assert (Hl : exists st, snd <$> vlog k hx_vcfg [VerifyMessages 5 ex_reg [bad]] = [OutVerify st (Some (es, meta))])
      by (eexists; vm_compute; reflexivity).
    destruct Hl as (st & Hl). destruct (vlog k hx_vcfg _) as [|e [|]]; try done. cbn in Hl. injection Hl as Hl.
    cbn. unfold emitted. by rewrite Hl.
  - intros. eapply bad_id_stops_evm; [left|].
    intros t Ht. apply hex_bytes_fixed in Ht. by vm_compute in Ht.
Qed.
