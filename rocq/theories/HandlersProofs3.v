(** Proofs about ampd's handlers: polls that are voted on, and events that
    stop a handler. *)
From Verif Require Import Base Text TextLemmas BaseLemmas MapLemmas StdModel RouterTypes OperatorsModel EncodingModel
  VerifierModel EventsModel HandlersModel HandlersSpec HandlersProofs HandlersProofs2 WorkersSpec WorkersProofs.

Lemma of_hex_0x s : of_hex ("0x" +:+ s) = None.
Proof. reflexivity. Qed.
Lemma hex_bytes_fixed len s b : hex_bytes len s b <-> fixed_hex len s = Some b.
Proof.
  split; [|apply fixed_hex_spec]. intros [Hl [H|(s' & -> & H)]]; unfold fixed_hex.
  - assert (strip_0x s = s) as ->; [|rewrite H; by rewrite (proj2 (Nat.eqb_eq _ _) Hl)].
    unfold strip_0x. destruct s as [|c s]; [done|].
    destruct (decide (c = "0"%char)) as [->|Hc].
    + destruct s as [|c' s]; [done|]. destruct (decide (c' = "x"%char)) as [->|Hc'].
      * exfalso. pose proof (of_hex_0x s) as H0. change ("0x" +:+ s) with (String "0" (String "x" s)) in H0. congruence.
      * destruct c' as [[] [] [] [] [] [] [] []]; try done.
    + destruct c as [[] [] [] [] [] [] [] []]; try done.
  - cbn. rewrite H. by rewrite (proj2 (Nat.eqb_eq _ _) Hl).
Qed.
Lemma hex_bytes_inj len s b b' : hex_bytes len s b -> hex_bytes len s b' -> b = b'.
Proof. rewrite !hex_bytes_fixed. congruence. Qed.
Lemma hex_bytes_len len len' s b b' : hex_bytes len s b -> hex_bytes len' s b' -> len = len'.
Proof.
  rewrite !hex_bytes_fixed. unfold fixed_hex. destruct (of_hex (strip_0x s)) as [x|]; [|done].
  destruct (Nat.eqb_spec (String.length x) len); [|done].
  destruct (Nat.eqb_spec (String.length x) len'); [|done]. congruence.
Qed.

(** ** Events that stop a handler *)

Lemma typed_stops {A} ty (de : gmap string jval -> option A) attrs k :
  de attrs = None -> typed ty de (Abci ty attrs) k = Err DeserializeEvent.
Proof. intros H. unfold typed. by rewrite String.eqb_refl, H. Qed.

Lemma attr_plain json s : json s = None -> attr_value json s = JStr s.
Proof. intros H. unfold attr_value. by rewrite H. Qed.

Lemma meta_gateway json contract m : metadata_attrs json contract m !! "source_gateway_address" = Some (attr_value json (pm_gateway m)).
Proof. reflexivity. Qed.
Lemma meta_chain json contract m : metadata_attrs json contract m !! "source_chain" = Some (attr_value json (pm_chain m)).
Proof. reflexivity. Qed.

Lemma evm_poll_no_gateway {A} acc key (item : jval -> option A) attrs :
  de_attr attrs "source_gateway_address" (de_fixed 20) = None -> de_evm_poll acc key item attrs = None.
Proof. unfold de_evm_poll. intros ->. by repeat case_match. Qed.
Lemma evm_poll_no_chain {A} acc key (item : jval -> option A) attrs :
  de_attr attrs "source_chain" de_chain = None -> de_evm_poll acc key item attrs = None.
Proof. unfold de_evm_poll. intros ->. by repeat case_match. Qed.
Lemma evm_poll_no_item {A} acc key (item : jval -> option A) attrs :
  de_attr attrs key item = None -> de_evm_poll acc key item attrs = None.
Proof. unfold de_evm_poll. intros ->. by repeat case_match. Qed.
Lemma sui_poll_no_gateway {A} acc key (item : jval -> option A) attrs :
  de_attr attrs "source_gateway_address" (de_fixed 32) = None -> de_sui_poll acc key item attrs = None.
Proof. unfold de_sui_poll. intros ->. by repeat case_match. Qed.

(** A poll of a verifier of an EVM chain stops every Sui handler, and the
    other way round. *)
Lemma evm_poll_stops_sui acc b58 cfg height open rpc json contract es tx idx o meta gw :
  json (pm_gateway meta) = None -> hex_bytes 20 (pm_gateway meta) gw ->
  sui_msg_handler acc b58 cfg height open rpc (messages_poll_event json contract es meta) = Err DeserializeEvent /\
  sui_ws_handler acc b58 cfg height open rpc (worker_set_poll_event json contract tx idx o meta) = Err DeserializeEvent.
Proof.
  intros Hj Hg.
  assert (Hn : de_fixed 32 (attr_value json (pm_gateway meta)) = None).
  { rewrite attr_plain by done. cbn. destruct (fixed_hex 32 (pm_gateway meta)) as [b|] eqn:E; [|done].
    apply fixed_hex_spec in E. by pose proof (hex_bytes_len _ _ _ _ _ Hg E). }
  split; apply typed_stops, sui_poll_no_gateway; unfold de_attr;
    rewrite lookup_insert_ne by done; by rewrite meta_gateway.
Qed.
Lemma sui_poll_stops_evm acc cfg height open rpc json contract es tx idx o meta gw :
  json (pm_gateway meta) = None -> hex_bytes 32 (pm_gateway meta) gw ->
  evm_msg_handler acc cfg height open rpc (messages_poll_event json contract es meta) = Err DeserializeEvent /\
  evm_ws_handler acc cfg height open rpc (worker_set_poll_event json contract tx idx o meta) = Err DeserializeEvent.
Proof.
  intros Hj Hg.
  assert (Hn : de_fixed 20 (attr_value json (pm_gateway meta)) = None).
  { rewrite attr_plain by done. cbn. destruct (fixed_hex 20 (pm_gateway meta)) as [b|] eqn:E; [|done].
    apply fixed_hex_spec in E. by pose proof (hex_bytes_len _ _ _ _ _ Hg E). }
  split; apply typed_stops, evm_poll_no_gateway; unfold de_attr;
    rewrite lookup_insert_ne by done; by rewrite meta_gateway.
Qed.
(** A message id whose first part is not a transaction hash. *)
Lemma bad_id_stops_evm acc cfg height open rpc json contract es meta e :
  e ∈ es -> (forall t, ~ hex_bytes 32 (te_tx_id e) t) ->
  evm_msg_handler acc cfg height open rpc (messages_poll_event json contract es meta) = Err DeserializeEvent.
Proof.
  intros He Hb. apply typed_stops, evm_poll_no_item. unfold de_attr. rewrite lookup_insert.
  cbn [de_vec]. destruct (opt_map _ _) as [ms|] eqn:E; [|done]. exfalso.
  apply opt_map_ok in E. rewrite Forall2_fmap_l in E. apply elem_of_list_lookup in He as [i He].
  destruct (Forall2_lookup_l _ _ _ _ _ E He) as (m & _ & Hm).
  eapply de_message_spec in Hm; [|intros ? ?; apply de_fixed_spec..].
  apply message_json_fields in Hm as (H & _). by eapply Hb.
Qed.
(** A source chain whose name is a number. *)
Lemma numeric_chain_stops_evm acc cfg height open rpc json contract es tx idx o meta n :
  json (pm_chain meta) = Some (JNum n) ->
  evm_msg_handler acc cfg height open rpc (messages_poll_event json contract es meta) = Err DeserializeEvent /\
  evm_ws_handler acc cfg height open rpc (worker_set_poll_event json contract tx idx o meta) = Err DeserializeEvent.
Proof.
  intros Hj.
  assert (Hn : de_chain (attr_value json (pm_chain meta)) = None) by (unfold attr_value; by rewrite Hj).
  split; apply typed_stops, evm_poll_no_chain; unfold de_attr;
    rewrite lookup_insert_ne by done; by rewrite meta_chain.
Qed.
(** A digest that reads as a number. *)
Lemma numeric_digest_stops acc de_key cfg open sign json contract session keys digest v :
  json (to_hex digest) = Some v -> (v = JOtherNum \/ exists n, v = JNum n) ->
  multisig_handler acc de_key cfg open sign (signing_event json contract session keys digest) = Err DeserializeEvent.
Proof.
  intros Hj Hv. apply typed_stops. unfold de_signing.
  assert (Hd : de_attr (list_to_map [("_contract_address", attr_value json contract); ("session_id", JNum session);
     ("pub_keys", JObj keys); ("msg", attr_value json (to_hex digest))] : gmap string jval) "msg" de_digest32 = None).
  { unfold de_attr. change (_ !! "msg") with (Some (attr_value json (to_hex digest))).
    unfold attr_value. rewrite Hj. by destruct Hv as [->|[n ->]]. }
  rewrite Hd. by repeat case_match.
Qed.

(** ** Polls that are voted on *)

(** The verifier's event for messages in EVM form decodes. *)
Definition evm_form (e : tx_event) : Prop :=
  (exists t, hex_bytes 32 (te_tx_id e) t) /\ te_index e < 2 ^ 64 /\ wf_chain (te_dchain e) /\
  (exists s, hex_bytes 20 (te_src e) s) /\ String.length (te_hash e) = 32%nat.

Definition decoded (e : tx_event) (m : tx_message) : Prop :=
  hex_bytes 32 (te_tx_id e) (xm_tx m) /\ xm_index m = te_index e /\ xm_daddr m = te_daddr e /\
  xm_dchain m = te_dchain e /\ hex_bytes 20 (te_src e) (xm_src m) /\ xm_hash m = te_hash e.

Lemma message_decodes e : evm_form e -> exists m, de_message (de_fixed 32) (de_fixed 20) (message_json e) = Some m /\ decoded e m.
Proof.
  intros ((t & Ht) & Hi & Hc & (s & Hs) & Hh).
  exists {| xm_tx := t; xm_index := te_index e; xm_daddr := te_daddr e; xm_dchain := te_dchain e; xm_src := s; xm_hash := te_hash e |}.
  split; [|done]. unfold de_message, message_json.
  unfold de_field. cbn -[de_fixed de_chain de_u64 to_hex fixed_hex].
  assert (de_fixed 32 (JStr (te_tx_id e)) = Some t) as -> by by apply hex_bytes_fixed.
  assert (de_fixed 20 (JStr (te_src e)) = Some s) as -> by by apply hex_bytes_fixed.
  assert (de_fixed 32 (JStr (to_hex (te_hash e))) = Some (te_hash e)) as ->.
  { cbn [de_fixed]. apply hex_bytes_fixed. split; [done|]. left. apply of_to_hex. }
  assert (de_chain (JStr (te_dchain e)) = Some (te_dchain e)) as -> by exact Hc.
  assert (de_u64 (JNum (te_index e)) = Some (te_index e)) as ->.
  { cbn [de_u64]. destruct (N.ltb_spec (te_index e) U64) as [|Hge]; [done|]. change U64 with (2 ^ 64) in Hge. lia. }
  done.
Qed.

Lemma de_accounts acc l : Forall (fun a => acc a = true) l -> de_vec (de_account acc) (JArr (JStr <$> l)) = Some l.
Proof.
  intros H. cbn [de_vec]. apply opt_map_ok. rewrite Forall2_fmap_l.
  induction H as [|a l Ha _ IH]; constructor; [|done]. cbn. by rewrite Ha.
Qed.
Lemma u64_ok n : n < 2 ^ 64 -> de_u64 (JNum n) = Some n.
Proof. intros H. cbn [de_u64]. destruct (N.ltb_spec n U64) as [|Hge]; [done|]. change U64 with (2 ^ 64) in Hge. lia. Qed.

Lemma messages_decode acc json contract es meta gw :
  acc contract = true -> Forall (fun a => acc a = true) (pm_participants meta) ->
  json contract = None -> json (pm_chain meta) = None -> json (pm_gateway meta) = None ->
  wf_chain (pm_chain meta) -> hex_bytes 20 (pm_gateway meta) gw ->
  pm_poll_id meta < 2 ^ 64 -> pm_confirmations meta < 2 ^ 64 -> pm_expires_at meta < 2 ^ 64 ->
  Forall evm_form es ->
  exists ms, Forall2 decoded es ms /\
    de_evm_messages acc (<["messages" := JArr (message_json <$> es)]> (metadata_attrs json contract meta)) =
    Some {| ep_contract := contract; ep_poll := pm_poll_id meta; ep_chain := pm_chain meta; ep_gateway := gw;
            ep_confirmations := pm_confirmations meta; ep_expires := pm_expires_at meta; ep_item := ms;
            ep_participants := pm_participants meta |}.
Proof.
  intros Ha Hps Hj1 Hj2 Hj3 Hc Hg Hid Hcf Hex Hes.
  assert (Hms : exists ms, Forall2 decoded es ms /\
    de_vec (de_message (de_fixed 32) (de_fixed 20)) (JArr (message_json <$> es)) = Some ms).
  { clear -Hes. induction Hes as [|e es He _ IH]; [by exists []|].
    destruct IH as (ms & HF & IH). destruct (message_decodes e He) as (m & Hm & Hd).
    exists (m :: ms). split; [by constructor|]. cbn [de_vec] in *. cbn. cbn in IH. by rewrite Hm, IH. }
  destruct Hms as (ms & HF & Hms). exists ms. split; [done|].
  unfold de_evm_messages, de_evm_poll, de_attr. rewrite lookup_insert, Hms.
  rewrite !lookup_insert_ne by done.
  change (metadata_attrs json contract meta !! "_contract_address") with (Some (attr_value json contract)).
  change (metadata_attrs json contract meta !! "poll_id") with (Some (JStr (dec (pm_poll_id meta)))).
  change (metadata_attrs json contract meta !! "source_chain") with (Some (attr_value json (pm_chain meta))).
  change (metadata_attrs json contract meta !! "source_gateway_address") with (Some (attr_value json (pm_gateway meta))).
  change (metadata_attrs json contract meta !! "confirmation_height") with (Some (JNum (pm_confirmations meta))).
  change (metadata_attrs json contract meta !! "expires_at") with (Some (JNum (pm_expires_at meta))).
  change (metadata_attrs json contract meta !! "participants") with (Some (JArr (JStr <$> pm_participants meta))).
  rewrite !attr_plain by done. rewrite de_accounts by done. rewrite !u64_ok by done.
  assert (de_account acc (JStr contract) = Some contract) as -> by (cbn; by rewrite Ha).
  assert (de_uint U64 (JStr (dec (pm_poll_id meta))) = Some (pm_poll_id meta)) as ->.
  { cbn [de_uint]. by apply parse_uint_dec. }
  assert (de_chain (JStr (pm_chain meta)) = Some (pm_chain meta)) as -> by exact Hc.
  assert (de_fixed 20 (JStr (pm_gateway meta)) = Some gw) as -> by by apply hex_bytes_fixed.
  done.
Qed.

Lemma messages_handled acc cfg height open rpc json es meta gw h :
  acc (hc_contract cfg) = true -> Forall (fun a => acc a = true) (pm_participants meta) ->
  json (hc_contract cfg) = None -> json (pm_chain meta) = None -> json (pm_gateway meta) = None ->
  wf_chain (pm_chain meta) -> hex_bytes 20 (pm_gateway meta) gw ->
  pm_poll_id meta < 2 ^ 64 -> pm_confirmations meta < 2 ^ 64 -> pm_expires_at meta < 2 ^ 64 ->
  Forall evm_form es ->
  lower (evm_chain_str (hc_chain cfg)) = pm_chain meta -> hc_worker cfg ∈ pm_participants meta ->
  height < pm_expires_at meta ->
  finalized_height (hc_chain cfg) (pm_confirmations meta) rpc = Ok h -> open = true ->
  exists votes,
    evm_msg_handler acc cfg height open rpc (messages_poll_event json (hc_contract cfg) es meta) =
    Ok (Some {| wt_sender := hc_worker cfg; wt_contract := hc_contract cfg;
                wt_body := BodyVote (pm_poll_id meta) votes |}) /\ length votes = length es.
Proof.
  intros Ha Hps Hj1 Hj2 Hj3 Hc Hg Hid Hcf Hex Hes Hch Hw Hht Hfin ->.
  destruct (messages_decode acc json (hc_contract cfg) es meta gw) as (ms & HF & Hd); [done..|].
  unfold evm_msg_handler, typed, messages_poll_event. rewrite String.eqb_refl, Hd.
  match goal with |- context [evm_relevant cfg height ?p] => assert (evm_relevant cfg height p = true) as -> end.
  { apply evm_relevant_spec. cbn. split; [done|]. split; [by rewrite Hch, <- Hch, !lower_idem|]. done. }
  cbn [ep_confirmations ep_item ep_poll]. unfold finalized_receipts. rewrite Hfin. cbn [rbind]. unfold submit.
  eexists. split; [reflexivity|]. unfold evm_message_votes. rewrite fmap_length. cbn [ep_item].
  symmetry. by eapply Forall2_length.
Qed.

(** A chain with fewer blocks than the confirmations asked for. *)
Lemma young_chain_panics acc cfg height open rpc ev s attrs p n :
  hc_chain cfg = OtherChain s -> ev = Abci "wasm-messages_poll_started" attrs ->
  de_evm_messages acc attrs = Some p -> evm_relevant cfg height p = true ->
  er_latest rpc = Some n -> n < ep_confirmations p ->
  evm_msg_handler acc cfg height open rpc ev = Panic.
Proof.
  intros Hc -> Hd Hr Hn Hlt. unfold evm_msg_handler, typed. rewrite String.eqb_refl, Hd, Hr.
  unfold finalized_receipts, finalized_height. rewrite Hc, Hn. cbn.
  destruct (N.ltb_spec n (ep_confirmations p)); [done|lia].
Qed.
