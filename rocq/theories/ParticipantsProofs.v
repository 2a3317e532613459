(** Every participant votes: the other three handlers. *)
From Verif Require Import Base Text TextLemmas BaseLemmas MapLemmas StdModel RouterTypes OperatorsModel EncodingModel
  VerifierModel EventsModel HandlersModel HandlersSpec HandlersProofs HandlersProofs2 WorkersSpec WorkersProofs HandlersProofs3 ParticipantsSpec.

Lemma evm_poll_decodes {A} acc json cfg meta gw key (item : jval -> option A) v x :
  plain_poll acc json cfg meta -> hex_bytes 20 (pm_gateway meta) gw -> key = "messages" \/ key = "worker_set" -> item v = Some x ->
  de_evm_poll acc key item (<[key := v]> (metadata_attrs json (hc_contract cfg) meta)) =
  Some {| ep_contract := hc_contract cfg; ep_poll := pm_poll_id meta; ep_chain := pm_chain meta; ep_gateway := gw;
          ep_confirmations := pm_confirmations meta; ep_expires := pm_expires_at meta; ep_item := x;
          ep_participants := pm_participants meta |}.
Proof.
  intros (Ha & Hps & Hj1 & Hj2 & Hj3 & Hc & Hid & Hcf & Hex) Hg Hk Hx. set (contract := hc_contract cfg) in *.
  unfold de_evm_poll, de_attr. rewrite lookup_insert, Hx.
  rewrite !lookup_insert_ne by (by destruct Hk as [-> | ->]).
  change (metadata_attrs json contract meta !! "_contract_address") with (Some (attr_value json contract)).
  change (metadata_attrs json contract meta !! "poll_id") with (Some (JStr (dec (pm_poll_id meta)))).
  change (metadata_attrs json contract meta !! "source_chain") with (Some (attr_value json (pm_chain meta))).
  change (metadata_attrs json contract meta !! "source_gateway_address") with (Some (attr_value json (pm_gateway meta))).
  change (metadata_attrs json contract meta !! "confirmation_height") with (Some (JNum (pm_confirmations meta))).
  change (metadata_attrs json contract meta !! "expires_at") with (Some (JNum (pm_expires_at meta))).
  change (metadata_attrs json contract meta !! "participants") with (Some (JArr (JStr <$> pm_participants meta))).
  rewrite !attr_plain by done. rewrite de_accounts by done. rewrite !u64_ok by done.
  assert (de_account acc (JStr contract) = Some contract) as -> by (cbn; by rewrite Ha).
  assert (de_uint U64 (JStr (dec (pm_poll_id meta))) = Some (pm_poll_id meta)) as ->.
  { cbn [de_uint]. by apply parse_uint_dec. }
  assert (de_chain (JStr (pm_chain meta)) = Some (pm_chain meta)) as -> by exact Hc.
  assert (de_fixed 20 (JStr (pm_gateway meta)) = Some gw) as -> by by apply hex_bytes_fixed.
  done.
Qed.
Lemma sui_poll_decodes {A} acc json cfg meta gw key (item : jval -> option A) v x :
  plain_poll acc json cfg meta -> hex_bytes 32 (pm_gateway meta) gw -> key = "messages" \/ key = "worker_set" -> item v = Some x ->
  de_sui_poll acc key item (<[key := v]> (metadata_attrs json (hc_contract cfg) meta)) =
  Some {| sp_contract := hc_contract cfg; sp_poll := pm_poll_id meta; sp_gateway := gw; sp_expires := pm_expires_at meta; sp_item := x;
          sp_participants := pm_participants meta |}.
Proof.
  intros (Ha & Hps & Hj1 & Hj2 & Hj3 & Hc & Hid & Hcf & Hex) Hg Hk Hx. set (contract := hc_contract cfg) in *.
  unfold de_sui_poll, de_attr. rewrite lookup_insert, Hx.
  rewrite !lookup_insert_ne by (by destruct Hk as [-> | ->]).
  change (metadata_attrs json contract meta !! "_contract_address") with (Some (attr_value json contract)).
  change (metadata_attrs json contract meta !! "poll_id") with (Some (JStr (dec (pm_poll_id meta)))).
  change (metadata_attrs json contract meta !! "source_gateway_address") with (Some (attr_value json (pm_gateway meta))).
  change (metadata_attrs json contract meta !! "expires_at") with (Some (JNum (pm_expires_at meta))).
  change (metadata_attrs json contract meta !! "participants") with (Some (JArr (JStr <$> pm_participants meta))).
  rewrite !attr_plain by done. rewrite de_accounts by done. rewrite !u64_ok by done.
  assert (de_account acc (JStr contract) = Some contract) as -> by (cbn; by rewrite Ha).
  assert (de_uint U64 (JStr (dec (pm_poll_id meta))) = Some (pm_poll_id meta)) as ->.
  { cbn [de_uint]. by apply parse_uint_dec. }
  assert (de_fixed 32 (JStr (pm_gateway meta)) = Some gw) as -> by by apply hex_bytes_fixed.
  done.
Qed.

(** ** Worker sets *)
Lemma uint256_dec n : n < 2 ^ 256 -> de_uint256 (JStr (dec n)) = Some n.
Proof.
  intros Hn. cbn [de_uint256]. rewrite undec_dec. destruct (dec n) as [|c r] eqn:E; [by apply dec_nonempty in E|]. cbn [is_empty].
  destruct (N.ltb_spec n U256) as [|Hge]; [done|]. change U256 with (2 ^ 256) in Hge. lia.
Qed.
Lemma fixed_to_hex n b : String.length b = n -> de_fixed n (JStr (to_hex b)) = Some b.
Proof. intros <-. cbn [de_fixed]. apply hex_bytes_fixed. split; [done|]. left. apply of_to_hex. Qed.

Lemma worker_set_decodes (tx op : jval -> option string) (num : jval -> option N) t o txt idx :
  tx (JStr txt) = Some t -> idx < 2 ^ 64 ->
  Forall (fun p => op (JStr (to_hex p.1)) = Some p.1 /\ num (JStr (dec p.2)) = Some p.2) (o_weights o) ->
  num (JStr (dec (o_threshold o))) = Some (o_threshold o) ->
  de_worker_set tx op num (worker_set_json txt idx o) =
  Some {| xw_tx := t; xw_index := idx; xw_weights := o_weights o; xw_threshold := o_threshold o |}.
Proof.
  intros Ht Hi Hw Hth. unfold de_worker_set, worker_set_json, de_field. cbn -[de_u64 de_vec de_pair to_hex dec].
  rewrite Ht, Hth, u64_ok by done.
  assert (de_vec (de_pair op num) (JArr ((fun p => JArr [JStr (to_hex p.1); JStr (dec p.2)]) <$> o_weights o)) = Some (o_weights o)) as ->.
  { cbn [de_vec]. apply opt_map_ok. rewrite Forall2_fmap_l.
    induction Hw as [|[a n] l [Ha Hn] _ IH]; constructor; [|done]. cbn -[to_hex dec] in *. by rewrite Ha, Hn. }
  done.
Qed.

Lemma worker_set_handled acc cfg height rpc json tx t idx o meta gw h r :
  plain_poll acc json cfg meta -> hex_bytes 20 (pm_gateway meta) gw ->
  hex_bytes 32 tx t -> idx < 2 ^ 64 -> evm_operators_form o ->
  lower (evm_chain_str (hc_chain cfg)) = pm_chain meta -> hc_worker cfg ∈ pm_participants meta ->
  height < pm_expires_at meta ->
  finalized_height (hc_chain cfg) (pm_confirmations meta) rpc = Ok h -> er_receipt rpc t = Some r ->
  exists vote,
    evm_ws_handler acc cfg height true rpc (worker_set_poll_event json (hc_contract cfg) tx idx o meta) =
    Ok (Some {| wt_sender := hc_worker cfg; wt_contract := hc_contract cfg; wt_body := BodyVote (pm_poll_id meta) [vote] |}).
Proof.
  intros Hp Hg Ht Hi [Hw Hth] Hch Hin Hht Hfin Hr.
  unfold evm_ws_handler, typed, worker_set_poll_event. rewrite String.eqb_refl.
  unfold de_evm_worker_set.
  rewrite (evm_poll_decodes _ _ _ _ gw "worker_set" _ _ {| xw_tx := t; xw_index := idx; xw_weights := o_weights o; xw_threshold := o_threshold o |}); [|done|done|auto|].
  2:{ apply worker_set_decodes; [by apply hex_bytes_fixed|done| |by apply uint256_dec].
      eapply Forall_impl; [exact Hw|]. intros p [H1 H2]. split; [by apply fixed_to_hex|by apply uint256_dec]. }
  match goal with |- context [evm_relevant cfg height ?p] => assert (evm_relevant cfg height p = true) as -> end.
  { apply evm_relevant_spec. cbn. split; [done|]. split; [by rewrite Hch, <- Hch, !lower_idem|]. done. }
  cbn [ep_confirmations ep_item ep_poll xw_tx]. unfold finalized_receipt. rewrite Hfin. cbn [rbind]. rewrite Hr. cbn [of_option rbind].
  unfold submit. eexists. reflexivity.
Qed.

(** ** Sui *)
Lemma sui_message_decodes b58 e : sui_form b58 e -> exists m, de_message (de_digest b58) (de_fixed 32) (message_json e) = Some m.
Proof.
  intros ([t Ht] & Hi & Hc & (s & Hs) & Hh). unfold de_message, message_json.
  unfold de_field. cbn -[de_fixed de_chain de_u64 to_hex fixed_hex de_digest].
  assert (de_digest b58 (JStr (te_tx_id e)) = Some t) as -> by exact Ht.
  assert (de_fixed 32 (JStr (te_src e)) = Some s) as -> by by apply hex_bytes_fixed.
  rewrite fixed_to_hex by done.
  assert (de_chain (JStr (te_dchain e)) = Some (te_dchain e)) as -> by exact Hc.
  rewrite u64_ok by done. eauto.
Qed.
Lemma sui_messages_handled acc b58 cfg height rpc json es meta gw :
  plain_poll acc json cfg meta -> hex_bytes 32 (pm_gateway meta) gw -> Forall (sui_form b58) es ->
  hc_worker cfg ∈ pm_participants meta -> height < pm_expires_at meta ->
  (forall ids, is_Some (sr_blocks rpc ids)) ->
  exists votes,
    sui_msg_handler acc b58 cfg height true rpc (messages_poll_event json (hc_contract cfg) es meta) =
    Ok (Some {| wt_sender := hc_worker cfg; wt_contract := hc_contract cfg;
                wt_body := BodyVote (pm_poll_id meta) votes |}) /\ length votes = length es.
Proof.
  intros Hp Hg Hes Hin Hht Hr.
  assert (Hms : exists ms, de_vec (de_message (de_digest b58) (de_fixed 32)) (JArr (message_json <$> es)) = Some ms /\ length ms = length es).
  { clear -Hes. induction Hes as [|e es He _ IH]; [by exists []|].
    destruct IH as (ms & IH & Hl). destruct (sui_message_decodes _ e He) as (m & Hm).
    exists (m :: ms). cbn [de_vec] in *. cbn. cbn in IH. rewrite Hm, IH. split; [done|]. by rewrite Hl. }
  destruct Hms as (ms & Hms & Hl).
  unfold sui_msg_handler, typed, messages_poll_event. rewrite String.eqb_refl. unfold de_sui_messages.
  rewrite (sui_poll_decodes _ _ _ _ gw "messages" _ _ ms); [|done|done|auto|exact Hms].
  match goal with |- context [sui_relevant cfg height ?p] => assert (sui_relevant cfg height p = true) as -> end.
  { apply sui_relevant_spec. cbn. done. }
  cbn [sp_item sp_poll]. unfold sui_finalized_blocks. destruct (Hr (sr_order rpc (xm_tx <$> ms))) as [bs ->]. cbn [of_option rbind].
  unfold submit. eexists. split; [reflexivity|]. unfold sui_message_votes. by rewrite fmap_length.
Qed.

Lemma bcs_len_ok n : n < 2 ^ 31 -> is_Some (bcs_len n).
Proof. intros H. unfold bcs_len. destruct (N.leb_spec n BCS_MAX) as [|Hge]; [eauto|]. unfold BCS_MAX in Hge. lia. Qed.
Lemma bcs_tuple_ok l : Forall is_Some l -> is_Some (bcs_tuple l).
Proof. induction 1 as [|x l [s ->] _ [r IH]]; cbn [bcs_tuple]; [eauto|]. rewrite IH. eauto. Qed.
Lemma bcs_seq_ok {A} (f : A -> option string) l : N.of_nat (length l) < 2 ^ 31 -> Forall (fun x => is_Some (f x)) l -> is_Some (bcs_seq f l).
Proof.
  intros Hl Hf. unfold bcs_seq. apply bcs_tuple_ok. constructor; [by apply bcs_len_ok|]. by apply Forall_fmap.
Qed.
Lemma sui_data_ok o tx idx : sui_operators_form o ->
  is_Some (sui_operators_data {| xw_tx := tx; xw_index := idx; xw_weights := o_weights o; xw_threshold := o_threshold o |}).
Proof.
  intros (Hw & Hth & Hl). unfold sui_operators_data. cbn [xw_weights xw_threshold]. apply bcs_tuple_ok.
  constructor; [|constructor; [|constructor; [eauto|constructor]]].
  - apply bcs_seq_ok; [by rewrite fmap_length|]. apply Forall_fmap. eapply Forall_impl; [exact Hw|]. intros p [H1 _]. cbn.
    unfold bcs_bytes, slen. destruct (bcs_len_ok _ H1) as [x ->]. eauto.
  - apply bcs_seq_ok; [by rewrite fmap_length|]. apply Forall_forall. eauto.
Qed.
Lemma sui_worker_set_handled acc b58 cfg height rpc json tx t idx o meta gw :
  plain_poll acc json cfg meta -> hex_bytes 32 (pm_gateway meta) gw ->
  b58 tx = Some t -> idx < 2 ^ 64 -> sui_operators_form o ->
  hc_worker cfg ∈ pm_participants meta -> height < pm_expires_at meta -> is_Some (sr_block rpc t) ->
  exists vote,
    sui_ws_handler acc b58 cfg height true rpc (worker_set_poll_event json (hc_contract cfg) tx idx o meta) =
    Ok (Some {| wt_sender := hc_worker cfg; wt_contract := hc_contract cfg; wt_body := BodyVote (pm_poll_id meta) [vote] |}).
Proof.
  intros Hp Hg Ht Hi Ho Hin Hht [b Hb]. destruct (sui_data_ok o t idx Ho) as [d Hd]. destruct Ho as (Hw & Hth & _).
  unfold sui_ws_handler, typed, worker_set_poll_event. rewrite String.eqb_refl. unfold de_sui_worker_set.
  rewrite (sui_poll_decodes _ _ _ _ gw "worker_set" _ _ {| xw_tx := t; xw_index := idx; xw_weights := o_weights o; xw_threshold := o_threshold o |}); [|done|done|auto|].
  2:{ apply worker_set_decodes; [exact Ht|done| |by apply parse_uint_dec].
      eapply Forall_impl; [exact Hw|]. intros p [_ H2]. split; [apply of_to_hex|by apply parse_uint_dec]. }
  match goal with |- context [sui_relevant cfg height ?p] => assert (sui_relevant cfg height p = true) as -> end.
  { apply sui_relevant_spec. cbn. done. }
  cbn [sp_item sp_poll sp_gateway xw_tx]. unfold sui_finalized_block. rewrite Hb. cbn [of_option rbind].
  assert (Hv : exists v, match (if sb_checkpoint b then Some b else None) with
     | Some b => sui_verify_worker_set gw b {| xw_tx := t; xw_index := idx; xw_weights := o_weights o; xw_threshold := o_threshold o |}
     | None => Ok NotFound end = Ok v).
  { destruct (sb_checkpoint b); [|eauto]. unfold sui_verify_worker_set. rewrite Hd. cbn [expect rbind].
    destruct (find_event _ _) as [e|]; [|eauto]. destruct (_ && _); [|eauto]. destruct (se_transfer e); eauto. }
  destruct Hv as [v Hv]. rewrite Hv. cbn [rbind]. unfold submit. eexists. reflexivity.
Qed.

(** ** Signing *)
Lemma keys_decode acc (de_key : jval -> option string) keys : Forall (fun kv : string * jval => acc kv.1 = true /\ is_Some (de_key kv.2)) keys ->
  exists ks, de_keys acc de_key (JObj keys) = Some ks /\ ks.*1 = keys.*1 /\
    forall a v pk, (a, v) ∈ keys -> de_key v = Some pk -> (a, pk) ∈ ks.
Proof.
  induction 1 as [|[a v] l [Ha [k Hk]] _ IH].
  - exists []. split; [done|]. split; [done|]. intros a v pk H. by apply elem_of_nil in H.
  - destruct IH as (ks & E & Hf & Hin). cbn [de_keys] in *. exists ((a, k) :: ks). cbn in Ha, Hk. cbn. cbn in E. rewrite Ha, Hk, E. split; [done|].
    split; [by rewrite <- Hf|]. intros a' v' pk [[= -> ->]|H]%elem_of_cons Hpk.
    + rewrite Hk in Hpk. injection Hpk as ->. apply elem_of_list_here.
    + apply elem_of_list_further. by eapply Hin.
Qed.
Lemma signing_handled acc (de_key : jval -> option string) cfg sign json session keys digest v pk sig :
  acc (hc_contract cfg) = true -> json (hc_contract cfg) = None -> json (to_hex digest) = None ->
  session < 2 ^ 64 -> String.length digest = 32%nat ->
  Forall (fun kv : string * jval => acc kv.1 = true /\ is_Some (de_key kv.2)) keys -> NoDup keys.*1 ->
  (hc_worker cfg, v) ∈ keys -> de_key v = Some pk -> sign (hc_contract cfg) digest pk = Some sig ->
  multisig_handler acc de_key cfg true sign (signing_event json (hc_contract cfg) session keys digest) =
  Ok (Some {| wt_sender := hc_worker cfg; wt_contract := hc_contract cfg; wt_body := BodySignature session sig |}).
Proof.
  intros Ha Hj1 Hj2 Hs Hd Hks Hnd Hin Hpk Hsig. destruct (keys_decode _ _ _ Hks) as (ks & E & Hf & Hk).
  unfold multisig_handler, typed, signing_event. rewrite String.eqb_refl. unfold de_signing, de_attr.
  set (contract := hc_contract cfg) in *.
  match goal with |- context [list_to_map ?l] => set (at' := (list_to_map l : gmap string jval)) end.
  assert (at' !! "_contract_address" = Some (attr_value json contract)) as -> by reflexivity.
  assert (at' !! "session_id" = Some (JNum session)) as -> by reflexivity.
  assert (at' !! "pub_keys" = Some (JObj keys)) as -> by reflexivity.
  assert (at' !! "msg" = Some (attr_value json (to_hex digest))) as -> by reflexivity.
  rewrite !attr_plain, E, u64_ok by done.
  assert (de_account acc (JStr contract) = Some contract) as -> by (cbn; by rewrite Ha).
  assert (de_digest32 (JStr (to_hex digest)) = Some digest) as ->.
  { cbn [de_digest32]. rewrite of_to_hex. unfold bytes32. by rewrite Hd. }
  cbn [sg_contract sg_keys sg_msg sg_session]. rewrite String.eqb_refl.
  assert (key_of ks (hc_worker cfg) = Some pk) as ->.
  { unfold key_of. apply elem_of_list_to_map_1.
    - rewrite fmap_reverse, Hf. by rewrite (reverse_Permutation keys.*1).
    - apply elem_of_reverse. by eapply Hk. }
  rewrite Hsig. reflexivity.
Qed.
