(** Proofs about ampd's handlers: the theorems. *)
From Verif Require Import Base Text BaseLemmas MapLemmas StdModel RouterTypes OperatorsModel EncodingModel EventsModel
  HandlersModel HandlersSpec HandlersProofs.

Lemma Forall2_fmap_map {A B C} (P : A -> C -> Prop) (f : B -> C) (l : list A) (k : list B) :
  Forall2 (fun a b => P a (f b)) l k -> Forall2 P l (f <$> k).
Proof. intros H. apply Forall2_fmap_r. exact H. Qed.

Notation MSG := "wasm-messages_poll_started".
Notation WS := "wasm-worker_set_poll_started".

(** ** EVM votes *)

Lemma evm_message_vote_ok c confs rpc gw txs rs j m :
  finalized_receipts c confs rpc txs = Ok rs -> xm_tx m ∈ txs ->
  message_fields (hex_bytes 32) (hex_bytes 20) j (xm_tx m) (xm_index m) (xm_daddr m) (xm_dchain m)
    (xm_src m) (xm_hash m) ->
  evm_message_vote c confs rpc gw j
    (match rs !! xm_tx m with Some r => evm_verify_message gw r m | None => NotFound end).
Proof.
  intros Hr Hin Hf. exists (xm_tx m), (xm_index m), (xm_daddr m), (xm_dchain m), (xm_src m), (xm_hash m).
  split; [done|]. split.
  { destruct (rs !! xm_tx m); [|by right]. apply evm_verify_message_or. }
  assert (Hs : match rs !! xm_tx m with Some r => evm_verify_message gw r m | None => NotFound end = SucceededOnChain ->
    exists q dc, lower dc = xm_dchain m /\
     evm_seen c confs rpc q gw (xm_tx m) (xm_index m) (ContractCall (xm_src m) dc (xm_daddr m) (xm_hash m))).
  { destruct (rs !! xm_tx m) as [r|] eqn:El; [|done]. intros Hv.
    destruct (finalized_receipts_sound _ _ _ _ _ _ _ Hr El) as (q & _ & Hq & Hh & Hfin).
    apply evm_verify_message_spec in Hv as (_ & l & dc & pre & post & Hl & Hp & Hi & Ht & Ha & Hc & He).
    exists q, dc. split; [done|]. exists r, l, pre, post. done. }
  split; [exact Hs|]. intros Hh Ho. split.
  - intros Hv. destruct (Hs Hv) as (q & dc & Hc & r & l & pre & post & Hq & Hrh & Hrest).
    exists dc. split; [done|]. exists r, l, pre, post. split; [|done].
    pose proof (Hh _ _ Hq) as E. rewrite Hrh in E. by rewrite E.
  - intros (dc & Hc & r & l & pre & post & Hq & Hrh & Hfin & Hl & Hp & Hi & Ht & Ha & He).
    rewrite (finalized_receipts_complete _ _ _ _ _ _ _ Hr Hh Ho Hin Hq Hfin).
    apply evm_verify_message_spec. split; [done|]. exists l, dc, pre, post. done.
Qed.

Lemma evm_msg_votes acc cfg height open rpc ev tx :
  evm_msg_handler acc cfg height open rpc ev = Ok (Some tx) ->
  exists poll confs gw js votes,
    poll_for cfg height ev MSG poll /\ poll_of_chain cfg ev MSG /\
    has_attr ev MSG "confirmation_height" (JNum confs) /\
    (exists x, has_attr ev MSG "source_gateway_address" (JStr x) /\ hex_bytes 20 x gw) /\
    has_attr ev MSG "messages" (JArr js) /\
    tx = {| wt_sender := hc_worker cfg; wt_contract := hc_contract cfg; wt_body := BodyVote poll votes |} /\
    Forall2 (evm_message_vote (hc_chain cfg) confs rpc gw) js votes.
Proof.
  intros H. apply typed_ok in H as (attrs & p & -> & Hd & H).
  destruct (evm_relevant cfg height p) eqn:Hr; [|done].
  apply rbind_ok in H as (rs & Hrs & H). apply submit_ok in H as [-> _].
  destruct (evm_poll_for _ _ _ MSG _ _ _ _ Hd Hr) as [Hp Hc].
  apply (de_evm_poll_spec _ _ _ MSG) in Hd as (_ & _ & _ & F4 & F5 & _ & F7 & _).
  destruct F7 as (v & F7 & D7). apply de_vec_spec in D7 as (js & -> & D7).
  exists (ep_poll p), (ep_confirmations p), (ep_gateway p), js, (evm_message_votes p rs).
  do 5 (split; [done|]). split; [done|].
  unfold evm_message_votes. apply Forall2_fmap_map.
  assert (Hsub : Forall (fun m => xm_tx m ∈ xm_tx <$> ep_item p) (ep_item p)).
  { apply Forall_forall. intros m Hm. by apply elem_of_list_fmap_1. }
  revert Hrs Hsub. generalize (xm_tx <$> ep_item p) as txs. intros txs Hrs Hsub.
  revert D7 Hsub. generalize (ep_item p) as ms. intros ms D7. clear F7.
  induction D7 as [|j m js ms Hm _ IH]; intros Hsub; constructor.
  - apply Forall_cons in Hsub as [Hsub _]. eapply evm_message_vote_ok; [done..|].
    eapply de_message_spec; [..|exact Hm]; intros; by apply de_fixed_spec.
  - apply IH. by apply Forall_cons in Hsub as [_ Hsub].
Qed.

Lemma evm_ws_vote acc cfg height open rpc ev tx :
  evm_ws_handler acc cfg height open rpc ev = Ok (Some tx) ->
  exists poll confs gw j vote,
    poll_for cfg height ev WS poll /\ poll_of_chain cfg ev WS /\
    has_attr ev WS "confirmation_height" (JNum confs) /\
    (exists x, has_attr ev WS "source_gateway_address" (JStr x) /\ hex_bytes 20 x gw) /\
    has_attr ev WS "worker_set" j /\
    tx = {| wt_sender := hc_worker cfg; wt_contract := hc_contract cfg; wt_body := BodyVote poll [vote] |} /\
    evm_worker_set_vote (hc_chain cfg) confs rpc gw j vote.
Proof.
  intros H. apply typed_ok in H as (attrs & p & -> & Hd & H).
  destruct (evm_relevant cfg height p) eqn:Hr; [|done].
  apply rbind_ok in H as (o & Ho & H). apply submit_ok in H as [-> _].
  destruct (evm_poll_for _ _ _ WS _ _ _ _ Hd Hr) as [Hp Hc].
  apply (de_evm_poll_spec _ _ _ WS) in Hd as (_ & _ & _ & F4 & F5 & _ & F7 & _).
  destruct F7 as (v & F7 & D7).
  eexists (ep_poll p), (ep_confirmations p), (ep_gateway p), v, _.
  do 5 (split; [done|]). split; [reflexivity|].
  set (w := ep_item p) in *.
  exists (xw_tx w), (xw_index w), (xw_weights w), (xw_threshold w). split.
  { eapply de_worker_set_spec; [..|exact D7].
    - intros; by apply de_fixed_spec.
    - intros; by apply de_fixed_spec.
    - intros; by apply de_uint256_spec. }
  split.
  { destruct o; [|by right]. apply evm_verify_worker_set_or. }
  unfold finalized_receipt in Ho. apply rbind_ok in Ho as (h & Hfh & Ho).
  apply rbind_ok in Ho as (o' & Ho' & Ho). apply of_option_ok in Ho'. injection Ho as <-.
  split.
  - destruct o' as [r|]; [|done]. destruct (receipt_final h r) eqn:Ef; [|done]. intros Hv.
    apply evm_verify_worker_set_spec in Hv as (Hrh & l & pre & post & Hl & Hpre & Hi & Ht & Ha & He).
    exists r, l, pre, post. split; [done|]. split; [done|]. split; [|done].
    apply receipt_final_spec in Ef. by apply (finalized_height_spec _ _ _ _ _ Hfh).
  - intros (r & l & pre & post & Hq & Hrh & Hfin & Hl & Hpre & Hi & Ht & Ha & He).
    rewrite Hq in Ho'. injection Ho' as <-.
    apply (finalized_height_spec _ _ _ _ _ Hfh) in Hfin. apply receipt_final_spec in Hfin. rewrite Hfin.
    apply evm_verify_worker_set_spec. split; [done|]. exists l, pre, post. done.
Qed.

(** ** Sui votes *)

Lemma sui_find_spec b i e :
  find_event b i = Some e <->
  exists pre post, sb_events b = pre ++ e :: post /\ Forall (fun e' => se_seq e' <> i) pre /\ se_seq e = i.
Proof.
  unfold find_event. rewrite find_first. split.
  - intros (pre & post & He & Hp & Hx). exists pre, post. split; [done|]. split.
    + eapply Forall_impl; [exact Hp|]. intros x Hx'. by apply N.eqb_neq in Hx'.
    + by apply N.eqb_eq in Hx.
  - intros (pre & post & He & Hp & Hx). exists pre, post. split; [done|]. split.
    + eapply Forall_impl; [exact Hp|]. intros x Hx'. by apply N.eqb_neq.
    + by apply N.eqb_eq.
Qed.

Lemma sui_verify_message_or gateway b m :
  sui_verify_message gateway b m = SucceededOnChain \/ sui_verify_message gateway b m = NotFound.
Proof.
  unfold sui_verify_message. destruct (find_event _ _); [|by right].
  destruct (_ && _); [by left|by right].
Qed.
Lemma sui_verify_message_spec gateway b m :
  sb_checkpoint b = true ->
  sui_verify_message gateway b m = SucceededOnChain <->
  exists e dc, sui_seen b gateway (xm_tx m) (xm_index m) "gateway" "ContractCall" e /\
    lower dc = xm_dchain m /\ se_call e = Some (xm_src m, dc, xm_daddr m, xm_hash m).
Proof.
  intros Hcp. unfold sui_verify_message. split.
  - destruct (find_event b (xm_index m)) as [e|] eqn:E; [|done].
    destruct (String.eqb_spec (sb_digest b) (xm_tx m)) as [Hd|]; [|done]. cbn [andb].
    destruct (bool_decide _) eqn:Et; [|done]. apply bool_decide_eq_true in Et. cbn [andb].
    destruct (sui_message_eq e m) eqn:Em; [|done]. intros _.
    apply sui_find_spec in E as (pre & post & He & Hp & Hs).
    unfold sui_message_eq in Em. destruct (se_call e) as [[[[s c] a] h]|] eqn:Ec; [|done].
    rewrite !andb_true_iff, !String.eqb_eq, lower_chain_name in Em. destruct Em as (((-> & Hc) & ->) & ->).
    exists e, c. split; [|done]. split; [done|]. split; [done|]. exists pre, post. done.
  - intros (e & dc & (Hd & _ & pre & post & He & Hp & Hs & Ht) & Hc & Hcall).
    assert (find_event b (xm_index m) = Some e) as -> by (apply sui_find_spec; eauto 6).
    apply lower_chain_name in Hc. unfold sui_message_eq.
    by rewrite Hd, Ht, Hcall, Hc, !String.eqb_refl, bool_decide_eq_true_2.
Qed.

Lemma sui_blocks_sound rpc ds bs t b :
  sui_finalized_blocks rpc ds = Ok bs -> bs !! t = Some b ->
  exists l, sr_blocks rpc (sr_order rpc ds) = Some l /\ b ∈ l /\ sb_checkpoint b = true /\ sb_digest b = t.
Proof.
  unfold sui_finalized_blocks. intros H Hl. apply rbind_ok in H as (l & Hb & H). apply of_option_ok in Hb.
  injection H as <-. apply lookup_last in Hl. apply elem_of_list_omap in Hl as (b' & Hb' & Hl).
  destruct (sb_checkpoint b') eqn:Ec; [|done]. injection Hl as <- <-. eauto.
Qed.
Lemma sui_blocks_complete rpc ds bs l b :
  sui_finalized_blocks rpc ds = Ok bs -> sr_blocks rpc (sr_order rpc ds) = Some l ->
  NoDup (sb_digest <$> l) -> b ∈ l -> sb_checkpoint b = true -> bs !! sb_digest b = Some b.
Proof.
  unfold sui_finalized_blocks. intros H Hb Hnd Hin Hcp. apply rbind_ok in H as (l' & Hb' & H).
  apply of_option_ok in Hb'. rewrite Hb in Hb'. injection Hb' as <-. injection H as <-.
  apply elem_of_list_to_map_1'.
  - intros b' Hb'. rewrite elem_of_reverse in Hb'. apply elem_of_list_omap in Hb' as (b'' & Hin' & E).
    destruct (sb_checkpoint b''); [|done]. injection E as E ->.
    clear -Hnd Hin Hin' E. induction l as [|x l IH]; [by apply elem_of_nil in Hin|].
    cbn in Hnd. apply NoDup_cons in Hnd as [Hx Hnd].
    apply elem_of_cons in Hin as [->|Hin]; apply elem_of_cons in Hin' as [->|Hin']; try done.
    + exfalso. apply Hx. rewrite <- E. by apply elem_of_list_fmap_1.
    + exfalso. apply Hx. rewrite E. by apply elem_of_list_fmap_1.
    + by apply IH.
  - apply elem_of_reverse. apply elem_of_list_omap. exists b. by rewrite Hcp.
Qed.

Lemma sui_msg_votes acc b58 cfg height open rpc ev tx :
  sui_msg_handler acc b58 cfg height open rpc ev = Ok (Some tx) ->
  exists poll gw js votes ids bs,
    poll_for cfg height ev MSG poll /\
    (exists x, has_attr ev MSG "source_gateway_address" (JStr x) /\ hex_bytes 32 x gw) /\
    has_attr ev MSG "messages" (JArr js) /\
    tx = {| wt_sender := hc_worker cfg; wt_contract := hc_contract cfg; wt_body := BodyVote poll votes |} /\
    sr_blocks rpc ids = Some bs /\
    (set_order (sr_order rpc) -> NoDup ids /\ forall t, t ∈ ids <->
       exists j x, j ∈ js /\ has_field j "tx_id" (JStr x) /\ b58 x = Some t) /\
    Forall2 (sui_message_vote b58 bs gw) js votes.
Proof.
  intros H. apply typed_ok in H as (attrs & p & -> & Hd & H).
  destruct (sui_relevant cfg height p) eqn:Hr; [|done].
  apply rbind_ok in H as (rs & Hrs & H). apply submit_ok in H as [-> _].
  pose proof (sui_poll_for _ _ _ MSG _ _ _ _ Hd Hr) as Hp.
  apply (de_sui_poll_spec _ _ _ MSG) in Hd as (_ & _ & F4 & _ & F7 & _).
  destruct F7 as (v & F7 & D7). apply de_vec_spec in D7 as (js & -> & D7).
  assert (Hf : Forall2 (fun j m => message_fields (fun x b => b58 x = Some b) (hex_bytes 32) j
     (xm_tx m) (xm_index m) (xm_daddr m) (xm_dchain m) (xm_src m) (xm_hash m)) js (sp_item p)).
  { eapply Forall2_impl; [exact D7|]. intros j m Hm. eapply de_message_spec; [..|exact Hm].
    - intros v b. unfold de_digest. destruct v; try done. eauto.
    - intros; by apply de_fixed_spec. }
  assert (Hl : exists l, sr_blocks rpc (sr_order rpc (xm_tx <$> sp_item p)) = Some l).
  { unfold sui_finalized_blocks in Hrs. apply rbind_ok in Hrs as (l & Hl & _). apply of_option_ok in Hl. eauto. }
  destruct Hl as [l Hl].
  exists (sp_poll p), (sp_gateway p), js, (sui_message_votes p rs), (sr_order rpc (xm_tx <$> sp_item p)), l.
  do 4 (split; [done|]). split; [done|]. split.
  { intros Ho. destruct (Ho (xm_tx <$> sp_item p)) as [Hnd Hin]. split; [done|]. intros t. rewrite Hin.
    rewrite elem_of_list_fmap. split.
    - intros (m & -> & Hm). apply elem_of_list_lookup in Hm as [i Hm].
      destruct (Forall2_lookup_r _ _ _ _ _ Hf Hm) as (j & Hj & Fj). destruct Fj as [(x & Fx & Hx) _ _ _ _ _].
      exists j, x. split; [|done]. apply elem_of_list_lookup. eauto.
    - intros (j & x & Hj & Fx & Hx). apply elem_of_list_lookup in Hj as [i Hj].
      destruct (Forall2_lookup_l _ _ _ _ _ Hf Hj) as (m & Hm & Fm). exists m.
      split; [|apply elem_of_list_lookup; eauto]. destruct Fm as [(x' & Fx' & Hx') _ _ _ _ _].
      destruct Fx as (k & -> & Fx). destruct Fx' as (k' & [= <-] & Fx'). congruence. }
  unfold sui_message_votes. apply Forall2_fmap_map. eapply Forall2_impl; [exact Hf|].
  intros j m Fm. exists (xm_tx m), (xm_index m), (xm_daddr m), (xm_dchain m), (xm_src m), (xm_hash m).
  split; [done|]. split.
  { destruct (rs !! xm_tx m); [|by right]. apply sui_verify_message_or. }
  assert (Hs : match rs !! xm_tx m with Some b => sui_verify_message (sp_gateway p) b m | None => NotFound end = SucceededOnChain ->
    exists b e dc, b ∈ l /\ lower dc = xm_dchain m /\
      sui_seen b (sp_gateway p) (xm_tx m) (xm_index m) "gateway" "ContractCall" e /\
      se_call e = Some (xm_src m, dc, xm_daddr m, xm_hash m)).
  { destruct (rs !! xm_tx m) as [b|] eqn:El; [|done]. intros Hv.
    destruct (sui_blocks_sound _ _ _ _ _ Hrs El) as (l' & Hl' & Hb & Hcp & Hdg).
    rewrite Hl in Hl'. injection Hl' as <-.
    apply sui_verify_message_spec in Hv as (e & dc & Hs & Hc & He); [|done]. exists b, e, dc. done. }
  split; [done|]. intros Hnd. split; [done|].
  intros (b & e & dc & Hb & Hc & Hs' & He). pose proof Hs' as (Hdg & Hcp & _).
  pose proof (sui_blocks_complete _ _ _ _ _ Hrs Hl Hnd Hb Hcp) as El. rewrite Hdg in El. rewrite El.
  apply sui_verify_message_spec; [done|]. eauto.
Qed.

Lemma sui_ws_vote acc b58 cfg height open rpc ev tx :
  sui_ws_handler acc b58 cfg height open rpc ev = Ok (Some tx) ->
  exists poll gw j vote,
    poll_for cfg height ev WS poll /\
    (exists x, has_attr ev WS "source_gateway_address" (JStr x) /\ hex_bytes 32 x gw) /\
    has_attr ev WS "worker_set" j /\
    tx = {| wt_sender := hc_worker cfg; wt_contract := hc_contract cfg; wt_body := BodyVote poll [vote] |} /\
    sui_worker_set_vote b58 rpc gw j vote.
Proof.
  intros H. apply typed_ok in H as (attrs & p & -> & Hd & H).
  destruct (sui_relevant cfg height p) eqn:Hr; [|done].
  apply rbind_ok in H as (o & Ho & H). apply rbind_ok in H as (v & Hv & H). apply submit_ok in H as [-> _].
  pose proof (sui_poll_for _ _ _ WS _ _ _ _ Hd Hr) as Hp.
  apply (de_sui_poll_spec _ _ _ WS) in Hd as (_ & _ & F4 & _ & F7 & _).
  destruct F7 as (jv & F7 & D7).
  exists (sp_poll p), (sp_gateway p), jv, v. do 3 (split; [done|]). split; [done|].
  set (w := sp_item p) in *.
  unfold sui_finalized_block in Ho. apply rbind_ok in Ho as (b & Hb & Ho). apply of_option_ok in Hb.
  injection Ho as <-.
  exists (xw_tx w), (xw_index w), (xw_weights w), (xw_threshold w), b. split.
  { eapply de_worker_set_spec; [..|exact D7].
    - intros v' b'. unfold de_digest. destruct v'; try done. eauto.
    - intros v' b'. unfold de_hex. destruct v'; try done. eauto.
    - intros v' n Hn. apply de_uint_spec in Hn as (s & -> & Hn). exists s. split; [done|].
      eapply parse_uint_mono; [|exact Hn]. vm_compute. discriminate. }
  split; [done|].
  destruct (sb_checkpoint b) eqn:Ecp; cycle 1.
  { injection Hv as <-. split; [by right|]. split; [done|].
    intros (e & d & (_ & Hcp & _) & _). congruence. }
  unfold sui_verify_worker_set in Hv.
  destruct (find_event b (xw_index w)) as [e|] eqn:Ee; cycle 1.
  { injection Hv as <-. split; [by right|]. split; [done|].
    intros (e & d & (_ & _ & pre & post & He & Hpre & Hs & _) & _).
    assert (find_event b (xw_index w) = Some e) by (apply sui_find_spec; eauto 6). congruence. }
  assert (Huniq : forall e' d, sui_seen b (sp_gateway p) (xw_tx w) (xw_index w) "validators" "OperatorshipTransferred" e' ->
     se_transfer e' = Some d -> e' = e).
  { intros e' d (_ & _ & pre & post & He & Hpre & Hs & _) _.
    assert (find_event b (xw_index w) = Some e') by (apply sui_find_spec; eauto 6). congruence. }
  destruct (String.eqb_spec (sb_digest b) (xw_tx w)) as [Hdg|Hdg]; cbn [andb] in Hv; cycle 1.
  { injection Hv as <-. split; [by right|]. split; [done|]. intros (e' & d & (Hdg' & _) & _). congruence. }
  destruct (bool_decide _) eqn:Et; cycle 1.
  { apply bool_decide_eq_false in Et. injection Hv as <-. split; [by right|]. split; [done|].
    intros (e' & d & Hs & Htr & _). destruct (Huniq _ _ Hs Htr). destruct Hs as (_ & _ & ? & ? & _ & _ & _ & Hty).
    congruence. }
  apply bool_decide_eq_true in Et.
  destruct (se_transfer e) as [payload|] eqn:Epl; cycle 1.
  { injection Hv as <-. split; [by right|]. split; [done|].
    intros (e' & d & Hs & Htr & _). destruct (Huniq _ _ Hs Htr). congruence. }
  apply rbind_ok in Hv as (d & Hd & Hv). apply expect_ok in Hd. injection Hv as <-.
  change (sui_operators_data w) with (sui_operators (xw_weights w) (xw_threshold w)) in Hd.
  apply sui_find_spec in Ee as (pre & post & He & Hpre & Hs).
  destruct (String.eqb_spec payload d) as [->|Hne].
  - split; [by left|]. split; [|done]. intros _. exists e, d. split; [|done].
    split; [done|]. split; [done|]. exists pre, post. done.
  - split; [by right|]. split; [done|].
    intros (e' & d' & Hs' & Htr & Hd'). destruct (Huniq _ _ Hs' Htr). congruence.
Qed.

(** ** Signatures *)
Notation SIGN := "wasm-signing_started".

Lemma multisig_submits acc de_key cfg open sign ev tx :
  multisig_handler acc de_key cfg open sign ev = Ok (Some tx) ->
  exists session l v pk x digest sig,
    has_attr ev SIGN "_contract_address" (JStr (hc_contract cfg)) /\
    has_attr ev SIGN "session_id" (JNum session) /\
    has_attr ev SIGN "pub_keys" (JObj l) /\ (hc_worker cfg, v) ∈ l /\ de_key v = Some pk /\
    has_attr ev SIGN "msg" (JStr x) /\ of_hex x = Some digest /\ String.length digest = 32%nat /\
    sign (hc_contract cfg) digest pk = Some sig /\
    tx = {| wt_sender := hc_worker cfg; wt_contract := hc_contract cfg; wt_body := BodySignature session sig |}.
Proof.
  intros H. apply typed_ok in H as (attrs & s & -> & Hd & H).
  destruct (String.eqb_spec (hc_contract cfg) (sg_contract s)) as [Hc|]; [|done].
  destruct (key_of (sg_keys s) (hc_worker cfg)) as [pk|] eqn:Hk; [|done].
  apply rbind_ok in H as (sig & Hs & H). apply of_option_ok in Hs. apply submit_ok in H as [-> _].
  unfold de_signing in Hd.
  destruct (de_attr attrs "_contract_address" _) as [a|] eqn:E1; [|done].
  destruct (de_attr attrs "session_id" _) as [b|] eqn:E2; [|done].
  destruct (de_attr attrs "pub_keys" _) as [c|] eqn:E3; [|done].
  destruct (de_attr attrs "msg" _) as [d|] eqn:E4; [|done].
  injection Hd as <-. cbn [sg_contract sg_session sg_keys sg_msg] in *.
  apply (de_attr_spec SIGN) in E1 as (v1 & F1 & D1). apply de_account_spec in D1 as ->.
  apply (de_attr_spec SIGN) in E2 as (v2 & F2 & D2). apply de_u64_spec in D2 as ->.
  apply (de_attr_spec SIGN) in E3 as (v3 & F3 & D3). destruct v3 as [| | | | | |l]; try done.
  cbn in D3. apply opt_map_ok in D3.
  apply (de_attr_spec SIGN) in E4 as (v4 & F4 & D4). destruct v4 as [| | | |x| |]; try done. cbn in D4.
  destruct (of_hex x) as [dg|] eqn:Ex; [|done]. unfold bytes32 in D4.
  destruct (String.length dg =? 32)%nat eqn:El; [|done]. injection D4 as ->. apply Nat.eqb_eq in El.
  apply lookup_last in Hk. apply elem_of_list_lookup in Hk as [i Hi].
  destruct (Forall2_lookup_r _ _ _ _ _ D3 Hi) as ([k v] & Hj & E). cbn [fst snd] in E.
  destruct (acc k); [|done].
  destruct (de_key v) as [pk'|] eqn:Ev; [|done]. injection E as -> ->.
  exists b, l, v, pk, x, d, sig. split; [by rewrite Hc|]. do 2 (split; [done|]).
  split; [apply elem_of_list_lookup; eauto|]. do 5 (split; [done|]). done.
Qed.

(** ** What is ignored *)

Lemma evm_ignored {A} acc key (item : jval -> option A) ty attrs p cfg height poll :
  de_evm_poll acc key item attrs = Some p -> evm_relevant cfg height p = false ->
  poll_for cfg height (Abci ty attrs) ty poll -> poll_of_chain cfg (Abci ty attrs) ty -> False.
Proof.
  intros Hd Hr (P1 & _ & P3 & P4) Pc.
  apply (de_evm_poll_spec acc key item ty) in Hd as (F1 & _ & F3 & _ & _ & F6 & _ & F8).
  assert (evm_relevant cfg height p = true); [|congruence].
  apply evm_relevant_spec.
  assert (Huni : forall k v v', has_attr (Abci ty attrs) ty k v -> has_attr (Abci ty attrs) ty k v' -> v = v').
  { intros k v v' (m & [= <-] & Hm) (m' & [= <-] & Hm'). congruence. }
  pose proof (Huni _ _ _ P1 F1) as [= E1].
  destruct P3 as (l & P3 & Hin). pose proof (Huni _ _ _ P3 F8) as [= ->].
  destruct P4 as (e & P4 & He). pose proof (Huni _ _ _ P4 F6) as [= ->].
  destruct Pc as (x & Pc & Hx). destruct F3 as (x' & F3 & Hx'). pose proof (Huni _ _ _ Pc F3) as [= ->].
  split; [done|]. split; [by rewrite Hx', lower_idem|]. split; [|done].
  apply elem_of_list_fmap in Hin as (y & [= ->] & Hy). done.
Qed.
Lemma sui_ignored {A} acc key (item : jval -> option A) ty attrs p cfg height poll :
  de_sui_poll acc key item attrs = Some p -> sui_relevant cfg height p = false ->
  poll_for cfg height (Abci ty attrs) ty poll -> False.
Proof.
  intros Hd Hr (P1 & _ & P3 & P4).
  apply (de_sui_poll_spec acc key item ty) in Hd as (F1 & _ & _ & F6 & _ & F8).
  assert (sui_relevant cfg height p = true); [|congruence].
  apply sui_relevant_spec.
  assert (Huni : forall k v v', has_attr (Abci ty attrs) ty k v -> has_attr (Abci ty attrs) ty k v' -> v = v').
  { intros k v v' (m & [= <-] & Hm) (m' & [= <-] & Hm'). congruence. }
  pose proof (Huni _ _ _ P1 F1) as [= E1].
  destruct P3 as (l & P3 & Hin). pose proof (Huni _ _ _ P3 F8) as [= ->].
  destruct P4 as (e & P4 & He). pose proof (Huni _ _ _ P4 F6) as [= ->].
  split; [done|]. split; [|done].
  apply elem_of_list_fmap in Hin as (y & [= ->] & Hy). done.
Qed.

Lemma typed_none {A} ty (de : gmap string jval -> option A) ev k :
  typed ty de ev k = Ok None ->
  (forall attrs, ev <> Abci ty attrs) \/ exists attrs a, ev = Abci ty attrs /\ de attrs = Some a /\ k a = Ok None.
Proof.
  unfold typed. destruct ev as [| |t attrs]; try (intros _; left; done).
  destruct (String.eqb_spec t ty) as [->|Hne].
  - destruct (de attrs) as [a|] eqn:E; [|done]. intros. right. eauto.
  - intros _. left. by intros attrs' [= ? _].
Qed.
Lemma submit_none open tx : submit open tx <> Ok None.
Proof. by destruct open. Qed.

Lemma evm_msg_ignored acc cfg height open rpc ev :
  evm_msg_handler acc cfg height open rpc ev = Ok None ->
  (forall poll, poll_for cfg height ev MSG poll -> poll_of_chain cfg ev MSG -> False) /\
  forall open' rpc', evm_msg_handler acc cfg height open' rpc' ev = Ok None.
Proof.
  intros H. pose proof H as Ht. apply typed_none in H as [H|(attrs & p & -> & Hd & H)].
  - split.
    + intros poll ((attrs & -> & _) & _). by destruct (H attrs).
    + intros. unfold evm_msg_handler, typed in *. destruct ev as [| |t attrs]; try done.
      destruct (String.eqb_spec t MSG) as [->|]; [|done]. by destruct (H attrs).
  - destruct (evm_relevant cfg height p) eqn:Hr.
    { apply rbind_ok in H as (rs & _ & H). by apply submit_none in H. }
    split.
    + intros poll. by apply (evm_ignored _ _ _ _ _ _ _ _ _ Hd Hr).
    + intros. unfold evm_msg_handler, typed. rewrite String.eqb_refl, Hd, Hr. done.
Qed.
Lemma evm_ws_ignored acc cfg height open rpc ev :
  evm_ws_handler acc cfg height open rpc ev = Ok None ->
  (forall poll, poll_for cfg height ev WS poll -> poll_of_chain cfg ev WS -> False) /\
  forall open' rpc', evm_ws_handler acc cfg height open' rpc' ev = Ok None.
Proof.
  intros H. pose proof H as Ht. apply typed_none in H as [H|(attrs & p & -> & Hd & H)].
  - split.
    + intros poll ((attrs & -> & _) & _). by destruct (H attrs).
    + intros. unfold evm_ws_handler, typed in *. destruct ev as [| |t attrs]; try done.
      destruct (String.eqb_spec t WS) as [->|]; [|done]. by destruct (H attrs).
  - destruct (evm_relevant cfg height p) eqn:Hr.
    { apply rbind_ok in H as (rs & _ & H). by apply submit_none in H. }
    split.
    + intros poll. by apply (evm_ignored _ _ _ _ _ _ _ _ _ Hd Hr).
    + intros. unfold evm_ws_handler, typed. rewrite String.eqb_refl, Hd, Hr. done.
Qed.
Lemma sui_msg_ignored acc b58 cfg height open rpc ev :
  sui_msg_handler acc b58 cfg height open rpc ev = Ok None ->
  (forall poll, poll_for cfg height ev MSG poll -> False) /\
  forall open' rpc', sui_msg_handler acc b58 cfg height open' rpc' ev = Ok None.
Proof.
  intros H. pose proof H as Ht. apply typed_none in H as [H|(attrs & p & -> & Hd & H)].
  - split.
    + intros poll ((attrs & -> & _) & _). by destruct (H attrs).
    + intros. unfold sui_msg_handler, typed in *. destruct ev as [| |t attrs]; try done.
      destruct (String.eqb_spec t MSG) as [->|]; [|done]. by destruct (H attrs).
  - destruct (sui_relevant cfg height p) eqn:Hr.
    { apply rbind_ok in H as (rs & _ & H). by apply submit_none in H. }
    split.
    + intros poll. by apply (sui_ignored _ _ _ _ _ _ _ _ _ Hd Hr).
    + intros. unfold sui_msg_handler, typed. rewrite String.eqb_refl, Hd, Hr. done.
Qed.
Lemma sui_ws_ignored acc b58 cfg height open rpc ev :
  sui_ws_handler acc b58 cfg height open rpc ev = Ok None ->
  (forall poll, poll_for cfg height ev WS poll -> False) /\
  forall open' rpc', sui_ws_handler acc b58 cfg height open' rpc' ev = Ok None.
Proof.
  intros H. pose proof H as Ht. apply typed_none in H as [H|(attrs & p & -> & Hd & H)].
  - split.
    + intros poll ((attrs & -> & _) & _). by destruct (H attrs).
    + intros. unfold sui_ws_handler, typed in *. destruct ev as [| |t attrs]; try done.
      destruct (String.eqb_spec t WS) as [->|]; [|done]. by destruct (H attrs).
  - destruct (sui_relevant cfg height p) eqn:Hr.
    { apply rbind_ok in H as (rs & _ & H). apply rbind_ok in H as (v & _ & H). by apply submit_none in H. }
    split.
    + intros poll. by apply (sui_ignored _ _ _ _ _ _ _ _ _ Hd Hr).
    + intros. unfold sui_ws_handler, typed. rewrite String.eqb_refl, Hd, Hr. done.
Qed.
Lemma multisig_ignored acc de_key cfg open sign ev :
  multisig_handler acc de_key cfg open sign ev = Ok None ->
  (forall l v, has_attr ev SIGN "_contract_address" (JStr (hc_contract cfg)) ->
     has_attr ev SIGN "pub_keys" (JObj l) -> (hc_worker cfg, v) ∈ l -> False) /\
  forall open' sign', multisig_handler acc de_key cfg open' sign' ev = Ok None.
Proof.
  intros H. pose proof H as Ht. apply typed_none in H as [H|(attrs & s & -> & Hd & H)].
  - split.
    + intros l v (attrs & -> & _). by destruct (H attrs).
    + intros. unfold multisig_handler, typed in *. destruct ev as [| |t attrs]; try done.
      destruct (String.eqb_spec t SIGN) as [->|]; [|done]. by destruct (H attrs).
  - assert (Hsp : (exists c, attrs !! "_contract_address" = Some (JStr c) /\ sg_contract s = c) /\
      exists l, attrs !! "pub_keys" = Some (JObj l) /\
       Forall2 (fun kv ks => kv.1 = ks.1) l (sg_keys s)).
    { unfold de_signing in Hd.
      destruct (de_attr attrs "_contract_address" _) as [a|] eqn:E1; [|done].
      destruct (de_attr attrs "session_id" _) as [b|] eqn:E2; [|done].
      destruct (de_attr attrs "pub_keys" _) as [c|] eqn:E3; [|done].
      destruct (de_attr attrs "msg" _) as [d|] eqn:E4; [|done].
      injection Hd as <-. cbn [sg_contract sg_session sg_keys sg_msg] in *.
      apply (de_attr_spec SIGN) in E1 as (v1 & (? & [= <-] & F1) & D1). apply de_account_spec in D1 as ->.
      apply (de_attr_spec SIGN) in E3 as (v3 & (? & [= <-] & F3) & D3). destruct v3 as [| | | | | |l]; try done.
      cbn in D3. apply opt_map_ok in D3. split; [eauto|]. exists l. split; [done|].
      eapply Forall2_impl; [exact D3|]. intros [k v] [k' v'] E. cbn [fst snd] in *.
      destruct (acc k); [|done].
      destruct (de_key v); [|done]. by injection E as -> _. }
    destruct Hsp as ((c & Hc & Hc') & l & Hl & HF).
    destruct (String.eqb_spec (hc_contract cfg) (sg_contract s)) as [Hk|Hk].
    + destruct (key_of (sg_keys s) (hc_worker cfg)) as [pk|] eqn:Ek.
      { apply rbind_ok in H as (? & _ & H). by apply submit_none in H. }
      split.
      * intros l' v _ (? & [= <-] & Hl') Hin. rewrite Hl in Hl'. injection Hl' as <-.
        apply elem_of_list_lookup in Hin as [i Hin].
        destruct (Forall2_lookup_l _ _ _ _ _ HF Hin) as ([k pk] & Hi & E). cbn in E. subst k.
        unfold key_of in Ek. apply not_elem_of_list_to_map in Ek. apply Ek.
        rewrite fmap_reverse, elem_of_reverse, elem_of_list_fmap.
        exists (hc_worker cfg, pk). split; [done|]. apply elem_of_list_lookup. eauto.
      * intros. unfold multisig_handler, typed. rewrite String.eqb_refl, Hd.
        destruct (String.eqb_spec (hc_contract cfg) (sg_contract s)); [|done]. by rewrite Ek.
    + split.
      * intros l' v (? & [= <-] & Hc'') _ _. congruence.
      * intros. unfold multisig_handler, typed. rewrite String.eqb_refl, Hd.
        by destruct (String.eqb_spec (hc_contract cfg) (sg_contract s)).
Qed.
