(** Proofs about verifier and workers together: the theorems. *)
From stdpp Require Import sorting.
From Verif Require Import Base Text TextLemmas BaseLemmas MapLemmas StdModel StdSpec RouterTypes RegistryTypes
  OperatorsModel EncodingModel VerifierModel VerifierSpec VerifierProofs VerifierProofs2 VerifierProofs3
  EventsModel HandlersModel HandlersSpec HandlersProofs HandlersProofs2 WorkersSpec WorkersProofs.

(** Among voters with the threshold's share, one is trusted. *)
Lemma trusted_voter (trusted : list addr) (workers : list worker) (voters : list addr) num den :
  NoDup voters -> (forall a, a ∈ voters -> a ∈ w_addr <$> workers) ->
  N.of_nat (length workers) * num <= N.of_nat (length voters) * den ->
  N.of_nat (length (filter (fun w => w_addr w ∉ trusted) workers)) * den < N.of_nat (length workers) * num ->
  exists a, a ∈ voters /\ a ∈ trusted.
Proof.
  intros Hnd Hin Hq Hbad.
  destruct (decide (Exists (fun a => a ∈ trusted) voters)) as [He|He].
  { apply Exists_exists in He as (a & Ha & Ht). eauto. }
  exfalso. assert (Hle : (length voters <= length (filter (fun w => w_addr w ∉ trusted) workers))%nat); [|nia].
  rewrite <- (fmap_length w_addr (filter _ workers)). apply submseteq_length, NoDup_submseteq; [done|].
  intros a Ha. assert (a ∉ trusted) as Ht.
  { intros Ht. apply He. apply Exists_exists. eauto. }
  apply Hin in Ha as Hw. apply elem_of_list_fmap in Hw as (w & -> & Hw).
  apply elem_of_list_fmap. exists w. split; [done|]. by apply elem_of_list_filter.
Qed.

Lemma message_seen acc json contract chain nodes k c ops trusted m :
  valid_vconfig c -> json (vc_gateway c) = None ->
  Forall (follows_ampd acc json contract chain nodes (vlog k c ops)) trusted ->
  mostly_trusted c (vlog k c ops) trusted ->
  message_status k (vrun k c ops) m = Ok Verified ->
  exists a rpc, a ∈ trusted /\ nodes rpc /\
    evm_shows chain (vc_confirmations c) rpc (vc_gateway c) m.
Proof.
  intros Hc Hj Hf Hm Hv. destruct (c08 k c ops m Hc Hv) as (l1 & e & l2 & id & expires & workers & ms & idx & Hl & Ho & Hms & Hvo).
  destruct Hvo as (voters & Hnd & Hvot & Hq).
  assert (He : e ∈ vlog k c ops) by (rewrite Hl; set_solver).
  destruct (trusted_voter trusted workers voters (t_num (vc_threshold c)) (t_den (vc_threshold c))) as (a & Ha & Hat).
  { done. } { intros a Ha. by apply Hvot. } { done. } { by eapply Hm. }
  exists a. destruct (Hvot a Ha) as (_ & h & ballot & out & Hin & _ & Hb).
  rewrite Forall_forall in Hf. destruct (Hf a Hat h id ballot out) as (e' & ev & height & open & rpc & He' & Hem & Hn & Hh).
  { rewrite Hl. set_solver. }
  exists rpc. split; [done|]. split; [done|].
  assert (Hid : forall es meta st,
    e'.2 = OutVerify st (Some (es, meta)) -> id = pm_poll_id meta -> e = e').
  { intros es meta st E1 E2. eapply one_event; [exact He|exact He'|by eapply opens_id|]. by rewrite E1, E2. }
  unfold emitted in Hem. destruct (e'.2) as [st [[es meta]|] | tx i o meta| |] eqn:Eo; try done; injection Hem as <-.
  - assert (Hg : id = pm_poll_id meta -> e = e') by (intros E; exact (Hid _ _ _ eq_refl E)).
    destruct Hh as [Hh|Hh].
    + pose proof Hh as Hh'. apply evm_msg_votes in Hh' as (poll & confs & gw & js & votes & Hp & _ & _ & _ & _ & Htx & _).
      injection Htx as <- _. destruct Hp as (_ & (x & Hx & Hxp) & _ & _).
      unfold messages_poll_event in Hx. rewrite attr_abci, lookup_insert_ne in Hx by done.
      apply meta_attrs in Hx. destruct_or?; destruct_and?; try done.
      match goal with H : JStr x = JStr _ |- _ => injection H as -> end.
      apply dec_u64_inj in Hxp. specialize (Hg Hxp). subst e'. clear Hid.
      destruct e as [op o]. cbn [snd] in Eo. subst o. destruct op; try done.
      destruct Ho as (_ & _ & _ & Hch & Hgw & Hcf & _ & _ & todo & [= <-] & _ & Hev).
      apply worker_message_vote in Hh as [_ HF]; [|by rewrite Hgw].
      destruct (Forall2_lookup_l _ _ _ _ _ Hev Hms) as (te & Hte & Hmte).
      destruct (Forall2_lookup_l _ _ _ _ _ HF Hte) as (v & Hbv & Hs).
      rewrite Hb in Hbv. injection Hbv as <-. destruct (Hs eq_refl) as (q & t & gw' & s & dc & H1 & H2 & H3 & H4 & H5).
      unfold tx_event_of in Hmte. apply rbind_ok in Hmte as ([tx i] & Hpid & Hmte). injection Hmte as <-.
      cbn [te_tx_id te_index te_daddr te_dchain te_src te_hash] in *. rewrite Hcf in H5. rewrite Hgw in H2.
      apply parse_id_spec in Hpid as (n & Hpid & Hn').
      exists q, t, i, gw', s, dc. split; [exists tx, n; done|]. done.
    + unfold evm_ws_handler, typed, messages_poll_event in Hh. done.
  - destruct Hh as [Hh|Hh]; [unfold evm_msg_handler, typed, worker_set_poll_event in Hh; done|].
    pose proof Hh as Hh'. apply typed_ok in Hh' as (attrs & p & Hev & Hd & Hk).
    destruct (evm_relevant _ _ _) eqn:Hr; [|done].
    apply rbind_ok in Hk as (o' & _ & Hk). apply submit_ok in Hk as [Htx _]. injection Htx as -> _.
    apply (de_evm_poll_spec _ _ _ "wasm-worker_set_poll_started") in Hd as (_ & (x & Hx & Hxp) & _).
    unfold worker_set_poll_event in Hev. injection Hev as <-.
    rewrite attr_abci, lookup_insert_ne in Hx by done.
    apply meta_attrs in Hx. destruct_or?; destruct_and?; try done.
    match goal with H : JStr x = JStr _ |- _ => injection H as -> end.
    apply dec_u64_inj in Hxp.
    assert (e = e') as ->.
    { eapply one_event; [exact He|exact He'|by eapply opens_id|]. by rewrite Eo, Hxp. }
    destruct e' as [op o2]. cbn [snd] in Eo. subst o2. destruct op; try done.
    by destruct Ho as (_ & _ & _ & _ & _ & _ & _ & _ & ? & _).
Qed.

Lemma operators_seen acc json contract chain (nodes : evm_rpc -> Prop) k c ops trusted o :
  valid_vconfig c -> json (vc_gateway c) = None ->
  Forall (fun p => p.2 < U256) (o_weights o) -> o_threshold o < U256 ->
  Forall (follows_ampd acc json contract chain nodes (vlog k c ops)) trusted ->
  mostly_trusted c (vlog k c ops) trusted ->
  worker_set_status k (vrun k c ops) o = Ok Verified ->
  exists h reg mid out a rpc, (VerifyWorkerSet h reg mid o, out) ∈ vlog k c ops /\
    a ∈ trusted /\ nodes rpc /\
    evm_shows_transfer chain (vc_confirmations c) rpc (vc_gateway c) mid o.
Proof.
  intros Hc Hj Hw Ht Hf Hm Hv.
  destruct (c13_quorum k c ops o Hc Hv) as (l1 & e & l2 & id & expires & workers & Hl & Ho & Hvo).
  destruct Hvo as (voters & Hnd & Hvot & Hq).
  assert (He : e ∈ vlog k c ops) by (rewrite Hl; set_solver).
  destruct (trusted_voter trusted workers voters (t_num (vc_threshold c)) (t_den (vc_threshold c))) as (a & Ha & Hat).
  { done. } { intros a Ha. by apply Hvot. } { done. } { by eapply Hm. }
  destruct (Hvot a Ha) as (_ & h & ballot & out & Hin & _ & Hb).
  rewrite Forall_forall in Hf. destruct (Hf a Hat h id ballot out) as (e' & ev & height & open & rpc & He' & Hem & Hn & Hh).
  { rewrite Hl. set_solver. }
  unfold emitted in Hem. destruct (e'.2) as [st [[es meta]|] | tx i o' meta| |] eqn:Eo; try done; injection Hem as <-.
  - destruct Hh as [Hh|Hh]; [|unfold evm_ws_handler, typed, messages_poll_event in Hh; done].
    apply evm_msg_votes in Hh as (poll & confs & gw & js & votes & Hp & _ & _ & _ & _ & Htx & _).
    injection Htx as <- _. destruct Hp as (_ & (x & Hx & Hxp) & _ & _).
    unfold messages_poll_event in Hx. rewrite attr_abci, lookup_insert_ne in Hx by done.
    apply meta_attrs in Hx. destruct_or?; destruct_and?; try done.
    match goal with H : JStr x = JStr _ |- _ => injection H as -> end.
    apply dec_u64_inj in Hxp.
    assert (e = e') as ->.
    { eapply one_event; [exact He|exact He'|by eapply opens_id|]. by rewrite Eo, Hxp. }
    destruct e' as [op o2]. cbn [snd] in Eo. subst o2. destruct op; try done.
    by destruct Ho as (_ & _ & _ & _ & _ & _ & _ & _ & ? & ? & _).
  - destruct Hh as [Hh|Hh]; [unfold evm_msg_handler, typed, worker_set_poll_event in Hh; done|].
    pose proof Hh as Hh'. apply typed_ok in Hh' as (attrs & p & Hev & Hd & Hk).
    destruct (evm_relevant _ _ _) eqn:Hr; [|done].
    apply rbind_ok in Hk as (o2 & _ & Hk). apply submit_ok in Hk as [Htx _]. injection Htx as -> _.
    apply (de_evm_poll_spec _ _ _ "wasm-worker_set_poll_started") in Hd as (_ & (x & Hx & Hxp) & _).
    unfold worker_set_poll_event in Hev. injection Hev as <-.
    rewrite attr_abci, lookup_insert_ne in Hx by done.
    apply meta_attrs in Hx. destruct_or?; destruct_and?; try done.
    match goal with H : JStr x = JStr _ |- _ => injection H as -> end.
    apply dec_u64_inj in Hxp.
    assert (e = e') as ->.
    { eapply one_event; [exact He|exact He'|by eapply opens_id|]. by rewrite Eo, Hxp. }
    destruct e' as [op o3]. cbn [snd] in Eo. subst o3. destruct op as [|h' reg mid o3| |]; try done.
    destruct Ho as (_ & _ & _ & _ & Hgw & Hcf & _ & _ & [= <-] & -> & Hpid).
    apply worker_set_poll_vote in Hh as [_ (v & -> & Hvv)]; [|by rewrite Hgw|done..].
    cbn in Hb. injection Hb as ->. destruct (proj1 Hvv eq_refl) as (t & gw & H1 & H2 & H3).
    rewrite Hcf in H3. rewrite Hgw in H2. apply parse_id_spec in Hpid as (n & Hpid & Hn').
    exists h', reg, mid, (OutWorkerSet tx i o meta), a, rpc. do 3 (split; [done|]).
    exists t, t, i, gw. split; [exists tx, n; done|]. done.
Qed.

(** The operators data a worker looks for is what the prover put into the
    transfer command for the set. *)
Lemma transfer_data keccak sec1 ws o d :
  make_operators keccak sec1 Abi ws = Ok o -> abi_transfer_params keccak sec1 ws = Ok d ->
  d = evm_operators (o_weights o) (o_threshold o).
Proof.
  unfold make_operators, abi_transfer_params. intros H Hd.
  apply rbind_ok in H as (l & Hl & H). injection H as <-.
  apply rbind_ok in Hd as (l' & Hl' & Hd). rewrite Hl in Hl'. injection Hl' as <-.
  apply rbind_ok in Hd as (addrs & Ha & Hd). injection Hd as <-. unfold evm_operators, operators_new.
  cbn [o_weights o_threshold]. change (isort _ l) with (sort_by_addr l).
  assert (addrs = TAddress ∘ fst <$> sort_by_addr l) as ->; [|done].
  apply try_map_ok in Ha. clear -Ha. induction Ha as [|x y k k' H _ IH]; [done|]. cbn. f_equal; [|done].
  unfold address_token in H. destruct (_ =? _)%nat; [|done]. by injection H as <-.
Qed.

(** The set the prover hands over to, once its verifier reports it. *)
Lemma transfer_seen keccak sec1 ws d acc json contract chain (nodes : evm_rpc -> Prop) k c ops trusted o :
  valid_vconfig c -> json (vc_gateway c) = None ->
  Forall (fun p => p.2 < U256) (o_weights o) -> o_threshold o < U256 ->
  Forall (follows_ampd acc json contract chain nodes (vlog k c ops)) trusted ->
  mostly_trusted c (vlog k c ops) trusted ->
  make_operators keccak sec1 Abi ws = Ok o -> abi_transfer_params keccak sec1 ws = Ok d ->
  worker_set_status k (vrun k c ops) o = Ok Verified ->
  exists a rpc q t i gw, a ∈ trusted /\ nodes rpc /\ hex_bytes 20 (vc_gateway c) gw /\
    evm_seen chain (vc_confirmations c) rpc q gw t i (OperatorshipTransferred d).
Proof.
  intros Hc Hj Hw Ht Hf Hm Ho Hd Hv.
  destruct (operators_seen _ _ _ _ _ _ _ _ _ _ Hc Hj Hw Ht Hf Hm Hv)
    as (h & reg & mid & out & a & rpc & _ & Ha & Hn & q & t & i & gw & _ & Hg & Hs).
  exists a, rpc, q, t, i, gw. rewrite (transfer_data _ _ _ _ _ Ho Hd). done.
Qed.
