(** Proofs about verifier and Sui workers together. *)
From stdpp Require Import sorting.
From Verif Require Import Base Text TextLemmas BaseLemmas MapLemmas StdModel StdSpec RouterTypes RegistryTypes
  OperatorsModel EncodingModel VerifierModel VerifierSpec VerifierProofs VerifierProofs2 VerifierProofs3
  EventsModel HandlersModel HandlersSpec HandlersProofs HandlersProofs2 WorkersSpec WorkersProofs WorkersProofs2 SuiWorkersSpec.

Lemma sui_message_json_fields b58 e t i daddr dchain s h :
  message_fields (fun x b => b58 x = Some b) (hex_bytes 32) (message_json e) t i daddr dchain s h ->
  b58 (te_tx_id e) = Some t /\ i = te_index e /\ daddr = te_daddr e /\ dchain = lower (te_dchain e) /\
  hex_bytes 32 (te_src e) s /\ h = te_hash e.
Proof.
  intros [(x1 & F1 & H1) F2 F3 (x4 & F4 & H4) (x5 & F5 & H5) (x6 & F6 & H6)].
  field F1. field F2. field F3. field F4. field F5. field F6.
  apply hex_bytes_to_hex in H6. done.
Qed.
Lemma sui_worker_set_json_fields b58 tx idx o t i ops threshold :
  worker_set_fields (fun x b => b58 x = Some b) (fun x b => of_hex x = Some b) (worker_set_json tx idx o) t i ops threshold ->
  Forall (fun p => p.2 < U256) (o_weights o) -> o_threshold o < U256 ->
  b58 tx = Some t /\ i = idx /\ ops = o_weights o /\ threshold = o_threshold o.
Proof.
  intros [(x1 & F1 & H1) F2 (v3 & l3 & F3 & F3' & H3) (v4 & y4 & F4 & F4' & H4)] Hw Ht.
  field F1. field F2. field F3. field F3'. field F4. field F4'.
  split; [done|]. split; [done|]. rewrite parse_uint_dec in H4 by done. injection H4 as <-. split; [|done].
  apply Forall2_fmap_l in H3. clear -H3 Hw. induction H3 as [|[a n] [b m] l k H _ IH]; [done|].
  apply Forall_cons in Hw as [Hn Hw]. rewrite (IH Hw).
  destruct H as (x & y & [= <- <-] & Hx & Hy). cbn [fst snd] in *.
  rewrite of_to_hex in Hx. injection Hx as <-. rewrite parse_uint_dec in Hy by done. by injection Hy as <-.
Qed.

Lemma sui_worker_message_vote acc b58 json contract chain es meta a height open rpc id ballot :
  json (pm_gateway meta) = None ->
  sui_msg_handler acc b58 {| hc_worker := a; hc_contract := contract; hc_chain := chain |} height open rpc
    (messages_poll_event json contract es meta) =
    Ok (Some {| wt_sender := a; wt_contract := contract; wt_body := BodyVote id ballot |}) ->
  id = pm_poll_id meta /\
  Forall2 (fun te v => v = SucceededOnChain ->
    exists b t gw s dc e, b58 (te_tx_id te) = Some t /\ hex_bytes 32 (pm_gateway meta) gw /\
      hex_bytes 32 (te_src te) s /\ lower dc = lower (te_dchain te) /\ sui_answer rpc b /\
      sui_seen b gw t (te_index te) "gateway" "ContractCall" e /\ se_call e = Some (s, dc, te_daddr te, te_hash te))
    es ballot.
Proof.
  intros Hj H. apply sui_msg_votes in H as (poll & gw & js & votes & ids & bs & Hp & Hg & Hm & Htx & Hbs & _ & HF).
  injection Htx as <- <-. unfold messages_poll_event in *.
  destruct Hp as (_ & (x & Hx & Hxp) & _ & _). destruct Hg as (xg & Hg & Hgb).
  rewrite attr_abci in Hx, Hg, Hm.
  rewrite lookup_insert in Hm. rewrite lookup_insert_ne in Hx, Hg by done. injection Hm as <-.
  apply meta_attrs in Hx. destruct_or?; destruct_and?; try done.
  apply meta_attrs in Hg. destruct_or?; destruct_and?; try done.
  repeat match goal with H : JStr _ = JStr _ |- _ => injection H as -> end.
  match goal with H : JStr xg = attr_value _ _ |- _ => symmetry in H; apply (attr_json_str _ _ _ Hj) in H; subst xg end.
  split; [by apply dec_u64_inj|]. rewrite Forall2_fmap_l in HF.
  eapply Forall2_impl; [exact HF|]. intros e v (t & i & daddr & dchain & s & h & Hf & _ & Hs & _) Hv.
  apply sui_message_json_fields in Hf as (Hf1 & -> & -> & -> & Hf5 & ->).
  destruct (Hs Hv) as (b & ev & dc & Hb & Hdc & Hseen & Hcall). exists b, t, gw, s, dc, ev.
  do 4 (split; [done|]). split; [right; eauto|]. done.
Qed.

Lemma sui_worker_set_poll_vote acc b58 json contract chain tx idx o meta a height open rpc id ballot :
  json (pm_gateway meta) = None ->
  Forall (fun p => p.2 < U256) (o_weights o) -> o_threshold o < U256 ->
  sui_ws_handler acc b58 {| hc_worker := a; hc_contract := contract; hc_chain := chain |} height open rpc
    (worker_set_poll_event json contract tx idx o meta) =
    Ok (Some {| wt_sender := a; wt_contract := contract; wt_body := BodyVote id ballot |}) ->
  id = pm_poll_id meta /\ exists v, ballot = [v] /\
  (v = SucceededOnChain ->
    exists b t gw e d, b58 tx = Some t /\ hex_bytes 32 (pm_gateway meta) gw /\ sui_answer rpc b /\
      sui_seen b gw t idx "validators" "OperatorshipTransferred" e /\ se_transfer e = Some d /\
      sui_operators (o_weights o) (o_threshold o) = Some d).
Proof.
  intros Hj Hw Ht H.
  apply sui_ws_vote in H as (poll & gw & j & v & Hp & Hg & Hm & Htx & HF).
  injection Htx as <- ->. unfold worker_set_poll_event in *.
  destruct Hp as (_ & (x & Hx & Hxp) & _ & _). destruct Hg as (xg & Hg & Hgb).
  rewrite attr_abci in Hx, Hg, Hm.
  rewrite lookup_insert in Hm. rewrite lookup_insert_ne in Hx, Hg by done. injection Hm as <-.
  apply meta_attrs in Hx. destruct_or?; destruct_and?; try done.
  apply meta_attrs in Hg. destruct_or?; destruct_and?; try done.
  repeat match goal with H : JStr _ = JStr _ |- _ => injection H as -> end.
  match goal with H : JStr xg = attr_value _ _ |- _ => symmetry in H; apply (attr_json_str _ _ _ Hj) in H; subst xg end.
  split; [by apply dec_u64_inj|]. exists v. split; [done|].
  destruct HF as (t & i & ops & threshold & block & Hf & Hb & _ & Hv).
  apply sui_worker_set_json_fields in Hf as (Hf1 & -> & -> & ->); [|done..].
  intros Hs. destruct (proj1 Hv Hs) as (e & d & Hse & Htr & Hop). exists block, t, gw, e, d.
  do 2 (split; [done|]). split; [left; eauto|]. done.
Qed.

(** A vote for a poll is for the event that opened it. *)
Lemma sui_msg_poll_id acc b58 cfg height open rpc json contract es meta id ballot :
  sui_msg_handler acc b58 cfg height open rpc (messages_poll_event json contract es meta) =
    Ok (Some {| wt_sender := hc_worker cfg; wt_contract := hc_contract cfg; wt_body := BodyVote id ballot |}) -> id = pm_poll_id meta.
Proof.
  intros H. apply sui_msg_votes in H as (poll & gw & js & votes & ids & bs & Hp & _ & _ & Htx & _).
  injection Htx as <- _. destruct Hp as (_ & (x & Hx & Hxp) & _ & _).
  unfold messages_poll_event in Hx. rewrite attr_abci, lookup_insert_ne in Hx by done.
  apply meta_attrs in Hx. destruct_or?; destruct_and?; try done.
  match goal with H : JStr x = JStr _ |- _ => injection H as -> end. by apply dec_u64_inj.
Qed.
Lemma sui_ws_poll_id acc b58 cfg height open rpc json contract tx i o meta id ballot :
  sui_ws_handler acc b58 cfg height open rpc (worker_set_poll_event json contract tx i o meta) =
    Ok (Some {| wt_sender := hc_worker cfg; wt_contract := hc_contract cfg; wt_body := BodyVote id ballot |}) -> id = pm_poll_id meta.
Proof.
  intros H. apply sui_ws_vote in H as (poll & gw & j & v & Hp & _ & _ & Htx & _).
  injection Htx as <- _. destruct Hp as (_ & (x & Hx & Hxp) & _ & _).
  unfold worker_set_poll_event in Hx. rewrite attr_abci, lookup_insert_ne in Hx by done.
  apply meta_attrs in Hx. destruct_or?; destruct_and?; try done.
  match goal with H : JStr x = JStr _ |- _ => injection H as -> end. by apply dec_u64_inj.
Qed.

Lemma sui_message_seen acc b58 json contract chain (nodes : sui_rpc -> Prop) k c ops trusted m :
  valid_vconfig c -> json (vc_gateway c) = None ->
  Forall (follows_ampd_sui acc b58 json contract chain nodes (vlog k c ops)) trusted ->
  mostly_trusted c (vlog k c ops) trusted ->
  message_status k (vrun k c ops) m = Ok Verified ->
  exists a rpc, a ∈ trusted /\ nodes rpc /\ sui_shows b58 rpc (vc_gateway c) m.
Proof.
  intros Hc Hj Hf Hm Hv. destruct (c08 k c ops m Hc Hv) as (l1 & e & l2 & id & expires & workers & ms & idx & Hl & Ho & Hms & Hvo).
  destruct Hvo as (voters & Hnd & Hvot & Hq).
  assert (He : e ∈ vlog k c ops) by (rewrite Hl; set_solver).
  destruct (trusted_voter trusted workers voters (t_num (vc_threshold c)) (t_den (vc_threshold c))) as (a & Ha & Hat).
  { done. } { intros a Ha. by apply Hvot. } { done. } { by eapply Hm. }
  exists a. destruct (Hvot a Ha) as (_ & h & ballot & out & Hin & _ & Hb).
  rewrite Forall_forall in Hf. destruct (Hf a Hat h id ballot out) as (e' & ev & height & open & rpc & He' & Hem & Hn & Hh).
  { rewrite Hl. set_solver. }
  exists rpc. split; [done|]. split; [done|].
  unfold emitted in Hem. destruct (e'.2) as [st [[es meta]|] | tx i o meta| |] eqn:Eo; try done; injection Hem as <-.
  - destruct Hh as [Hh|Hh]; [|unfold sui_ws_handler, typed, messages_poll_event in Hh; done].
    pose proof (sui_msg_poll_id _ _ {| hc_worker := a; hc_contract := contract; hc_chain := chain |} _ _ _ _ _ _ _ _ _ Hh) as Hid.
    assert (e = e') as ->.
    { eapply one_event; [exact He|exact He'|by eapply opens_id|]. by rewrite Eo, Hid. }
    destruct e' as [op o2]. cbn [snd] in Eo. subst o2. destruct op; try done.
    destruct Ho as (_ & _ & _ & Hch & Hgw & Hcf & _ & _ & todo & [= <-] & _ & Hev).
    apply sui_worker_message_vote in Hh as [_ HF]; [|by rewrite Hgw].
    destruct (Forall2_lookup_l _ _ _ _ _ Hev Hms) as (te & Hte & Hmte).
    destruct (Forall2_lookup_l _ _ _ _ _ HF Hte) as (v & Hbv & Hs).
    rewrite Hb in Hbv. injection Hbv as <-. destruct (Hs eq_refl) as (b & t & gw' & s & dc & e2 & H1 & H2 & H3 & H4 & H5 & H6 & H7).
    unfold tx_event_of in Hmte. apply rbind_ok in Hmte as ([tx i] & Hpid & Hmte). injection Hmte as <-.
    cbn [te_tx_id te_index te_daddr te_dchain te_src te_hash] in *. rewrite Hgw in H2.
    apply parse_id_spec in Hpid as (n & Hpid & Hn').
    exists b, t, i, gw', s, dc, e2. split; [exists tx, n; done|]. done.
  - destruct Hh as [Hh|Hh]; [unfold sui_msg_handler, typed, worker_set_poll_event in Hh; done|].
    pose proof (sui_ws_poll_id _ _ {| hc_worker := a; hc_contract := contract; hc_chain := chain |} _ _ _ _ _ _ _ _ _ _ _ Hh) as Hid.
    assert (e = e') as ->.
    { eapply one_event; [exact He|exact He'|by eapply opens_id|]. by rewrite Eo, Hid. }
    destruct e' as [op o2]. cbn [snd] in Eo. subst o2. destruct op; try done.
    by destruct Ho as (_ & _ & _ & _ & _ & _ & _ & _ & ? & _).
Qed.

Lemma sui_operators_seen acc b58 json contract chain (nodes : sui_rpc -> Prop) k c ops trusted o :
  valid_vconfig c -> json (vc_gateway c) = None ->
  Forall (fun p => p.2 < U256) (o_weights o) -> o_threshold o < U256 ->
  Forall (follows_ampd_sui acc b58 json contract chain nodes (vlog k c ops)) trusted ->
  mostly_trusted c (vlog k c ops) trusted ->
  worker_set_status k (vrun k c ops) o = Ok Verified ->
  exists h reg mid out a rpc, (VerifyWorkerSet h reg mid o, out) ∈ vlog k c ops /\
    a ∈ trusted /\ nodes rpc /\ sui_shows_transfer b58 rpc (vc_gateway c) mid o.
Proof.
  intros Hc Hj Hw Ht Hf Hm Hv.
  destruct (c13_quorum k c ops o Hc Hv) as (l1 & e & l2 & id & expires & workers & Hl & Ho & Hvo).
  destruct Hvo as (voters & Hnd & Hvot & Hq).
  assert (He : e ∈ vlog k c ops) by (rewrite Hl; set_solver).
  destruct (trusted_voter trusted workers voters (t_num (vc_threshold c)) (t_den (vc_threshold c))) as (a & Ha & Hat).
  { done. } { intros a Ha. by apply Hvot. } { done. } { by eapply Hm. }
  destruct (Hvot a Ha) as (_ & h & ballot & out & Hin & _ & Hb).
  rewrite Forall_forall in Hf. destruct (Hf a Hat h id ballot out) as (e' & ev & height & open & rpc & He' & Hem & Hn & Hh).
  { rewrite Hl. set_solver. }
  unfold emitted in Hem. destruct (e'.2) as [st [[es meta]|] | tx i o' meta| |] eqn:Eo; try done; injection Hem as <-.
  - destruct Hh as [Hh|Hh]; [|unfold sui_ws_handler, typed, messages_poll_event in Hh; done].
    pose proof (sui_msg_poll_id _ _ {| hc_worker := a; hc_contract := contract; hc_chain := chain |} _ _ _ _ _ _ _ _ _ Hh) as Hid.
    assert (e = e') as ->.
    { eapply one_event; [exact He|exact He'|by eapply opens_id|]. by rewrite Eo, Hid. }
    destruct e' as [op o2]. cbn [snd] in Eo. subst o2. destruct op; try done.
    by destruct Ho as (_ & _ & _ & _ & _ & _ & _ & _ & ? & ? & _).
  - destruct Hh as [Hh|Hh]; [unfold sui_msg_handler, typed, worker_set_poll_event in Hh; done|].
    pose proof (sui_ws_poll_id _ _ {| hc_worker := a; hc_contract := contract; hc_chain := chain |} _ _ _ _ _ _ _ _ _ _ _ Hh) as Hid.
    assert (e = e') as ->.
    { eapply one_event; [exact He|exact He'|by eapply opens_id|]. by rewrite Eo, Hid. }
    destruct e' as [op o3]. cbn [snd] in Eo. subst o3. destruct op as [|h' reg mid o3| |]; try done.
    destruct Ho as (_ & _ & _ & _ & Hgw & Hcf & _ & _ & [= <-] & -> & Hpid).
    apply sui_worker_set_poll_vote in Hh as [_ (v & -> & Hvv)]; [|by rewrite Hgw|done..].
    cbn in Hb. injection Hb as ->. destruct (Hvv eq_refl) as (b & t & gw & e2 & d & H1 & H2 & H3 & H4 & H5 & H6).
    rewrite Hgw in H2. apply parse_id_spec in Hpid as (n & Hpid & Hn').
    exists h', reg, mid, (OutWorkerSet tx i o meta), a, rpc. do 3 (split; [done|]).
    exists b, t, i, gw, e2, d. split; [exists tx, n; done|]. done.
Qed.
