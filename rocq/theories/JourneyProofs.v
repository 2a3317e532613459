(** Proofs about the whole way of a message: what trusted workers saw. *)
From stdpp Require Import sorting.
From Verif Require Import Base Text TextLemmas BaseLemmas MapLemmas StdModel StdSpec RouterTypes RegistryTypes MultisigTypes
  OperatorsModel EncodingModel VerifierModel VerifierSpec VerifierProofs VerifierProofs2 VerifierProofs3
  EventsModel HandlersModel HandlersSpec HandlersProofs HandlersProofs2 WorkersSpec WorkersProofs WorkersProofs2
  SystemModel SystemSpec JourneySpec.

(** *** Workers voting by any rule *)
Section Rule.
  Context (json : string -> option jval) (contract : addr) (rule : addr -> N -> list vote -> event -> Prop) (c : vconfig)
          (sent : tx_event -> Prop) (taken : string -> N -> operators -> Prop).
  Context (id_msg : forall a id ballot es meta, rule a id ballot (messages_poll_event json contract es meta) -> id = pm_poll_id meta)
          (id_ws : forall a id ballot tx idx o meta, rule a id ballot (worker_set_poll_event json contract tx idx o meta) -> id = pm_poll_id meta)
          (on_msg : forall a id ballot es meta, rule a id ballot (messages_poll_event json contract es meta) ->
             pm_gateway meta = vc_gateway c -> pm_confirmations meta = vc_confirmations c ->
             Forall2 (fun e v => v = SucceededOnChain -> sent e) es ballot)
          (on_ws : forall a id ballot tx idx o meta, rule a id ballot (worker_set_poll_event json contract tx idx o meta) ->
             pm_gateway meta = vc_gateway c -> pm_confirmations meta = vc_confirmations c ->
             ballot !! 0%nat = Some SucceededOnChain -> taken tx idx o).
  Context (k : string -> string) (ops : list vop) (trusted : list addr)
          (valid : valid_vconfig c) (most : mostly_trusted c (vlog k c ops) trusted)
          (follow : forall a h id ballot out, a ∈ trusted -> (Vote h a id ballot, out) ∈ vlog k c ops ->
             exists e ev, e ∈ vlog k c ops /\ emitted json contract e = Some ev /\ rule a id ballot ev).

  Lemma rule_event e e' ev id expires workers subj a ballot :
    e ∈ vlog k c ops -> opens c e id expires workers subj -> e' ∈ vlog k c ops -> emitted json contract e' = Some ev ->
    rule a id ballot ev -> e = e'.
  Proof.
    intros He Ho He' Hem Hr. eapply one_event; [exact He|exact He'|by eapply opens_id|].
    unfold emitted in Hem. destruct (e'.2) as [st [[es meta]|] | tx i o meta| |] eqn:Eo; try done; injection Hem as <-; cbn; f_equal.
    - symmetry. by eapply id_msg.
    - symmetry. by eapply id_ws.
  Qed.

  Lemma rule_message m : message_status k (vrun k c ops) m = Ok Verified ->
    exists te, tx_event_of m = Ok te /\ sent te.
  Proof.
    intros Hv. destruct (c08 k c ops m valid Hv) as (l1 & e & l2 & id & expires & workers & ms & idx & Hl & Ho & Hms & Hvo).
    destruct Hvo as (voters & Hnd & Hvot & Hq).
    assert (He : e ∈ vlog k c ops) by (rewrite Hl; set_solver).
    destruct (trusted_voter trusted workers voters (t_num (vc_threshold c)) (t_den (vc_threshold c))) as (a & Ha & Hat).
    { done. } { intros a Ha. by apply Hvot. } { done. } { by eapply most. }
    destruct (Hvot a Ha) as (_ & h & ballot & out & Hin & _ & Hb).
    destruct (follow a h id ballot out Hat) as (e' & ev & He' & Hem & Hr). { rewrite Hl. set_solver. }
    pose proof (rule_event _ _ _ _ _ _ _ _ _ He Ho He' Hem Hr) as <-.
    destruct e as [op o]. unfold emitted in Hem. cbn [snd] in Hem.
    destruct op; cbn [opens] in Ho; destruct o as [st [[es meta]|] | tx i o meta| |]; try done; injection Hem as <-.
    - destruct Ho as (_ & _ & _ & Hch & Hgw & Hcf & _ & _ & todo & [= <-] & _ & Hev).
      pose proof (on_msg _ _ _ _ _ Hr Hgw Hcf) as HF.
      destruct (Forall2_lookup_l _ _ _ _ _ Hev Hms) as (te & Hte & Hmte).
      destruct (Forall2_lookup_l _ _ _ _ _ HF Hte) as (v & Hbv & Hs).
      rewrite Hb in Hbv. injection Hbv as <-. eauto.
    - by destruct Ho as (_ & _ & _ & _ & _ & _ & _ & _ & ? & _).
  Qed.

  Lemma rule_operators o : worker_set_status k (vrun k c ops) o = Ok Verified ->
    exists h reg mid out tx idx, (VerifyWorkerSet h reg mid o, out) ∈ vlog k c ops /\
      parse_message_id mid = Ok (tx, idx) /\ taken tx idx o.
  Proof.
    intros Hv. destruct (c13_quorum k c ops o valid Hv) as (l1 & e & l2 & id & expires & workers & Hl & Ho & Hvo).
    destruct Hvo as (voters & Hnd & Hvot & Hq).
    assert (He : e ∈ vlog k c ops) by (rewrite Hl; set_solver).
    destruct (trusted_voter trusted workers voters (t_num (vc_threshold c)) (t_den (vc_threshold c))) as (a & Ha & Hat).
    { done. } { intros a Ha. by apply Hvot. } { done. } { by eapply most. }
    destruct (Hvot a Ha) as (_ & h & ballot & out & Hin & _ & Hb).
    destruct (follow a h id ballot out Hat) as (e' & ev & He' & Hem & Hr). { rewrite Hl. set_solver. }
    pose proof (rule_event _ _ _ _ _ _ _ _ _ He Ho He' Hem Hr) as <-.
    destruct e as [op x]. unfold emitted in Hem. cbn [snd] in Hem.
    destruct op as [|h' reg mid o'| |]; cbn [opens] in Ho; destruct x as [st [[es meta]|] | tx i o2 meta| |]; try done; injection Hem as <-.
    - by destruct Ho as (_ & _ & _ & _ & _ & _ & _ & _ & ? & ? & _).
    - destruct Ho as (_ & _ & _ & _ & Hgw & Hcf & _ & _ & [= <-] & -> & Hpid).
      exists h', reg, mid, (OutWorkerSet tx i o meta), tx, i. split; [done|]. split; [done|]. eauto.
  Qed.
End Rule.

(** *** ampd's handlers are such rules *)
Lemma poll_for_id_msg cfg height json contract es meta poll :
  poll_for cfg height (messages_poll_event json contract es meta) MSG poll -> poll = pm_poll_id meta.
Proof.
  intros (_ & (x & Hx & Hxp) & _ & _). unfold messages_poll_event in Hx. rewrite attr_abci, lookup_insert_ne in Hx by done.
  apply meta_attrs in Hx. destruct_or?; destruct_and?; try done.
  match goal with H : JStr x = JStr _ |- _ => injection H as -> end. by apply dec_u64_inj.
Qed.
Lemma poll_for_id_ws cfg height json contract tx idx o meta poll :
  poll_for cfg height (worker_set_poll_event json contract tx idx o meta) WS poll -> poll = pm_poll_id meta.
Proof.
  intros (_ & (x & Hx & Hxp) & _ & _). unfold worker_set_poll_event in Hx. rewrite attr_abci, lookup_insert_ne in Hx by done.
  apply meta_attrs in Hx. destruct_or?; destruct_and?; try done.
  match goal with H : JStr x = JStr _ |- _ => injection H as -> end. by apply dec_u64_inj.
Qed.

Lemma answers_id_msg acc json b58 w v a id ballot es meta :
  answers acc b58 w v a id ballot (messages_poll_event json v es meta) -> id = pm_poll_id meta.
Proof.
  unfold answers. intros (height & open & H). destruct w as [c nodes|nodes].
  - destruct H as (rpc & _ & [H|H]); [|unfold evm_ws_handler, typed, messages_poll_event in H; done].
    apply evm_msg_votes in H as (poll & ? & ? & ? & ? & Hp & _ & _ & _ & _ & Htx & _). injection Htx as <- _.
    by eapply poll_for_id_msg.
  - destruct H as (rpc & c & _ & [H|H]); [|unfold sui_ws_handler, typed, messages_poll_event in H; done].
    apply sui_msg_votes in H as (poll & ? & ? & ? & ? & ? & Hp & _ & _ & Htx & _). injection Htx as <- _.
    by eapply poll_for_id_msg.
Qed.
Lemma answers_id_ws acc json b58 w v a id ballot tx idx o meta :
  answers acc b58 w v a id ballot (worker_set_poll_event json v tx idx o meta) -> id = pm_poll_id meta.
Proof.
  unfold answers. intros (height & open & H). destruct w as [c nodes|nodes].
  - destruct H as (rpc & _ & [H|H]); [unfold evm_msg_handler, typed, worker_set_poll_event in H; done|].
    apply evm_ws_vote in H as (poll & ? & ? & ? & ? & Hp & _ & _ & _ & _ & Htx & _). injection Htx as <- _.
    by eapply poll_for_id_ws.
  - destruct H as (rpc & c & _ & [H|H]); [unfold sui_msg_handler, typed, worker_set_poll_event in H; done|].
    apply sui_ws_vote in H as (poll & ? & ? & ? & Hp & _ & _ & Htx & _). injection Htx as <- _.
    by eapply poll_for_id_ws.
Qed.

(** What a vote for a message, or for a worker set, says. *)
Definition event_sent (b58 : string -> option string) (w : watch) (vc : vconfig) (e : tx_event) : Prop :=
  match w with
  | OnEvm c nodes => exists rpc q t gw s dc, nodes rpc /\ hex_bytes 32 (te_tx_id e) t /\ hex_bytes 20 (vc_gateway vc) gw /\
      hex_bytes 20 (te_src e) s /\ lower dc = lower (te_dchain e) /\
      evm_seen c (vc_confirmations vc) rpc q gw t (te_index e) (ContractCall s dc (te_daddr e) (te_hash e))
  | OnSui nodes => exists rpc t gw s dc ids bs b ev, nodes rpc /\ b58 (te_tx_id e) = Some t /\ hex_bytes 32 (vc_gateway vc) gw /\
      hex_bytes 32 (te_src e) s /\ lower dc = lower (te_dchain e) /\ sr_blocks rpc ids = Some bs /\ b ∈ bs /\
      sui_seen b gw t (te_index e) "gateway" "ContractCall" ev /\ se_call ev = Some (s, dc, te_daddr e, te_hash e)
  end.
Definition event_taken (b58 : string -> option string) (w : watch) (vc : vconfig) (tx : string) (idx : N) (o : operators) : Prop :=
  Forall (fun p => p.2 < U256) (o_weights o) -> o_threshold o < U256 ->
  match w with
  | OnEvm c nodes => exists rpc t gw, nodes rpc /\ hex_bytes 32 tx t /\ hex_bytes 20 (vc_gateway vc) gw /\
      evm_seen c (vc_confirmations vc) rpc t gw t idx (OperatorshipTransferred (evm_operators (o_weights o) (o_threshold o)))
  | OnSui nodes => exists rpc t gw b ev d, nodes rpc /\ b58 tx = Some t /\ hex_bytes 32 (vc_gateway vc) gw /\
      sr_block rpc t = Some b /\ sui_seen b gw t idx "validators" "OperatorshipTransferred" ev /\
      se_transfer ev = Some d /\ sui_operators (o_weights o) (o_threshold o) = Some d
  end.

Lemma sui_message_json_fields b58 e t i daddr dchain s h :
  message_fields (fun x b => b58 x = Some b) (hex_bytes 32) (message_json e) t i daddr dchain s h ->
  b58 (te_tx_id e) = Some t /\ i = te_index e /\ daddr = te_daddr e /\ dchain = lower (te_dchain e) /\
  hex_bytes 32 (te_src e) s /\ h = te_hash e.
Proof.
  intros [(x1 & F1 & H1) F2 F3 (x4 & F4 & H4) (x5 & F5 & H5) (x6 & F6 & H6)].
  field F1. field F2. field F3. field F4. field F5. field F6.
  apply hex_bytes_to_hex in H6. done.
Qed.
Lemma sui_worker_set_json_fields b58 tx idx o t i ops threshold :
  worker_set_fields (fun x b => b58 x = Some b) (fun x b => of_hex x = Some b) (worker_set_json tx idx o) t i ops threshold ->
  Forall (fun p => p.2 < U256) (o_weights o) -> o_threshold o < U256 ->
  b58 tx = Some t /\ i = idx /\ ops = o_weights o /\ threshold = o_threshold o.
Proof.
  intros [(x1 & F1 & H1) F2 (v3 & l3 & F3 & F3' & H3) (v4 & y4 & F4 & F4' & H4)] Hw Ht.
  field F1. field F2. field F3. field F3'. field F4. field F4'.
  split; [done|]. split; [done|]. rewrite parse_uint_dec in H4 by done. injection H4 as <-. split; [|done].
  apply Forall2_fmap_l in H3. clear -H3 Hw. induction H3 as [|[a n] [b m] l k H _ IH]; [done|].
  apply Forall_cons in Hw as [Hn Hw]. rewrite (IH Hw).
  destruct H as (x & y & [= <- <-] & Hx & Hy). cbn [fst snd] in *.
  rewrite of_to_hex in Hx. injection Hx as <-. rewrite parse_uint_dec in Hy by done. by injection Hy as <-.
Qed.

Lemma gateway_attr_msg json v es meta xg : json (pm_gateway meta) = None ->
  has_attr (messages_poll_event json v es meta) MSG "source_gateway_address" (JStr xg) -> xg = pm_gateway meta.
Proof.
  intros Hj Hg. unfold messages_poll_event in Hg. rewrite attr_abci, lookup_insert_ne in Hg by done.
  apply meta_attrs in Hg. destruct_or?; destruct_and?; try done.
  match goal with H : JStr xg = attr_value _ _ |- _ => symmetry in H; by apply (attr_json_str _ _ _ Hj) in H end.
Qed.
Lemma gateway_attr_ws json v tx idx o meta xg : json (pm_gateway meta) = None ->
  has_attr (worker_set_poll_event json v tx idx o meta) WS "source_gateway_address" (JStr xg) -> xg = pm_gateway meta.
Proof.
  intros Hj Hg. unfold worker_set_poll_event in Hg. rewrite attr_abci, lookup_insert_ne in Hg by done.
  apply meta_attrs in Hg. destruct_or?; destruct_and?; try done.
  match goal with H : JStr xg = attr_value _ _ |- _ => symmetry in H; by apply (attr_json_str _ _ _ Hj) in H end.
Qed.

Lemma answers_msg acc json b58 w vc v a id ballot es meta : json (vc_gateway vc) = None ->
  answers acc b58 w v a id ballot (messages_poll_event json v es meta) ->
  pm_gateway meta = vc_gateway vc -> pm_confirmations meta = vc_confirmations vc ->
  Forall2 (fun e v => v = SucceededOnChain -> event_sent b58 w vc e) es ballot.
Proof.
  unfold answers. intros Hj (height & open & H) Hgw Hcf. rewrite <- Hgw in Hj. destruct w as [c nodes|nodes].
  - destruct H as (rpc & Hn & [H|H]); [|unfold evm_ws_handler, typed, messages_poll_event in H; done].
    apply worker_message_vote in H as [_ HF]; [|done]. eapply Forall2_impl; [exact HF|].
    intros e x Hs Hx. destruct (Hs Hx) as (q & t & gw & s & dc & H1 & H2 & H3 & H4 & H5).
    exists rpc, q, t, gw, s, dc. rewrite <- Hgw, <- Hcf. done.
  - destruct H as (rpc & c & Hn & [H|H]); [|unfold sui_ws_handler, typed, messages_poll_event in H; done].
    apply sui_msg_votes in H as (poll & gw & js & votes & ids & bs & Hp & (xg & Hg & Hgb) & Hm & Htx & Hbs & _ & HF).
    injection Htx as <- <-. apply gateway_attr_msg in Hg as ->; [|done].
    unfold messages_poll_event in Hm. rewrite attr_abci, lookup_insert in Hm. injection Hm as <-.
    rewrite Forall2_fmap_l in HF. eapply Forall2_impl; [exact HF|].
    intros e x (t & i & daddr & dchain & s & h & Hf & _ & Hs & _) Hx.
    apply sui_message_json_fields in Hf as (Hf1 & -> & -> & -> & Hf5 & ->).
    destruct (Hs Hx) as (b & ev & dc & Hb & Hdc & Hseen & Hc). rewrite Hgw in Hgb.
    exists rpc, t, gw, s, dc, ids, bs, b, ev. done.
Qed.
Lemma answers_ws acc json b58 w vc v a id ballot tx idx o meta : json (vc_gateway vc) = None ->
  answers acc b58 w v a id ballot (worker_set_poll_event json v tx idx o meta) ->
  pm_gateway meta = vc_gateway vc -> pm_confirmations meta = vc_confirmations vc ->
  ballot !! 0%nat = Some SucceededOnChain -> event_taken b58 w vc tx idx o.
Proof.
  unfold answers. intros Hj (height & open & H) Hgw Hcf Hb Hw Ht. rewrite <- Hgw in Hj. destruct w as [c nodes|nodes].
  - destruct H as (rpc & Hn & [H|H]); [unfold evm_msg_handler, typed, worker_set_poll_event in H; done|].
    apply worker_set_poll_vote in H as [_ (x & -> & Hx)]; [|done..]. cbn in Hb. injection Hb as ->.
    destruct (proj1 Hx eq_refl) as (t & gw & H1 & H2 & H3). exists rpc, t, gw. rewrite <- Hgw, <- Hcf. done.
  - destruct H as (rpc & c & Hn & [H|H]); [unfold sui_msg_handler, typed, worker_set_poll_event in H; done|].
    apply sui_ws_vote in H as (poll & gw & j & x & Hp & (xg & Hg & Hgb) & Hm & Htx & HF).
    injection Htx as <- ->. cbn in Hb. injection Hb as ->. apply gateway_attr_ws in Hg as ->; [|done].
    unfold worker_set_poll_event in Hm. rewrite attr_abci, lookup_insert in Hm. injection Hm as <-.
    destruct HF as (t & i & ops & threshold & b & Hf & Hbl & _ & Hv).
    apply sui_worker_set_json_fields in Hf as (Hf1 & -> & -> & ->); [|done..].
    destruct (proj1 Hv eq_refl) as (ev & d & Hseen & Hd & Ho). rewrite Hgw in Hgb.
    exists rpc, t, gw, b, ev, d. done.
Qed.

Lemma sent_message b58 w vc m te : tx_event_of m = Ok te -> event_sent b58 w vc te -> was_sent b58 w vc m.
Proof.
  intros Hm Hs. unfold tx_event_of in Hm. apply rbind_ok in Hm as ([tx i] & Hpid & Hm). injection Hm as <-.
  apply parse_id_spec in Hpid as (n & Hpid & Hn). unfold event_sent in Hs. destruct w as [c nodes|nodes]; cbn [te_tx_id te_index te_daddr te_dchain te_src te_hash] in *.
  - destruct Hs as (rpc & q & t & gw & s & dc & Hn' & H1 & H2 & H3 & H4 & H5). exists rpc. split; [done|].
    exists q, t, i, gw, s, dc. split; [exists tx, n; done|]. done.
  - destruct Hs as (rpc & t & gw & s & dc & ids & bs & b & ev & Hn' & H1 & H2 & H3 & H4 & H5 & H6 & H7 & H8).
    exists rpc. split; [done|]. exists tx, n, t, i, gw, s, dc, ids, bs, b, ev. done.
Qed.
Lemma taken_operators b58 w vc mid tx idx o :
  Forall (fun p => p.2 < U256) (o_weights o) -> o_threshold o < U256 ->
  parse_message_id mid = Ok (tx, idx) -> event_taken b58 w vc tx idx o -> took_over b58 w vc mid o.
Proof.
  intros Hw Ht Hpid Hs. specialize (Hs Hw Ht). apply parse_id_spec in Hpid as (n & Hpid & Hn). destruct w as [c nodes|nodes].
  - destruct Hs as (rpc & t & gw & Hn' & H1 & H2 & H3). exists rpc. split; [done|].
    exists t, t, idx, gw. split; [exists tx, n; done|]. done.
  - destruct Hs as (rpc & t & gw & b & ev & d & Hn' & H1 & H2 & H3 & H4 & H5 & H6). exists rpc. split; [done|].
    exists tx, n, t, idx, gw, b, ev, d. done.
Qed.
