(** Proofs about the whole way of a message: served messages, proofs, worker
    sets. *)
From stdpp Require Import sorting.
From Verif Require Import Base Text TextLemmas BaseLemmas MapLemmas StdModel StdSpec StdProofs RouterTypes RegistryTypes MultisigTypes
  OperatorsModel EncodingModel EncodingProofs3 RouterModel GatewayModel NexusModel VerifierModel VerifierSpec
  EventsModel HandlersModel HandlersSpec WorkersSpec MultisigModel
  ProverModel ProverSpec SigningModel SystemModel SystemSpec SystemProofs3 SystemProofs6 SystemProofs9
  JourneySpec JourneyProofs JourneyProofs2.

Lemma operators_weights keccak sec1 e ws o (P : N -> Prop) : make_operators keccak sec1 e ws = Ok o ->
  (forall a sg, ws_signers ws !! a = Some sg -> P (sg_weight sg)) -> Forall (fun p => P p.2) (o_weights o).
Proof.
  intros Ho HP.
  assert (Hsg : Forall (fun sg => P (sg_weight sg)) (signers_of ws)).
  { apply Forall_forall. intros sg ([a sg'] & -> & Hin)%elem_of_list_fmap. cbn.
    apply elem_of_btree_iter in Hin. by eapply HP. }
  assert (Hs : forall l : list (string * N), Forall (fun p => P p.2) l -> forall t, Forall (fun p => P p.2) (o_weights (operators_new l t))).
  { intros l Hl t. unfold operators_new. cbn [o_weights]. by rewrite isort_perm. }
  destruct e; unfold make_operators in Ho.
  - apply rbind_ok in Ho as (l & Hl & [= <-]). apply Hs. unfold abi_operator_list in Hl. apply try_map_ok in Hl.
    clear -Hl Hsg. induction Hl as [|sg x sgs l Hx H IH]; [done|]. apply Forall_cons in Hsg as [H1 H2].
    apply rbind_ok in Hx as (a & _ & [= <-]). constructor; [done|by apply IH].
  - injection Ho as <-. apply Hs. unfold bcs_operator_list. by rewrite Forall_fmap.
Qed.
Lemma operators_threshold keccak sec1 e ws o : make_operators keccak sec1 e ws = Ok o -> o_threshold o = ws_threshold ws.
Proof. destruct e; unfold make_operators; [intros (l & _ & [= <-])%rbind_ok|intros [= <-]]; done. Qed.

Section Journey.
  Context (keccak : string -> string) (wshash : worker_set -> string)
          (sec1 : string -> option string)
          (crypto : key_type -> string -> string -> string -> option bool)
          (acc : string -> bool) (json : string -> option jval) (b58 : string -> option string).
  Context (dep : gmap addr deployed) (txs : list tx).
  Notation history := (history keccak wshash sec1 crypto dep txs).
  Context (watches : addr -> option (watch * list addr)) (Hall : well_watched keccak acc json b58 watches dep history).

  Lemma c86_served d gs id m rc : sysrun keccak wshash sec1 crypto dep txs !! d = Some (CGateway gs) ->
    GatewayModel.get_messages gs [id] = Ok [m] -> dep !! gc_router (gw_config gs) = Some (DRouter rc) ->
    id = m_cc m /\ came b58 watches dep (gc_router (gw_config gs)) rc d history m.
  Proof.
    intros Hd Hm Hr. destruct (c61_served _ _ _ _ _ _ _ _ _ _ _ Hd Hm Hr) as [-> Ha]. split; [done|].
    eapply arrived_came; [exact Hall| |exact Ha]. exists []. by rewrite app_nil_r.
  Qed.

  Lemma c86_proof recover p c g r n : dep !! p = Some (DProver c) -> dep !! pc_multisig c = Some (DMultisig g r n) ->
    forall s id resp gc rc,
    dep !! pc_gateway c = Some (DGateway gc) -> dep !! gc_router gc = Some (DRouter rc) ->
    pair_state (sysrun keccak wshash sec1 crypto dep txs) p c s -> system_proof keccak sec1 recover c s id = Ok resp ->
    exists pre k post msgs ts cs, history = pre ++ k :: post /\ k_to k = p /\
      (sb_body (k_sub k) = BProver (ConstructProof (m_cc <$> msgs)) \/
       sb_body (k_sub k) = BProver UpdateWorkerSet /\ msgs = []) /\
      pr_ids resp = m_cc <$> msgs /\ d_chain (pr_data resp) = pc_chain_id c /\ d_commands (pr_data resp) = ts ++ cs /\
      (ts = [] \/ exists t ws, ts = [t] /\ make_transfer keccak wshash sec1 (pc_encoder c) ws = Ok t /\
         is_active_set c (prover_env keccak (k_env k) (k_index k) (k_chain k)) ws) /\
      Forall2 (fun m x => make_command keccak (pc_encoder c) m = Ok x) msgs cs /\
      Forall (fun m => m_dchain m = pc_chain c /\ came b58 watches dep (gc_router gc) rc (pc_gateway c) pre m) msgs.
  Proof.
    intros Hp Hm s id resp gc rc Hg Hr Hs Hpf.
    destruct (c83 keccak wshash sec1 recover crypto dep txs p c g r n Hp Hm s id resp gc rc Hg Hr Hs Hpf)
      as (pre & k & post & msgs & ts & cs & H1 & H2 & H3 & H4 & H5 & H6 & H7 & H8 & H9).
    exists pre, k, post, msgs, ts, cs. do 8 (split; [done|]).
    eapply Forall_impl; [exact H9|]. intros m [Hd Ha]. split; [done|]. eapply arrived_came; [exact Hall| |exact Ha]. by exists (k :: post).
  Qed.

  Lemma c87 p c g r n : dep !! p = Some (DProver c) -> dep !! pc_multisig c = Some (DMultisig g r n) ->
    forall s ws,
    pair_state (sysrun keccak wshash sec1 crypto dep txs) p c s -> query_worker_set (sy_prover s) = Ok ws -> ws_threshold ws < U256 ->
    exists pre k post, history = pre ++ k :: post /\ k_to k = p /\
      ConfirmWorkerSet ∉ prover_calls p post /\
      ((sb_body (k_sub k) = BProver UpdateWorkerSet /\ prover_calls p pre = [] /\
        is_active_set c (prover_env keccak (k_env k) (k_index k) (k_chain k)) ws) \/
       (sb_body (k_sub k) = BProver ConfirmWorkerSet /\
        exists o, make_operators keccak sec1 (pc_encoder c) ws = Ok o /\
          forall vc w trusted, dep !! pc_verifier c = Some (DVerifier vc) -> watches (pc_verifier c) = Some (w, trusted) ->
            exists k0 mid, k0 ∈ pre /\ k_to k0 = pc_verifier c /\ sb_body (k_sub k0) = BVerifyWorkerSet mid o /\
              took_over b58 w vc mid o)).
  Proof.
    intros Hp Hm s ws Hs Hq Ht.
    destruct (c84_set keccak wshash sec1 crypto dep txs p c g r n Hp Hm s ws Hs Hq) as (pre & k & post & H1 & H2 & H3 & H4).
    exists pre, k, post. split; [done|]. split; [done|]. split; [done|].
    destruct H4 as [H4|(H4 & (la & k0 & lb & _ & _ & _ & workers & _ & _ & _ & _ & Hw & _) & o & Ho & Hquo)]; [by left|right].
    split; [done|]. exists o. split; [done|]. intros vc w trusted Hvc Hwt. pose proof (Hall _ _ _ _ Hvc Hwt) as Hwd.
    eapply quorum_taken; [exact Hvc|exact Hwd|by exists (k :: post)| | |].
    - apply (operators_weights _ _ _ _ _ (fun x => x < U256) Ho). intros a sg Hsg. destruct (Hw a sg Hsg) as (_ & -> & _). by vm_compute.
    - by rewrite (operators_threshold _ _ _ _ _ Ho).
    - apply Hquo; [done|]. by destruct Hwd.
  Qed.
End Journey.
