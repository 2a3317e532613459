(** C93, C94: what anybody can do: deliver what was vouched for, confirm the
    next worker set, start a signing session. *)
From stdpp Require Import sorting.
From Verif Require Import Base BaseLemmas Text StdModel RouterTypes RegistryTypes OperatorsModel MultisigTypes
  RouterModel RouterSpec RouterProofs GatewayModel GatewaySpec GatewayProofs NexusModel RewardsModel RegistryModel
  VerifierModel VerifierSpec VerifierProofs MultisigModel MultisigSpec MultisigProofs MultisigProofs2 MultisigProofs3
  EncodingModel EncodingSpec ProverModel ProverSpec ProverProofs ProverProofs2
  SigningModel SigningSpec SigningProofs SigningProofs2
  SystemModel SystemSpec SystemProofs SystemProofs2 SystemProofs3 SystemProofs4 SystemProofs5 SystemProofs6 SystemProofs7
  DaemonProofs4 DeliverySpec DeliveryProofs.

Section Deliver.
  Context (keccak : string -> string) (wshash : worker_set -> string)
          (sec1 : string -> option string)
          (crypto : key_type -> string -> string -> string -> option bool).
  Notation sstep := (system_step keccak wshash sec1 crypto).
  Notation sysrun := (sysrun keccak wshash sec1 crypto).
  Notation history := (history keccak wshash sec1 crypto).

  Lemma is_verified_all vs ms : Forall (fun m => message_status keccak vs m = Ok Verified) ms ->
    is_verified keccak vs ms = Ok ((fun m => (m_cc m, true)) <$> ms).
  Proof.
    unfold is_verified. induction 1 as [|m ms Hm _ IH]; [done|]. cbn [try_map]. rewrite Hm. cbn [rbind]. rewrite IH. done.
  Qed.
  Lemma get_one gs m : gw_outgoing gs !! m_cc m = Some m -> GatewayModel.get_messages gs [m_cc m] = Ok [m].
  Proof. intros H. unfold GatewayModel.get_messages. cbn [try_map]. rewrite H. done. Qed.
  Lemma filter_all {A} (P : A -> Prop) `{!forall x, Decision (P x)} (l : list A) : Forall P l -> filter P l = l.
  Proof. induction 1 as [|x l Hx _ IH]; [done|]. rewrite filter_cons, decide_True, IH by done. done. Qed.

  Lemma c93_delivered dep txs G gc rc vc :
    dep !! G = Some (DGateway gc) -> dep !! gc_router gc = Some (DRouter rc) ->
    dep !! gc_verifier gc = Some (DVerifier vc) -> valid_vconfig vc -> in_blocks txs ->
    let st := sysrun dep txs in
    forall rs, st !! gc_router gc = Some (CRouter rs) ->
    forall g e a ms, dep !! a = None -> distinct_ids ms ->
    Forall (message_vouched keccak (gc_verifier gc) vc (history dep txs)) ms ->
    may_send rs G ms ->
    Forall (fun m => exists d, goes_to rs G (m_dchain m) = Some d /\ takes_from (gc_router gc) (st !! d)) ms ->
    exists st' l,
      sstep st {| tx_gas := S (S (S g)); tx_env := e; tx_sender := a; tx_sub := plain G (BRoute ms) |} = Ok (st', l) /\
      (forall d, st' !! d = with_messages (filter (fun m => goes_to rs G (m_dchain m) = Some d) ms) (st !! d)) /\
      (forall m d gs, m ∈ ms -> goes_to rs G (m_dchain m) = Some d -> st !! d = Some (CGateway gs) ->
         forall e' n, q_messages e' n st' d [m_cc m] = Some [m]).
  Proof.
    intros HG HR HV Hvc Hb st rs Hrs g e a ms Ha Hd Hv Hmay Hto.
    assert (Hvs : exists vs, st !! gc_verifier gc = Some (CVerifier vs)).
    { pose proof (shape_end keccak wshash sec1 crypto dep txs (gc_verifier gc)) as Hs. rewrite HV in Hs. cbn [shape] in Hs.
      eauto. }
    destruct Hvs as [vs Hvs].
    assert (Hall : Forall (fun m => message_status keccak vs m = Ok Verified) ms).
    { eapply Forall_impl; [exact Hv|]. intros m Hm.
      destruct (c93_message keccak wshash sec1 crypto dep txs _ _ _ HV Hvc Hb Hm) as (vs' & Hvs' & Hst).
      change (st !! gc_verifier gc = Some (CVerifier vs')) in Hvs'. rewrite Hvs in Hvs'. by injection Hvs' as ->. }
    pose proof (is_verified_all vs ms Hall) as Hok.
    assert (Hf : filter (fun m => status_verified keccak vs m = true) ms = ms).
    { apply filter_all. eapply Forall_impl; [exact Hall|]. intros m Hm. by apply status_verified_iff. }
    pose proof (c81 keccak wshash sec1 crypto dep txs G gc rc HG HR vs rs Hvs Hrs g e a ms Ha Hd) as H81.
    rewrite Hok in H81. specialize (H81 eq_refl). cbn zeta in H81. rewrite Hf in H81.
    destruct (H81 Hmay Hto) as (st' & l & Hs & Hst'). exists st', l. split; [done|]. split; [done|].
    intros m d gs Hm Hg Hgs e' n. unfold q_messages. rewrite Hst'. change (sysrun dep txs !! d) with (st !! d). rewrite Hgs. cbn [with_messages].
    unfold ask. rewrite get_one with (m := m); [done|]. cbn [gw_outgoing].
    apply lookup_union_Some_l, elem_of_list_to_map_1.
    - rewrite <- list_fmap_compose. change (NoDup (m_cc <$> filter (fun m0 => goes_to rs G (m_dchain m0) = Some d) ms)).
      eapply sublist_nodup; [|exact Hd]. apply fmap_sublist, filter_sub.
    - apply elem_of_list_fmap. exists m. split; [done|]. by apply elem_of_list_filter.
  Qed.
End Deliver.
