(** C93: exactly the messages and worker sets voted for are Verified. *)
From stdpp Require Import sorting.
From Verif Require Import Base BaseLemmas Text StdModel RouterTypes RegistryTypes OperatorsModel MultisigTypes
  RouterModel GatewayModel NexusModel RewardsModel RegistryModel
  VerifierModel VerifierSpec VerifierProofs VerifierProofs5 VerifierProofs6 MultisigModel EncodingModel ProverModel SigningModel
  SystemModel SystemSpec SystemProofs SystemProofs2 SystemProofs3 SystemProofs4 SystemProofs9 DeliverySpec DeliveryProofs.

Section Exactly.
  Context (keccak : string -> string) (wshash : worker_set -> string)
          (sec1 : string -> option string)
          (crypto : key_type -> string -> string -> string -> option bool).
  Notation sysrun := (sysrun keccak wshash sec1 crypto).
  Notation history := (history keccak wshash sec1 crypto).

  Lemma verifier_call_state dep txs v vc l1 op out l2 : dep !! v = Some (DVerifier vc) ->
    vlog keccak vc (verifier_ops v (history dep txs)) = l1 ++ (op, out) :: l2 ->
    exists p1 k p2 vs', history dep txs = p1 ++ k :: p2 /\ k_to k = v /\
      k_chain k !! v = Some (CVerifier (vrun keccak vc l1.*1)) /\
      verifier_op (en_height (k_env k)) (q_active (k_env k) (k_index k) (k_chain k)) (k_sender k) (sb_body (k_sub k)) = Some op /\
      verifier_step keccak (vrun keccak vc l1.*1) op = Ok (vs', out) /\ l2.*1 = verifier_ops v p2.
  Proof.
    intros Hd Hl. pose proof (c80 keccak wshash sec1 crypto dep txs v) as H2. rewrite Hd in H2. cbn [as_alone] in H2.
    destruct H2 as [_ Hall]. unfold vlog in Hl. pose proof Hl as Hl'. rewrite Hl, fmap_app in Hall. cbn [fmap list_fmap fst] in Hall.
    apply log_split in Hl' as (o1 & o2 & s' & Hops & Hl1 & Hst & Hl2).
    pose proof Hops as Hops'. unfold verifier_ops in Hops'.
    apply calls_split in Hops' as (p1 & k & p2 & Hh & Hp1 & Hto & Hop & Hp2).
    pose proof (c80_during keccak wshash sec1 crypto dep txs p1 k p2 v Hh) as H1. rewrite Hd in H1. cbn [as_alone] in H1.
    destruct H1 as [H1 L1]. 
    assert (E1 : verifier_ops v p1 = l1.*1).
    { unfold verifier_ops in L1 |- *. rewrite Hp1 in *. rewrite <- Hl1. by rewrite L1. }
    rewrite E1 in *. assert (o1 = l1.*1) as -> by (unfold verifier_ops in E1; congruence).
    exists p1, k, p2, s'. split; [done|]. split; [done|]. split; [done|]. split; [done|]. split; [exact Hst|].
    rewrite Hops in Hall. apply app_inv_head in Hall. injection Hall as Hall. rewrite Hall. unfold verifier_ops. by rewrite Hp2.
  Qed.

  Lemma c93_message_conv dep txs v vc m : dep !! v = Some (DVerifier vc) -> valid_vconfig vc ->
    (exists vs, sysrun dep txs !! v = Some (CVerifier vs) /\ message_status keccak vs m = Ok Verified) ->
    message_vouched keccak v vc (history dep txs) m.
  Proof.
    intros Hd Hcfg (vs & Hvs & Hv). pose proof (c80 keccak wshash sec1 crypto dep txs v) as H2. rewrite Hd in H2. cbn [as_alone] in H2.
    destruct H2 as [H2 _]. rewrite Hvs in H2. injection H2 as ->.
    apply c93_conv in Hv as (l1 & h & reg & ms & sts & es & meta & l2 & workers & idx & Hl & Hi & Hreg & Hvd); [|done].
    destruct (verifier_call_state _ _ _ _ _ _ _ _ Hd Hl) as (p1 & k & p2 & vs' & Hh & Hto & Hk & Hop & Hst & Hl2).
    pose proof (vouched_calls _ _ _ _ _ _ _ _ Hvd Hl2) as Hvd'.
    destruct (sb_body (k_sub k)) eqn:Eb; try discriminate Hop. cbn [verifier_op] in Hop. injection Hop as <- <- ->.
    exists p1, k, p2, (vrun keccak vc l1.*1), vs', ms, sts, es, meta, workers, idx.
    split_and!; try done; try apply Hi. by apply named_active.
  Qed.
  Lemma c93_operators_conv dep txs v vc o : dep !! v = Some (DVerifier vc) -> valid_vconfig vc ->
    (exists vs, sysrun dep txs !! v = Some (CVerifier vs) /\ worker_set_status keccak vs o = Ok Verified) ->
    operators_vouched keccak v vc (history dep txs) o.
  Proof.
    intros Hd Hcfg (vs & Hvs & Hv). pose proof (c80 keccak wshash sec1 crypto dep txs v) as H2. rewrite Hd in H2. cbn [as_alone] in H2.
    destruct H2 as [H2 _]. rewrite Hvs in H2. injection H2 as ->.
    apply c93_conv_set in Hv as (l1 & h & reg & mid & tx & n & meta & l2 & workers & Hl & Hreg & Hvd & Hno); [|done].
    destruct (verifier_call_state _ _ _ _ _ _ _ _ Hd Hl) as (p1 & k & p2 & vs' & Hh & Hto & Hk & Hop & Hst & Hl2).
    pose proof (vouched_calls _ _ _ _ _ _ _ _ Hvd Hl2) as Hvd'.
    destruct (sb_body (k_sub k)) eqn:Eb; try discriminate Hop. cbn [verifier_op] in Hop. injection Hop as <- <- -> ->.
    exists p1, k, p2, (vrun keccak vc l1.*1), vs', mid, tx, n, meta, workers.
    split_and!; try done; [by apply named_active|].
    intros k' mid' o' Hk' Hto' Hb'.
    assert (Hin : VerifyWorkerSet (en_height (k_env k')) (q_active (k_env k') (k_index k') (k_chain k')) mid' o' ∈ verifier_ops v p2).
    { apply elem_of_list_omap. exists k'. split; [done|]. rewrite bool_decide_true by done. by rewrite Hb'. }
    rewrite <- Hl2 in Hin. apply elem_of_list_fmap in Hin as ([o0 out] & E & Hin). cbn [fst] in E. subst o0. by eapply Hno.
  Qed.

  Lemma c93_message_iff dep txs v vc m : dep !! v = Some (DVerifier vc) -> valid_vconfig vc -> in_blocks txs ->
    (exists vs, sysrun dep txs !! v = Some (CVerifier vs) /\ message_status keccak vs m = Ok Verified) <->
    message_vouched keccak v vc (history dep txs) m.
  Proof. intros. split; [by apply c93_message_conv|by apply c93_message]. Qed.
  Lemma c93_operators_iff dep txs v vc o : dep !! v = Some (DVerifier vc) -> valid_vconfig vc ->
    (exists vs, sysrun dep txs !! v = Some (CVerifier vs) /\ worker_set_status keccak vs o = Ok Verified) <->
    operators_vouched keccak v vc (history dep txs) o.
  Proof. intros. split; [by apply c93_operators_conv|by apply c93_operators]. Qed.
End Exactly.
