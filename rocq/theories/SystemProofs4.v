(** End to end: messages at destination gateways (C61). *)
From Verif Require Import Base BaseLemmas Text StdModel RouterTypes RegistryTypes OperatorsModel MultisigTypes
  RouterModel RouterSpec RouterProofs GatewayModel GatewaySpec GatewayProofs NexusModel NexusSpec NexusProofs
  RewardsModel RegistryModel VerifierModel VerifierSpec VerifierProofs MultisigModel
  EncodingModel ProverModel SystemModel SystemSpec SystemProofs SystemProofs2 SystemProofs3.

Lemma omap_split {A B} (f : A -> option B) (l : list A) o1 o o2 : omap f l = o1 ++ o :: o2 ->
  exists l1 a l2, l = l1 ++ a :: l2 /\ omap f l1 = o1 /\ f a = Some o /\ omap f l2 = o2.
Proof.
  revert o1. induction l as [|x l IH]; intros o1; cbn [omap list_omap]; [by destruct o1|].
  destruct (f x) as [y|] eqn:E.
  - destruct o1 as [|y' o1]; cbn [app].
    + intros [= -> <-]. by exists [], x, l.
    + intros [= -> H]. apply IH in H as (l1 & a & l2 & -> & <- & ? & ?). exists (x :: l1), a, l2. split; [done|].
      cbn [omap list_omap]. by rewrite E.
  - intros H. apply IH in H as (l1 & a & l2 & -> & <- & ? & ?). exists (x :: l1), a, l2. split; [done|].
    cbn [omap list_omap]. by rewrite E.
Qed.
Lemma calls_split {Op} (f : call -> option Op) a l o1 o o2 : calls_to f a l = o1 ++ o :: o2 ->
  exists l1 k l2, l = l1 ++ k :: l2 /\ calls_to f a l1 = o1 /\ k_to k = a /\ f k = Some o /\ calls_to f a l2 = o2.
Proof.
  unfold calls_to. intros (l1 & k & l2 & -> & ? & H & ?)%omap_split. case_bool_decide; [|done]. eauto 10.
Qed.

Section EndToEnd.
  Context (keccak : string -> string) (wshash : worker_set -> string)
          (sec1 : string -> option string)
          (crypto : key_type -> string -> string -> string -> option bool).
  Notation steps := (steps keccak wshash sec1 crypto).
  Notation received := (received keccak wshash sec1 crypto).
  Notation child_of := (child_of keccak wshash sec1 crypto).
  Notation sysrun := (sysrun keccak wshash sec1 crypto).
  Notation history := (history keccak wshash sec1 crypto).

  Lemma from_gateway dep txs pre k post gc ms : history dep txs = pre ++ k :: post -> dep !! k_sender k = Some (DGateway gc) ->
    sb_body (k_sub k) = BRoute ms ->
    k_to k = gc_router gc /\ exists p ms0 r, p ∈ pre /\ k_to p = k_sender k /\ sb_body (k_sub p) = BRoute ms0 /\
      k_sender p <> gc_router gc /\ distinct_ids ms0 /\
      q_is_verified keccak (k_env p) (k_index p) (k_chain p) (gc_verifier gc) ms0 = Some r /\
      ms = filter (fun m => GatewaySpec.reported r m = true) ms0 /\
      forall a, k_chain k !! a = k_chain p !! a.
  Proof.
    intros Hk Hd Hb. destruct (called_by keccak wshash sec1 crypto dep txs _ _ _ Hk) as (p & Hp & Hc & Hpt); [by rewrite Hd|].
    assert (Hp0 : p ∈ history dep txs) by (rewrite Hk; apply elem_of_app; by left).
    destruct (shape_in keccak wshash sec1 crypto dep txs p (k_to p) Hp0) as [l Hs]. rewrite Hpt, Hd in Hs. cbn [shape] in Hs.
    destruct Hc as (c' & subs & dd & pre' & post' & Hr & Hsubs & Hsd & _ & Hst). rewrite <- Hsd in Hst.
    edestruct (sent_gateway keccak wshash sec1 crypto p c' subs dd) with (x := k_sub k) as (Hc' & ms0 & r & Hdi & Han & H); [exact Hr|rewrite Hpt; exact Hs|rewrite Hsubs; apply elem_of_app; right; left|].
    rewrite gw_config_run in Han, H. destruct H as [(_ & _ & Ex)|(Eb & Hne & Es & Ex)].
    - pose proof (f_equal sb_body Ex) as E1. rewrite Hb in E1. discriminate E1.
    - pose proof (f_equal sb_body Ex) as E1. rewrite Hb in E1. cbn in E1. injection E1 as ->.
      pose proof (f_equal sb_to Ex) as E2. cbn in E2. split; [exact E2|].
      exists p, ms0, r. split_and!; try done. rewrite Es in Hsubs.
      destruct pre' as [|? pre']; [|destruct pre'; discriminate Hsubs].
      intros a. rewrite (Hst eq_refl), Hc'. cbn [settle]. destruct (decide (k_sender k = a)) as [<-|Hna].
      + etrans; [apply lookup_insert|]. by rewrite Hs.
      + by apply lookup_insert_ne.
  Qed.
  Lemma from_nexus_gateway dep txs pre k post nc ms : history dep txs = pre ++ k :: post -> dep !! k_sender k = Some (DNexus nc) ->
    sb_body (k_sub k) = BRoute ms ->
    exists p ns, p ∈ pre /\ k_to p = k_sender k /\ sb_body (k_sub p) = BFromNexus ns /\
      k_sender p = nc_nexus nc /\ ms = from_nexus <$> ns.
  Proof.
    intros Hk Hd Hb. destruct (called_by keccak wshash sec1 crypto dep txs _ _ _ Hk) as (p & Hp & Hc & Hpt); [by rewrite Hd|].
    assert (Hp0 : p ∈ history dep txs) by (rewrite Hk; apply elem_of_app; by left).
    destruct (shape_in keccak wshash sec1 crypto dep txs p (k_to p) Hp0) as [l Hs]. rewrite Hpt, Hd in Hs. cbn [shape] in Hs.
    destruct Hc as (c' & subs & dd & pre' & post' & Hr & Hsubs & Hsd & _ & _).
    edestruct (sent_nexus keccak wshash sec1 crypto p c' subs dd) with (x := k_sub k) as (-> & ns & Eb & Esn & Es & Ex); [exact Hr|rewrite Hpt; exact Hs|rewrite Hsubs; apply elem_of_app; right; left|].
    rewrite nx_config_run in *. pose proof (f_equal sb_body Ex) as E1. rewrite Hb in E1. cbn in E1. injection E1 as ->.
    exists p, ns. done.
  Qed.

  Lemma verified_at dep txs pre k post gc vc ms m : history dep txs = pre ++ k :: post -> dep !! k_sender k = Some (DGateway gc) ->
    dep !! gc_verifier gc = Some (DVerifier vc) -> sb_body (k_sub k) = BRoute ms -> m ∈ ms ->
    exists vs, k_chain k !! gc_verifier gc = Some (CVerifier vs) /\ message_status keccak vs m = Ok Verified.
  Proof.
    intros Hk Hd Hv Hb Hm. destruct (from_gateway _ _ _ _ _ _ _ Hk Hd Hb) as (_ & p & ms0 & r & Hp & _ & _ & _ & Hdi & Han & -> & Hst).
    assert (Hp0 : p ∈ history dep txs) by (rewrite Hk; apply elem_of_app; by left).
    apply elem_of_list_filter in Hm as [Hrep Hm].
    destruct (shape_in keccak wshash sec1 crypto dep txs p (gc_verifier gc) Hp0) as [l Hs]. rewrite Hv in Hs. cbn [shape] in Hs.
    rewrite Hst, Hs. eexists. split; [done|]. unfold q_is_verified in Han. rewrite Hs in Han. unfold ask in Han.
    destruct (is_verified keccak _ ms0) as [r'| |] eqn:E; try discriminate Han. injection Han as ->.
    by eapply reported_verified.
  Qed.

  Lemma vouched_calls v vc l id expires workers idx pre :
    vouched (vc_threshold vc) l id expires workers idx -> l.*1 = verifier_ops v pre ->
    voted v (vc_threshold vc) pre id expires workers idx.
  Proof.
    intros (voters & Hnd & Hall & Hle) Hl. exists voters. split; [done|]. split; [|done].
    intros a Ha. destruct (Hall a Ha) as (Hw & h & ballot & out & Hin & Hh & Hb). split; [done|].
    apply (elem_of_list_fmap_1 fst) in Hin. rewrite Hl in Hin. cbn [fst] in Hin. apply ops_elem in Hin as (k & Hk & Hto & Hop).
    destruct (sb_body (k_sub k)) eqn:Eb; try discriminate Hop. cbn [verifier_op] in Hop. injection Hop as <- <- <- <-.
    exists k, votes. done.
  Qed.
  Lemma named_active vc k workers :
    q_active (k_env k) (k_index k) (k_chain k) (vc_registry vc) (vc_service vc) (vc_chain vc) = Some workers -> named vc k workers.
  Proof.
    unfold q_active, named. destruct (k_chain k !! vc_registry vc) as [[]|]; try done. unfold ask.
    destruct (get_active_workers _ _ _); [|done..]. by intros [= ->].
  Qed.

  (** A logged call of a verifier, in the history. *)
  Lemma log_sublist {S Op Out E} (step : S -> Op -> res E (S * Out)) s ops : (log step s ops).*1 `sublist_of` ops.
  Proof.
    revert s. induction ops as [|o ops IH]; intros s; [done|]. cbn [log]. rewrite fmap_app. unfold log1, exec.
    destruct (step s o) as [[]| |]; cbn; constructor; apply IH.
  Qed.
  Lemma verifier_call dep txs l st v vc l1 op out l2 :
    prefix keccak wshash sec1 crypto dep txs l st -> dep !! v = Some (DVerifier vc) ->
    vlog keccak vc (verifier_ops v l) = l1 ++ (op, out) :: l2 ->
    exists p1 k p2 vs vs', l = p1 ++ k :: p2 /\ k_to k = v /\ k_chain k !! v = Some (CVerifier vs) /\
      verifier_op (en_height (k_env k)) (q_active (k_env k) (k_index k) (k_chain k)) (k_sender k) (sb_body (k_sub k)) = Some op /\
      verifier_step keccak vs op = Ok (vs', out) /\ l2.*1 = verifier_ops v p2.
  Proof.
    intros Hp Hd Hl.
    assert (Hall : (vlog keccak vc (verifier_ops v l)).*1 = verifier_ops v l).
    { destruct Hp as [Hs _]. eapply (each_verifier keccak wshash sec1 crypto); [exact Hs|].
      etrans; [apply lookup_fmap|]. by rewrite Hd. }
    pose proof Hl as Hl'. apply log_split in Hl' as (o1 & o2 & s' & Hops & Hl1 & Hst & Hl2).
    pose proof Hops as Hops'. apply calls_split in Hops' as (p1 & k & p2 & -> & Hp1 & Hto & Hop & Hp2).
    destruct (prefix_split _ _ _ _ _ _ _ _ _ _ _ Hp eq_refl) as [p3 Hk].
    assert (Hsh : k_chain k !! v = Some (CVerifier (vrun keccak vc o1))).
    { pose proof (shape_at keccak wshash sec1 crypto dep txs _ _ _ v Hk) as H. rewrite Hd in H. cbn [shape] in H. rewrite <- Hp1. exact H. }
    exists p1, k, p2, (vrun keccak vc o1), s'. split; [done|]. split; [done|]. split; [done|]. split; [done|]. split; [exact Hst|].
    rewrite Hl, Hops, fmap_app, fmap_cons in Hall. cbn [fst] in Hall.
    unfold verifier_ops. rewrite Hp2. apply app_inj_1 in Hall as [_ Hall]; [by injection Hall|].
    rewrite <- Hl1. apply Nat.le_antisymm; [apply sublist_length, log_sublist|].
    pose proof (f_equal length Hall) as HL. rewrite !app_length in HL. cbn [length] in HL.
    pose proof (sublist_length _ _ (log_sublist (verifier_step keccak) s' o2)) as HL2. rewrite Hl2 in HL2. rewrite Hl1 in *. lia.
  Qed.

  Lemma quorum_at dep txs l st v vc m vs :
    prefix keccak wshash sec1 crypto dep txs l st -> dep !! v = Some (DVerifier vc) -> valid_vconfig vc ->
    st !! v = Some (CVerifier vs) -> message_status keccak vs m = Ok Verified ->
    message_quorum keccak v vc l m.
  Proof.
    intros Hp Hd Hcfg Hvs Hv. pose proof (prefix_shape _ _ _ _ _ _ _ _ v Hp) as Hsh. rewrite Hd, Hvs in Hsh. injection Hsh as ->.
    destruct (c08 keccak vc _ _ Hcfg Hv) as (l1 & [op out] & l2 & id & expires & workers & ms & idx & Hl & Ho & Hms & Hvd).
    destruct (verifier_call _ _ _ _ _ _ _ _ _ _ Hp Hd Hl) as (p1 & k & p2 & vs & vs' & -> & Hto & Hk & Hop & Hst & Hl2).
    pose proof (vouched_calls _ _ _ _ _ _ _ _ Hvd Hl2) as Hvd'.
    destruct op as [h reg ms0|h reg mid o0|h a id0 vv|h id0]; cbn [opens] in Ho; try (by destruct out as [? [[]|]|?|?|?]); cycle 1.
    { destruct out as [? [[]|]| | |]; try done. destruct Ho as (_ & _ & _ & _ & _ & _ & _ & _ & H & _). discriminate H. }
    destruct out as [statuses [[events meta]|]| | |]; try done.
    destruct Ho as (Hid & Hex & _ & Hch & Hgw & _ & _ & Hreg & todo & [= <-] & Hsub & Hev).
    destruct (sb_body (k_sub k)) eqn:Eb; try discriminate Hop. cbn [verifier_op] in Hop. injection Hop as <- <- <-.
    destruct (Forall2_lookup_l _ _ _ _ _ Hev Hms) as (ev & Hev1 & Hev2).
    exists p1, k, p2, vs, vs', ms1, statuses, events, meta, workers, idx, ev. subst id expires.
    split_and!; try done; [|by apply named_active].
    eapply elem_of_submseteq; [by eapply elem_of_list_lookup_2|]. by apply sublist_submseteq.
  Qed.
  Lemma operators_quorum_at dep txs l st v vc o vs :
    prefix keccak wshash sec1 crypto dep txs l st -> dep !! v = Some (DVerifier vc) -> valid_vconfig vc ->
    st !! v = Some (CVerifier vs) -> worker_set_status keccak vs o = Ok Verified ->
    operators_quorum keccak v vc l o.
  Proof.
    intros Hp Hd Hcfg Hvs Hv. pose proof (prefix_shape _ _ _ _ _ _ _ _ v Hp) as Hsh. rewrite Hd, Hvs in Hsh. injection Hsh as ->.
    destruct (c13_quorum keccak vc _ _ Hcfg Hv) as (l1 & [op out] & l2 & id & expires & workers & Hl & Ho & Hvd).
    destruct (verifier_call _ _ _ _ _ _ _ _ _ _ Hp Hd Hl) as (p1 & k & p2 & vs & vs' & -> & Hto & Hk & Hop & Hst & Hl2).
    pose proof (vouched_calls _ _ _ _ _ _ _ _ Hvd Hl2) as Hvd'.
    destruct op as [h reg ms0|h reg mid o0|h a id0 vv|h id0]; cbn [opens] in Ho; try (by destruct out as [? [[]|]|?|?|?]).
    { destruct out as [? [[]|]| | |]; try done. destruct Ho as (_ & _ & _ & _ & _ & _ & _ & _ & ? & H & _). discriminate H. }
    destruct out as [? [[]|]|tx idx o' meta| |]; try done.
    destruct Ho as (Hid & Hex & _ & Hch & Hgw & _ & _ & Hreg & [= <-] & -> & _).
    destruct (sb_body (k_sub k)) eqn:Eb; try discriminate Hop. cbn [verifier_op] in Hop. injection Hop as <- <- <- <-.
    exists p1, k, p2, vs, vs', message_id, tx, idx, meta, workers. subst id expires.
    split_and!; try done. by apply named_active.
  Qed.

  (** C61 *)
  Lemma c61 dep txs l st d gs id m rc : let R := gc_router (gw_config gs) in
    prefix keccak wshash sec1 crypto dep txs l st -> st !! d = Some (CGateway gs) -> gw_outgoing gs !! id = Some m -> dep !! R = Some (DRouter rc) ->
    id = m_cc m /\
    arrived keccak dep R rc d l m.
  Proof.
    intros R Hp H Hm HR. destruct (stored_from_router _ _ _ _ _ _ _ _ _ _ _ _ _ Hp H Hm HR) as
      (Hid & pre & k & post & ms & rs & -> & Hto & Hb & Hin & Hrs & Hcfg & Hg & Hmay).
    split; [done|]. destruct (prefix_split _ _ _ _ _ _ _ _ _ _ _ Hp eq_refl) as [p3 Hk].
    exists pre, k, post, rs. split; [done|]. split; [|split; [|split]].
    - split; [done|]. split; [done|]. split; [done|]. eauto.
    - destruct Hmay as [->|(ch & e & He & Hge & Hfr & Hall)]; [left; by rewrite Hcfg|]. right. exists e.
      rewrite Forall_forall in Hall. rewrite (Hall _ Hin). done.
    - intros gc vc Hgc Hvc. destruct (verified_at _ _ _ _ _ _ _ _ _ Hk Hgc Hvc Hb Hin) as (vs & Hvs & Hst).
      split; [eauto|]. intros Hval. eapply quorum_at; [by eapply prefix_at|done..].
    - intros nc Hnc. destruct (from_nexus_gateway _ _ _ _ _ _ _ Hk Hnc Hb) as (p & ns & Hin' & Hto' & Hb' & Hs' & ->).
      apply elem_of_list_fmap in Hin as (n & -> & Hn). exists p, ns, n. done.
  Qed.
End EndToEnd.
