(** Who called whom: the path of a message through the contracts. *)
From Verif Require Import Base BaseLemmas Text StdModel RouterTypes RegistryTypes OperatorsModel MultisigTypes
  RouterModel RouterSpec RouterProofs GatewayModel GatewaySpec GatewayProofs NexusModel NexusSpec NexusProofs
  RewardsModel RewardsSpec RegistryModel RegistrySpec VerifierModel VerifierSpec VerifierProofs MultisigModel MultisigSpec
  EncodingModel ProverModel SystemModel SystemSpec SystemProofs SystemProofs2.

Section Path.
  Context (keccak : string -> string) (wshash : worker_set -> string)
          (sec1 : string -> option string)
          (crypto : key_type -> string -> string -> string -> option bool).
  Notation steps := (steps keccak wshash sec1 crypto).
  Notation received := (received keccak wshash sec1 crypto).
  Notation child_of := (child_of keccak wshash sec1 crypto).
  Notation sysrun := (sysrun keccak wshash sec1 crypto).
  Notation syslog := (syslog keccak wshash sec1 crypto).
  Notation history := (history keccak wshash sec1 crypto).

  (** What is at an address after some calls. *)
  Definition shape (d : option deployed) (a : addr) (l : list call) (o : option contract) : Prop :=
    match d with
    | None => o = None
    | Some (DRouter c) => o = Some (CRouter (rtrun c (router_ops a l)))
    | Some (DGateway c) => o = Some (CGateway (gwrun c (gateway_ops keccak c a l)))
    | Some (DNexus c) => o = Some (CNexus (nxrun c (nexus_ops a l)))
    | Some (DVerifier c) => o = Some (CVerifier (vrun keccak c (verifier_ops a l)))
    | Some (DRewards g d p h) => o = Some (CRewards (run rewards_step (rewards_init g d p h) (rewards_ops a l)))
    | Some (DRegistry g) => o = Some (CRegistry (run registry_step (registry_init g) (registry_ops a l)))
    | Some (DMultisig g r n) =>
        o = Some (CMultisig (run (multisig_step (worker_set_id wshash) crypto) (multisig_init g r n) (multisig_ops a l)))
    | Some (DProver c) => exists s, o = Some (CProver c s)
    end.
  Lemma shape_steps dep l st a : steps (system_init dep) l st -> shape (dep !! a) a l (st !! a).
  Proof.
    intros H. assert (H0 : system_init dep !! a = deploy <$> dep !! a) by apply lookup_fmap.
    destruct (dep !! a) as [d|] eqn:E; cbn [fmap option_fmap option_map] in H0.
    - destruct d; cbn [shape]; cbn [deploy] in H0.
      + exact (proj1 (each_router keccak wshash sec1 crypto _ _ _ _ _ H H0)).
      + exact (proj1 (each_gateway keccak wshash sec1 crypto _ _ _ _ _ H H0)).
      + exact (proj1 (each_nexus keccak wshash sec1 crypto _ _ _ _ _ H H0)).
      + exact (proj1 (each_verifier keccak wshash sec1 crypto _ _ _ _ _ H H0)).
      + exact (proj1 (each_rewards keccak wshash sec1 crypto _ _ _ _ _ H H0)).
      + exact (proj1 (each_registry keccak wshash sec1 crypto _ _ _ _ _ H H0)).
      + exact (proj1 (each_multisig keccak wshash sec1 crypto _ _ _ _ _ H H0)).
      + exact (prover_config keccak wshash sec1 crypto _ _ _ _ _ _ H H0).
    - cbn [shape]. exact (none_stays keccak wshash sec1 crypto _ _ _ _ H H0).
  Qed.
  Lemma shape_end dep txs a : shape (dep !! a) a (history dep txs) (sysrun dep txs !! a).
  Proof. apply shape_steps. unfold SystemSpec.history, SystemSpec.syslog, SystemSpec.sysrun. apply history_steps. Qed.
  Lemma history_at dep txs pre k post : history dep txs = pre ++ k :: post ->
    steps (system_init dep) pre (k_chain k) /\ exists c subs d, received k = Ok (c, subs, d) /\
      steps (settle (k_chain k) (k_to k) c) post (sysrun dep txs).
  Proof. intros H. eapply steps_at; [|exact H]. apply history_steps. Qed.
  Lemma shape_at dep txs pre k post a : history dep txs = pre ++ k :: post -> shape (dep !! a) a pre (k_chain k !! a).
  Proof. intros H. apply shape_steps. by apply history_at in H as [? _]. Qed.
  Lemma shape_in dep txs k a : k ∈ history dep txs -> exists l, shape (dep !! a) a l (k_chain k !! a).
  Proof. intros (pre & post & H)%elem_of_list_split. exists pre. by eapply shape_at. Qed.

  (** A call by a modelled contract carries out a message of an earlier call of
      it. *)
  Lemma called_by dep txs pre k post : history dep txs = pre ++ k :: post -> is_Some (dep !! k_sender k) ->
    exists p, p ∈ pre /\ child_of p k /\ k_to p = k_sender k.
  Proof.
    intros Hk [d Hd]. destruct (history_origin keccak wshash sec1 crypto _ _ _ _ _ Hk) as [(_ & _ & _ & _ & Hn)|(p & Hp & Hc)].
    - exfalso. pose proof (shape_at _ _ _ _ _ (k_sender k) Hk) as Hs. rewrite Hd in Hs.
      destruct d; cbn [shape] in Hs; try (rewrite Hs in Hn; discriminate Hn).
      destruct Hs as [s Hs]. rewrite Hs in Hn. discriminate Hn.
    - exists p. split; [done|]. split; [done|]. by destruct Hc as (c & subs & dd & pre' & post' & _ & _ & -> & _).
  Qed.

  (** ** What contracts of each kind send *)
  Lemma sent_router p c subs d s x : received p = Ok (c, subs, d) -> k_chain p !! k_to p = Some (CRouter s) -> x ∈ subs ->
    exists ms sent ev, sb_body (k_sub p) = BRoute ms /\ router_step s (RouteMessages (k_sender p) ms) = Ok (s, OutRouted sent ev) /\
      exists y, y ∈ sent /\ x = plain y.1 (BRoute y.2).
  Proof.
    intros Hr Hc Hx. unfold SystemProofs.received, receive in Hr. fold (k_to p) in Hr. rewrite Hc in Hr.
    apply rbind_ok in Hr as (o & Ho%of_option_ok & ([s' out] & H1%map_err_ok & [= <- <- <-])%rbind_ok).
    unfold router_subs in Hx. destruct out as [| | |sent ev]; try by apply elem_of_nil in Hx.
    apply elem_of_list_fmap in Hx as (y & -> & Hy).
    destruct (sb_body (k_sub p)) eqn:Eb; cbn [router_op] in Ho; try discriminate Ho; injection Ho as <-; cbn [router_step] in H1;
      try (apply rbind_ok in H1 as (u & _ & H1); unfold register_chain, upgrade_gateway, freeze_chain, unfreeze_chain in H1; by repeat (apply rbind_ok in H1 as (? & _ & H1))).
    pose proof (route_state _ _ _ _ _ H1) as ->. exists ms, sent, ev. split; [done|]. split; [done|]. eauto.
  Qed.
  Lemma sent_gateway p c subs d s x : received p = Ok (c, subs, d) -> k_chain p !! k_to p = Some (CGateway s) -> x ∈ subs ->
    c = Some (CGateway s) /\
    let answer := q_is_verified keccak (k_env p) (k_index p) (k_chain p) (gc_verifier (gw_config s)) in
    exists ms r, distinct_ids ms /\ answer ms = Some r /\
    ((sb_body (k_sub p) = BGatewayVerify ms /\ subs = [x] /\
        x = plain (gc_verifier (gw_config s)) (BVerify (filter (fun m => GatewaySpec.reported r m = false) ms))) \/
     (sb_body (k_sub p) = BRoute ms /\ k_sender p <> gc_router (gw_config s) /\ subs = [x] /\
        x = plain (gc_router (gw_config s)) (BRoute (filter (fun m => GatewaySpec.reported r m = true) ms)))).
  Proof.
    intros Hr Hc Hx. unfold SystemProofs.received, receive in Hr. fold (k_to p) in Hr. rewrite Hc in Hr.
    apply rbind_ok in Hr as (o & Ho%of_option_ok & ([s' out] & H1%map_err_ok & [= <- <- <-])%rbind_ok). cbn zeta.
    destruct (sb_body (k_sub p)) eqn:Eb; cbn [gateway_op] in Ho; try discriminate Ho; injection Ho as <-; cbn [gateway_step] in H1.
    - case_bool_decide as Hsnd.
      + unfold route_outgoing_messages in H1. apply rbind_ok in H1 as (u & _ & [= <- <-]). by apply elem_of_nil in Hx.
      + apply rbind_ok in H1 as (o & H1 & [= <- <-]). unfold route_incoming_messages in H1.
        apply rbind_ok in H1 as (u & Hu%unique_ok & ([v w] & Hp & [= <-])%rbind_ok).
        apply partition_ok in Hp as (r & Hr & -> & ->). split; [done|]. exists ms, r. split; [done|]. split; [done|]. right.
        unfold gateway_subs in *. cbn [go_verify go_route fmap list_fmap app] in *.
        destruct (filter (fun m => GatewaySpec.reported r m = true) ms); [by apply elem_of_nil in Hx|].
        apply elem_of_list_singleton in Hx as ->. done.
    - apply rbind_ok in H1 as (o & H1 & [= <- <-]). unfold gw_verify_messages in H1.
      destruct ms as [|m0 ms0]; [injection H1 as <-; by apply elem_of_nil in Hx|]. set (ms := m0 :: ms0) in *. clearbody ms.
      apply rbind_ok in H1 as (u & Hu%unique_ok & ([v w] & Hp & H1)%rbind_ok).
      apply partition_ok in Hp as (r & Hr & -> & ->). split; [done|]. exists ms, r. split; [done|]. split; [done|]. left.
      destruct (filter (fun m => GatewaySpec.reported r m = false) ms); injection H1 as <-; [by apply elem_of_nil in Hx|].
      unfold gateway_subs in *. cbn [go_verify go_route fmap list_fmap app] in *. apply elem_of_list_singleton in Hx as ->. done.
  Qed.
  Lemma sent_nexus p c subs d s x : received p = Ok (c, subs, d) -> k_chain p !! k_to p = Some (CNexus s) -> x ∈ subs ->
    c = Some (CNexus s) /\ exists ns, sb_body (k_sub p) = BFromNexus ns /\ k_sender p = nc_nexus (nx_config s) /\ subs = [x] /\
      x = plain (nc_router (nx_config s)) (BRoute (from_nexus <$> ns)).
  Proof.
    intros Hr Hc Hx. unfold SystemProofs.received, receive in Hr. fold (k_to p) in Hr. rewrite Hc in Hr.
    apply rbind_ok in Hr as (o & Ho%of_option_ok & ([s' out] & H1%map_err_ok & [= <- <- <-])%rbind_ok).
    destruct (sb_body (k_sub p)) eqn:Eb; cbn [nexus_op] in Ho; try discriminate Ho; injection Ho as <-; cbn [nexus_step] in H1.
    - unfold route_to_nexus in H1. apply rbind_ok in H1 as (u & _ & [= <- <-]). by apply elem_of_nil in Hx.
    - unfold route_to_router in H1. apply rbind_ok in H1 as (u & Hu%ensure_ok%bool_decide_eq_true & H1).
      destruct ns as [|n ns]; cbn [fmap list_fmap] in H1; injection H1 as <- <-; cbn in Hx; [by apply elem_of_nil in Hx|].
      split; [done|]. exists (n :: ns). apply elem_of_list_singleton in Hx as ->. done.
  Qed.

  (** ** Verified answers are about the message itself *)
  Lemma reported_verified vs ms r m : is_verified keccak vs ms = Ok r -> distinct_ids ms -> m ∈ ms ->
    (GatewaySpec.reported r m = true <-> message_status keccak vs m = Ok Verified).
  Proof.
    unfold is_verified. intros Hr%try_map_ok Hd Hm. unfold GatewaySpec.reported.
    assert (Hone : exists st, message_status keccak vs m = Ok st /\
      omap (fun x => if bool_decide (x.1 = m_cc m) then Some x.2 else None) r = [bool_decide (st = Verified)]).
    { revert r Hr Hd Hm. unfold distinct_ids. induction ms as [|x ms IH]; intros r Hr Hd Hm; [by apply elem_of_nil in Hm|].
      apply Forall2_cons_inv_l in Hr as (y & r' & Hy & Hr & ->). apply rbind_ok in Hy as (st & Hst & [= <-]).
      cbn [fmap list_fmap] in Hd. apply NoDup_cons in Hd as [Hnx Hd]. cbn [omap list_omap fst snd].
      apply elem_of_cons in Hm as [<-|Hm].
      - rewrite bool_decide_true by done. exists st. split; [done|]. f_equal.
        clear -Hr Hnx. induction Hr as [|x y ms r' Hxy Hr IH]; [done|]. apply rbind_ok in Hxy as (st & _ & [= <-]).
        cbn [omap list_omap fst snd fmap list_fmap] in *. apply not_elem_of_cons in Hnx as [H1 H2].
        rewrite bool_decide_false by congruence. by apply IH.
      - rewrite bool_decide_false; [by apply IH|]. intros E. apply Hnx. rewrite E. by apply elem_of_list_fmap_1. }
    destruct Hone as (st & -> & ->). cbn [last]. rewrite bool_decide_eq_true. naive_solver.
  Qed.

  (** ** C61 *)
  (** The history up to some moment. *)
  Definition prefix (dep : gmap addr deployed) (txs : list tx) (l : list call) (st : chain) : Prop :=
    steps (system_init dep) l st /\ exists post, history dep txs = l ++ post.
  Lemma prefix_end dep txs : prefix dep txs (history dep txs) (sysrun dep txs).
  Proof. split; [apply history_steps|]. exists []. by rewrite app_nil_r. Qed.
  Lemma prefix_at dep txs pre k post : history dep txs = pre ++ k :: post -> prefix dep txs pre (k_chain k).
  Proof. intros H. split; [by eapply history_at|]. eauto. Qed.
  Lemma prefix_shape dep txs l st a : prefix dep txs l st -> shape (dep !! a) a l (st !! a).
  Proof. intros [H _]. by apply shape_steps. Qed.
  Lemma prefix_split dep txs l st pre k post : prefix dep txs l st -> l = pre ++ k :: post ->
    exists post', history dep txs = pre ++ k :: post'.
  Proof. intros [_ [p ->]] ->. exists (post ++ p). by rewrite <- app_assoc. Qed.

  Lemma gateway_at dep txs l st d gs : prefix dep txs l st -> st !! d = Some (CGateway gs) ->
    dep !! d = Some (DGateway (gw_config gs)) /\ gs = gwrun (gw_config gs) (gateway_ops keccak (gw_config gs) d l).
  Proof.
    intros Hp H. pose proof (prefix_shape _ _ _ _ d Hp) as Hs. rewrite H in Hs.
    destruct (dep !! d) as [[]|]; cbn [shape] in Hs; try discriminate Hs; [|by destruct Hs].
    injection Hs as ->. by rewrite gw_config_run.
  Qed.
  Lemma ops_elem {Op} (f : call -> option Op) a l o : o ∈ calls_to f a l -> exists k, k ∈ l /\ k_to k = a /\ f k = Some o.
  Proof.
    unfold calls_to. intros (k & Hk & Ho)%elem_of_list_omap. case_bool_decide; [|done]. eauto.
  Qed.

  Lemma stored_from_router dep txs l st d gs id m rc : let R := gc_router (gw_config gs) in
    prefix dep txs l st -> st !! d = Some (CGateway gs) -> gw_outgoing gs !! id = Some m -> dep !! R = Some (DRouter rc) ->
    id = m_cc m /\
    exists pre k post ms rs, l = pre ++ k :: post /\ k_to k = R /\ sb_body (k_sub k) = BRoute ms /\ m ∈ ms /\
      k_chain k !! R = Some (CRouter rs) /\ rt_config rs = rc /\ goes_to rs (k_sender k) (m_dchain m) = Some d /\ may_send rs (k_sender k) ms.
  Proof.
    intros R Hpre H Hm HR. destruct (gateway_at _ _ _ _ _ _ Hpre H) as [Hd Hgs]. set (c := gw_config gs) in *.
    rewrite Hgs, stored_run in Hm. split; [symmetry; by eapply c37_id|].
    unfold last_stored in Hm. apply last_Some in Hm as [l' Hm].
    assert (Hin : m ∈ l' ++ [m]) by (apply elem_of_app; right; by left). rewrite <- Hm in Hin.
    apply elem_of_list_filter in Hin as [_ Hin]. apply elem_of_list_bind in Hin as ([op out] & Hin & Hl). cbn [fst] in Hin.
    destruct op as [|a ms an]; [by apply elem_of_nil in Hin|]. case_bool_decide as Ha; [|by apply elem_of_nil in Hin].
    apply log_elem in Hl as (o1 & o2 & s' & Hops & _).
    assert (Hl : GwRouteMessages a ms an ∈ gateway_ops keccak c d l) by (rewrite Hops; apply elem_of_app; right; left).
    apply ops_elem in Hl as (k0 & Hk0 & Hto & Hop).
    destruct (sb_body (k_sub k0)) eqn:Eb; try discriminate Hop. cbn [gateway_op] in Hop. injection Hop as Hs0 -> _.
    apply elem_of_list_split in Hk0 as (l1 & l2 & Hl12). destruct (prefix_split _ _ _ _ _ _ _ Hpre Hl12) as [p2 Hk0].
    destruct (called_by dep txs _ _ _ Hk0) as (p & Hp & Hc & Hpt); [rewrite Hs0, Ha; eexists; exact HR|].
    assert (HpR : k_to p = R) by (rewrite Hpt, Hs0; exact Ha).
    apply elem_of_list_split in Hp as (q1 & q2 & ->). rewrite <- app_assoc in *. cbn [app] in *.
    destruct (prefix_split _ _ _ _ _ _ _ Hpre Hl12) as [p3 Hp].
    pose proof (shape_at _ _ _ _ _ R Hp) as Hs. rewrite HR in Hs. cbn [shape] in Hs.
    destruct Hc as (c' & subs & dd & pre & post & Hr & -> & _).
    destruct (sent_router p c' _ dd (rtrun rc (router_ops R q1)) (k_sub k0) Hr) as (ms0 & sent & ev & Eb0 & Hst & y & Hy & Ey).
    { by rewrite HpR. }
    { apply elem_of_app; right; left. }
    pose proof (f_equal sb_body Ey) as Ey1. pose proof (f_equal sb_to Ey) as Ey2. cbn in Ey1, Ey2.
    rewrite Eb in Ey1. injection Ey1 as ->. fold (k_to k0) in Ey2. rewrite Hto in Ey2.
    destruct (c30_sent _ _ _ _ _ _ Hst) as (sent' & [= <- ->] & _ & Hcat & Hall).
    rewrite Forall_forall in Hall. destruct (Hall _ Hy) as [_ Hg]. rewrite Forall_forall in Hg.
    exists q1, p, (q2 ++ k0 :: l2), ms0, (rtrun rc (router_ops R q1)). split; [done|]. split; [done|]. split; [done|]. split.
    { rewrite <- Hcat. apply elem_of_list_In, in_concat. exists y.2. split; apply elem_of_list_In; [|done]. by apply elem_of_list_fmap_1. }
    split; [done|]. split; [apply config_run|]. split; [rewrite Ey2; by apply Hg|].
    apply c30_31. by rewrite Hst.
  Qed.
End Path.
