(** Each contract's state is the one its own calls lead to. *)
From Verif Require Import Base BaseLemmas Text StdModel RouterTypes RegistryTypes OperatorsModel MultisigTypes
  RouterModel GatewayModel NexusModel RewardsModel RegistryModel VerifierModel MultisigModel EncodingModel ProverModel
  SystemModel SystemSpec SystemProofs.

Section Each.
  Context (keccak : string -> string) (wshash : worker_set -> string)
          (sec1 : string -> option string)
          (crypto : key_type -> string -> string -> string -> option bool).
  Notation steps := (steps keccak wshash sec1 crypto).
  Notation received := (received keccak wshash sec1 crypto).

  Lemma settle_ne st a b c : a <> b -> settle st b c !! a = st !! a.
  Proof. intros. destruct c; cbn; [by apply lookup_insert_ne|done]. Qed.

  (** ** Replies only concern provers *)
  Lemma reply_other st me d st' a : reply st me d = Ok st' -> (forall c s, st !! a <> Some (CProver c s)) -> st' !! a = st !! a.
  Proof.
    unfold reply. intros H Ha. destruct (st !! me) as [[]|] eqn:Em; try by injection H as <-.
    destruct (decide (a = me)) as [->|Hne]; [by destruct (Ha c s)|].
    apply rbind_ok in H as ([s' ?] & _ & [= <-]). by apply lookup_insert_ne.
  Qed.

  Lemma each {S Op Out E} (mk : S -> contract) (op : call -> option Op) (step : S -> Op -> res E (S * Out)) (I : S -> Prop) a :
    (forall s c s', mk s <> CProver c s') ->
    (forall k s c subs d, I s -> k_to k = a -> k_chain k !! a = Some (mk s) -> received k = Ok (c, subs, d) ->
       exists o s' out, op k = Some o /\ step s o = Ok (s', out) /\ c = Some (mk s') /\ I s') ->
    forall st l st', steps st l st' -> forall s, I s -> st !! a = Some (mk s) ->
    let ops := calls_to op a l in
    st' !! a = Some (mk (run step s ops)) /\ (log step s ops).*1 = ops /\ I (run step s ops).
  Proof.
    intros Hp Hk st l st'. induction 1 as [st|k c subs d l st' Hr Hs IH|st st1 me d l st' Hr Hs IH]; intros s HI Ha; cbn zeta in *.
    - done.
    - unfold calls_to. cbn [omap list_omap]. case_bool_decide as Ht.
      + destruct (Hk k s c subs d HI Ht Ha Hr) as (o & s' & out & -> & Hst & -> & HI').
        cbn [run log]. unfold log1, exec. rewrite Hst. cbn [fmap list_fmap app fst].
        destruct (IH s') as (H1 & H2 & H3); [done|rewrite Ht; cbn; apply lookup_insert|].
        split_and!; [done| |done]. f_equal. exact H2.
      + apply IH; [done|]. rewrite settle_ne by done. exact Ha.
    - apply IH; [done|]. rewrite <- Ha. eapply reply_other; [done|]. rewrite Ha. intros c0 s0 [= ?]. by eapply Hp.
  Qed.

  Ltac kind Ha Hr := unfold received, SystemProofs.received, receive in Hr; fold (k_to _) in Hr;
    try rewrite Ha in Hr.
  Lemma in_log {S Op Out E} (step : S -> Op -> res E (S * Out)) s ops : (log step s ops).*1 = ops ->
    forall o, o ∈ ops -> exists out, (o, out) ∈ log step s ops.
  Proof. intros H o Ho. rewrite <- H in Ho. apply elem_of_list_fmap in Ho as ([o' out] & -> & ?). eauto. Qed.

  Lemma each_router st l st' a s : steps st l st' -> st !! a = Some (CRouter s) ->
    st' !! a = Some (CRouter (run router_step s (router_ops a l))) /\
    (log router_step s (router_ops a l)).*1 = router_ops a l.
  Proof.
    intros H Ha. destruct (each CRouter (fun k => router_op (k_sender k) (sb_body (k_sub k))) router_step (fun _ => True) a) with (st := st) (l := l) (st' := st') (s := s) as (H1 & H2 & _); try done.
    intros k s0 c subs d _ Ht Hk Hr. unfold SystemProofs.received, receive in Hr. unfold k_to in Ht. rewrite Ht, Hk in Hr.
    apply rbind_ok in Hr as (o & Ho%of_option_ok & ([s' out] & H1%map_err_ok & [= <- <- <-])%rbind_ok). eauto 10.
  Qed.
  Lemma each_gateway st l st' a s : steps st l st' -> st !! a = Some (CGateway s) ->
    st' !! a = Some (CGateway (run gateway_step s (gateway_ops keccak (gw_config s) a l))) /\
    (log gateway_step s (gateway_ops keccak (gw_config s) a l)).*1 = gateway_ops keccak (gw_config s) a l.
  Proof.
    intros H Ha. destruct (each CGateway (fun k => gateway_op (q_is_verified keccak (k_env k) (k_index k) (k_chain k) (gc_verifier (gw_config s)))
                         (k_sender k) (sb_body (k_sub k))) gateway_step (fun s' => gw_config s' = gw_config s) a)
      with (st := st) (l := l) (st' := st') (s := s) as (H1 & H2 & _); try done.
    intros k s0 c subs d Hc Ht Hk Hr. unfold SystemProofs.received, receive in Hr. unfold k_to in Ht. rewrite Ht, Hk in Hr.
    apply rbind_ok in Hr as (o & Ho%of_option_ok & ([s' out] & H1%map_err_ok & [= <- <- <-])%rbind_ok).
    rewrite Hc in Ho. exists o, s', out. split_and!; try done. rewrite <- Hc.
    destruct o; cbn [gateway_step] in H1.
    - by apply rbind_ok in H1 as (? & _ & [= <- _]).
    - destruct (bool_decide _).
      + by apply rbind_ok in H1 as (? & _ & [= <- _]).
      + by apply rbind_ok in H1 as (? & _ & [= <- _]).
  Qed.
  Lemma each_nexus st l st' a s : steps st l st' -> st !! a = Some (CNexus s) ->
    st' !! a = Some (CNexus (run nexus_step s (nexus_ops a l))) /\
    (log nexus_step s (nexus_ops a l)).*1 = nexus_ops a l.
  Proof.
    intros H Ha. destruct (each CNexus (fun k => nexus_op (k_sender k) (sb_body (k_sub k))) nexus_step (fun _ => True) a) with (st := st) (l := l) (st' := st') (s := s) as (H1 & H2 & _); try done.
    intros k s0 c subs d _ Ht Hk Hr. unfold SystemProofs.received, receive in Hr. unfold k_to in Ht. rewrite Ht, Hk in Hr.
    apply rbind_ok in Hr as (o & Ho%of_option_ok & ([s' out] & H1%map_err_ok & [= <- <- <-])%rbind_ok). eauto 10.
  Qed.
  Lemma each_verifier st l st' a s : steps st l st' -> st !! a = Some (CVerifier s) ->
    st' !! a = Some (CVerifier (run (verifier_step keccak) s (verifier_ops a l))) /\
    (log (verifier_step keccak) s (verifier_ops a l)).*1 = verifier_ops a l.
  Proof.
    intros H Ha. destruct (each CVerifier (fun k => verifier_op (en_height (k_env k)) (q_active (k_env k) (k_index k) (k_chain k))
                         (k_sender k) (sb_body (k_sub k))) (verifier_step keccak) (fun _ => True) a) with (st := st) (l := l) (st' := st') (s := s) as (H1 & H2 & _); try done.
    intros k s0 c subs d _ Ht Hk Hr. unfold SystemProofs.received, receive in Hr. unfold k_to in Ht. rewrite Ht, Hk in Hr.
    apply rbind_ok in Hr as (o & Ho%of_option_ok & ([s' out] & H1%map_err_ok & [= <- <- <-])%rbind_ok). eauto 10.
  Qed.
  Lemma each_rewards st l st' a s : steps st l st' -> st !! a = Some (CRewards s) ->
    st' !! a = Some (CRewards (run rewards_step s (rewards_ops a l))) /\
    (log rewards_step s (rewards_ops a l)).*1 = rewards_ops a l.
  Proof.
    intros H Ha. destruct (each CRewards (fun k => rewards_op (en_height (k_env k)) (k_sender k) (sb_funds (k_sub k)) (sb_body (k_sub k))) rewards_step (fun _ => True) a) with (st := st) (l := l) (st' := st') (s := s) as (H1 & H2 & _); try done.
    intros k s0 c subs d _ Ht Hk Hr. unfold SystemProofs.received, receive in Hr. unfold k_to in Ht. rewrite Ht, Hk in Hr.
    apply rbind_ok in Hr as (o & Ho%of_option_ok & ([s' out] & H1%map_err_ok & [= <- <- <-])%rbind_ok). eauto 10.
  Qed.
  Lemma each_registry st l st' a s : steps st l st' -> st !! a = Some (CRegistry s) ->
    st' !! a = Some (CRegistry (run registry_step s (registry_ops a l))) /\
    (log registry_step s (registry_ops a l)).*1 = registry_ops a l.
  Proof.
    intros H Ha. destruct (each CRegistry (fun k => registry_op (en_time (k_env k)) (k_sender k) (sb_funds (k_sub k)) (sb_body (k_sub k))) registry_step (fun _ => True) a) with (st := st) (l := l) (st' := st') (s := s) as (H1 & H2 & _); try done.
    intros k s0 c subs d _ Ht Hk Hr. unfold SystemProofs.received, receive in Hr. unfold k_to in Ht. rewrite Ht, Hk in Hr.
    apply rbind_ok in Hr as (o & Ho%of_option_ok & ([s' out] & H1%map_err_ok & [= <- <- <-])%rbind_ok). eauto 10.
  Qed.
  Lemma each_multisig st l st' a s : steps st l st' -> st !! a = Some (CMultisig s) ->
    st' !! a = Some (CMultisig (run (multisig_step (worker_set_id wshash) crypto) s (multisig_ops a l))) /\
    (log (multisig_step (worker_set_id wshash) crypto) s (multisig_ops a l)).*1 = multisig_ops a l.
  Proof.
    intros H Ha. destruct (each CMultisig (fun k => multisig_op (en_height (k_env k)) (k_sender k) (sb_body (k_sub k))) (multisig_step (worker_set_id wshash) crypto) (fun _ => True) a) with (st := st) (l := l) (st' := st') (s := s) as (H1 & H2 & _); try done.
    intros k s0 c subs d _ Ht Hk Hr. unfold SystemProofs.received, receive in Hr. unfold k_to in Ht. rewrite Ht, Hk in Hr.
    apply rbind_ok in Hr as (o & Ho%of_option_ok & ([s' out] & H1%map_err_ok & [= <- <- <-])%rbind_ok). eauto 10.
  Qed.
  (** addresses without a modelled contract stay so; provers keep their
      configuration *)
  Lemma none_stays st l st' a : steps st l st' -> st !! a = None -> st' !! a = None.
  Proof.
    induction 1 as [st|k c subs d l st' Hr Hs IH|st st1 me d l st' Hr Hs IH]; intros Ha; [done| |].
    - apply IH. destruct (decide (a = k_to k)) as [->|Hne]; [|by rewrite settle_ne].
      unfold SystemProofs.received, receive in Hr. fold (k_to k) in Hr. rewrite Ha in Hr.
      apply rbind_ok in Hr as ([subs' d'] & _ & [= <- _ _]). done.
    - apply IH. rewrite <- Ha. eapply reply_other; [done|]. by rewrite Ha.
  Qed.
  Lemma prover_config st l st' a c s : steps st l st' -> st !! a = Some (CProver c s) -> exists s', st' !! a = Some (CProver c s').
  Proof.
    intros H. revert s. induction H as [st|k c0 subs d l st' Hr Hs IH|st st1 me d l st' Hr Hs IH]; intros s Ha; [by eauto| |].
    - destruct (decide (a = k_to k)) as [->|Hne]; [|eapply IH; by rewrite settle_ne].
      unfold SystemProofs.received, receive in Hr. fold (k_to k) in Hr. rewrite Ha in Hr.
      apply rbind_ok in Hr as (o & _ & ([s' out] & _ & [= <- <- <-])%rbind_ok). eapply IH. cbn. apply lookup_insert.
    - unfold reply in Hr. destruct (st !! me) as [[]|] eqn:Em; try (injection Hr as <-; by eapply IH).
      apply rbind_ok in Hr as ([s' ?] & _ & [= <-]). destruct (decide (a = me)) as [->|Hne].
      + rewrite Ha in Em. injection Em as <- <-. eapply IH. apply lookup_insert.
      + eapply IH. etrans; [by apply lookup_insert_ne|exact Ha].
  Qed.
End Each.
