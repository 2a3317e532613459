(** Each contract of the system behaves as it does alone. *)
From Verif Require Import Base BaseLemmas Text StdModel RouterTypes RegistryTypes OperatorsModel MultisigTypes
  RouterModel RouterSpec GatewayModel GatewaySpec NexusModel RewardsModel RegistryModel VerifierModel VerifierSpec MultisigModel
  EncodingModel ProverModel SystemModel SystemSpec SystemProofs SystemProofs2 SystemProofs3 SystemProofs4 SystemProofs6.

Section Alone.
  Context (keccak : string -> string) (wshash : worker_set -> string)
          (sec1 : string -> option string)
          (crypto : key_type -> string -> string -> string -> option bool).
  Notation steps := (steps keccak wshash sec1 crypto).
  Notation sysrun := (sysrun keccak wshash sec1 crypto).
  Notation history := (history keccak wshash sec1 crypto).

  Lemma alone_steps dep l st a : steps (system_init dep) l st -> as_alone keccak wshash crypto (dep !! a) a l (st !! a).
  Proof.
    intros H. assert (H0 : system_init dep !! a = deploy <$> dep !! a) by apply lookup_fmap.
    destruct (dep !! a) as [d|] eqn:E; cbn [fmap option_fmap option_map] in H0.
    - destruct d; cbn [as_alone]; cbn [deploy] in H0.
      + exact (each_router keccak wshash sec1 crypto _ _ _ _ _ H H0).
      + exact (each_gateway keccak wshash sec1 crypto _ _ _ _ _ H H0).
      + exact (each_nexus keccak wshash sec1 crypto _ _ _ _ _ H H0).
      + exact (each_verifier keccak wshash sec1 crypto _ _ _ _ _ H H0).
      + exact (each_rewards keccak wshash sec1 crypto _ _ _ _ _ H H0).
      + exact (each_registry keccak wshash sec1 crypto _ _ _ _ _ H H0).
      + exact (each_multisig keccak wshash sec1 crypto _ _ _ _ _ H H0).
      + exact (prover_config keccak wshash sec1 crypto _ _ _ _ _ _ H H0).
    - cbn [as_alone]. exact (none_stays keccak wshash sec1 crypto _ _ _ _ H H0).
  Qed.
  Lemma c80 dep txs a : as_alone keccak wshash crypto (dep !! a) a (history dep txs) (sysrun dep txs !! a).
  Proof. apply alone_steps. unfold SystemSpec.history, SystemSpec.syslog, SystemSpec.sysrun. apply history_steps. Qed.
  Lemma c80_during dep txs pre k post a : history dep txs = pre ++ k :: post ->
    as_alone keccak wshash crypto (dep !! a) a pre (k_chain k !! a).
  Proof. intros H. apply alone_steps. by apply history_at in H as [? _]. Qed.

  (** C61, about the query's answer *)
  Lemma c61_served dep txs d gs id m rc : sysrun dep txs !! d = Some (CGateway gs) ->
    GatewayModel.get_messages gs [id] = Ok [m] -> dep !! gc_router (gw_config gs) = Some (DRouter rc) ->
    id = m_cc m /\ arrived keccak dep (gc_router (gw_config gs)) rc d (history dep txs) m.
  Proof.
    intros Hd Hm Hr. eapply c61; try done; [apply prefix_end|].
    unfold GatewayModel.get_messages in Hm. cbn in Hm. by destruct (gw_outgoing gs !! id) as [m'|]; [injection Hm as ->|].
  Qed.
End Alone.

(** [c84] does not depend on how recovery ids are found. *)
Definition c84_set keccak wshash sec1 crypto := SystemProofs6.c84 keccak wshash sec1 (fun _ _ _ => None) crypto.
