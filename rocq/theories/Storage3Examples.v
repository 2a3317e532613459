(** Concrete histories meet the hypotheses of C104, and some texts in the
    stores. *)
From Verif Require Import Base BaseLemmas Text StdModel RegistryTypes RouterTypes MultisigTypes OperatorsModel MultisigModel EncodingModel.
From Verif Require Import RouterModel RegistryModel GatewayModel NexusModel RewardsModel VerifierModel ProverModel StorageModel StorageSpec.
From Verif Require Import Storage2Model Storage2Spec StorageExamples Storage2Examples JsonModel WireModel WireSpec WireSpec2 Storage3Model Storage3Spec.
From Verif Require RouterExamples RegistryExamples MultisigExamples GatewayExamples RewardsExamples VerifierExamples EncodingExamples ProverExamples.
Local Open Scope string_scope.
Local Open Scope N_scope.

Definition w (s : string) : string := fill s [].
Lemma ex3_router_ok : Forall router_text_ok (RouterExamples.ex_rops ++ [RouteMessages "gw-eth3" RouterExamples.ex_batch]).
Proof.
  apply Forall_and. split; [exact ex_router_ok|]. repeat constructor; vm_compute; reflexivity.
Qed.
Lemma ex3_router :
  let m := run router_text_step (router_text_init RouterExamples.ex_cfg) RouterExamples.ex_rops in
  m !! (byte 0 +:+ byte 6 +:+ "chainsethereum") = Some (w "{'name':'ethereum','gateway':{'address':'gw-eth3'},'frozen_status':0}") /\
  m !! (byte 0 +:+ byte 8 +:+ "gateways" +:+ byte 0 +:+ byte 7 +:+ "gw-eth3ethereum") = Some "8".
Proof. cbv zeta. split; vm_compute; reflexivity. Qed.

Lemma ex3_registry_ok : Forall registry_text_ok RegistryExamples.ex_more.
Proof.
  apply Forall_and. split; [exact ex_registry_ok|].
  repeat constructor; try (vm_compute; first [reflexivity|discriminate]); intros n [=].
Qed.
Lemma ex3_registry :
  (let? x := raw (in_texts e_srval d_srval (q_active "amplifier" "ethereum"))
               (run registry_text_step (registry_text_init "gov") RegistryExamples.ex_ops) in Ok (w_addr <$> x.2)) = Ok ["w1"; "w2"] /\
  run registry_text_step (registry_text_init "gov") RegistryExamples.ex_ops !!
    (byte 0 +:+ byte 7 +:+ "workers" +:+ byte 0 +:+ byte 9 +:+ "amplifier" +:+ "w1") =
    Some (w "{'address':'w1','bonding_state':{'Bonded':{'amount':'121'}},'authorization_state':'Authorized','service_name':'amplifier'}").
Proof. split; vm_compute; reflexivity. Qed.

Lemma ex3_signer a n t : n < 2 ^ 256 -> sg_weight (MultisigExamples.ex_signer a n t) < 2 ^ 256 /\ proper_key (sg_key (MultisigExamples.ex_signer a n t)).
Proof. intros H. split; [exact H|]. destruct t; [by left|done]. Qed.
Lemma ex3_set : proper_set (MultisigExamples.ex_set 5).
Proof.
  split; [reflexivity|]. split; [reflexivity|]. intros a s. unfold MultisigExamples.ex_set. cbn [ws_signers].
  rewrite !lookup_insert_Some, lookup_empty. intros [[_ <-]|[_ [[_ <-]|[_ [[_ <-]|[_ [=]]]]]]]; apply ex3_signer; reflexivity.
Qed.
Lemma ex3_multisig_ok : Forall multisig_text_ok (MultisigExamples.ex_ops 5 ++ MultisigExamples.ex_signs).
Proof.
  apply Forall_and. split; [exact ex_multisig_ok|]. unfold MultisigExamples.ex_ops, MultisigExamples.ex_signs. cbn [app].
  repeat (apply List.Forall_cons; [first [exact I|exact ex3_set|reflexivity]|]). constructor.
Qed.
Lemma ex3_multisig :
  run (multisig_text_step MultisigExamples.ex_wsid MultisigExamples.ex_crypto) (multisig_text_init "gov" "rewards" 10)
    (MultisigExamples.ex_ops 5 ++ MultisigExamples.ex_signs) !! (byte 0 +:+ byte 16 +:+ "signing_sessions" +:+ u64_key 1) =
  Some (w "{'id':'1','worker_set_id':'5','msg':'6d6d6d6d6d6d6d6d6d6d6d6d6d6d6d6d6d6d6d6d6d6d6d6d6d6d6d6d6d6d6d6d','state':{'completed':{'completed_at':11}}}").
Proof. vm_compute. reflexivity. Qed.

Lemma ex3_gateway_ok : Forall gateway_text_ok GatewayExamples.exg_ops.
Proof.
  apply Forall_and. split; [exact (proj1 ex2_gateway)|].
  repeat constructor; vm_compute; first [reflexivity|discriminate].
Qed.
Lemma ex3_nexus :
  let m := run nexus_text_step (nexus_text_init ex2_nx) ex2_nx_ops in
  m !! (byte 0 +:+ byte 18 +:+ "routed_message_ids" +:+ byte 0 +:+ byte 3 +:+ "eth" +:+ "3") = Some "null" /\
  m !! "config" = Some (w "{'nexus':'nexus','router':'router'}").
Proof. cbv zeta. split; vm_compute; reflexivity. Qed.

Lemma ex3_rewards_ok : proper_params RewardsExamples.exr_params /\ Forall rewards_text_ok ex2_rw_ops.
Proof.
  split; [repeat split; vm_compute; first [reflexivity|discriminate]|].
  apply Forall_and. split; [exact (proj1 ex2_rewards)|].
  repeat constructor; vm_compute; first [reflexivity|discriminate].
Qed.
Lemma ex3_rewards :
  run rewards_text_step (rewards_text_init "gov" "uaxl" RewardsExamples.exr_params 5) ex2_rw_ops !!
    (byte 0 +:+ byte 7 +:+ "tallies" +:+ byte 0 +:+ byte 4 +:+ "pool" +:+ u64_key 0) =
  Some (w "{'contract':'pool','event_count':2,'participation':{'w1':2,'w2':2},'epoch':{'epoch_num':0,'block_height_started':5},'params':{'epoch_duration':'10','rewards_per_epoch':'100','participation_threshold':['1','2']}}").
Proof. vm_compute. reflexivity. Qed.

Lemma ex3_verifier_ok : proper_vconfig VerifierExamples.ex_cfg /\ Forall verifier_text_ok VerifierExamples.ex_history.
Proof.
  split; [repeat split; vm_compute; first [reflexivity|discriminate]|].
  apply Forall_and. split; [exact (proj1 ex2_verifier)|].
  repeat constructor; vm_compute; first [reflexivity|discriminate].
Qed.
Lemma ex3_verifier :
  run (verifier_text_step ex2_keccak) (verifier_text_init VerifierExamples.ex_cfg) VerifierExamples.ex_history !!
    (byte 0 +:+ byte 5 +:+ "polls" +:+ u64_key 1) =
  Some (w "{'messages':{'poll_id':'1','quorum':'2','expires_at':15,'poll_size':2,'tallies':[{'FailedOnChain':'0','NotFound':'1','SucceededOnChain':'2'},{'FailedOnChain':'1','NotFound':'1','SucceededOnChain':'1'}],'status':'finished','participation':{'w1':{'weight':'1','vote':['succeeded_on_chain','not_found']},'w2':{'weight':'1','vote':['succeeded_on_chain','failed_on_chain']},'w3':{'weight':'1','vote':['not_found','succeeded_on_chain']}}}}").
Proof. vm_compute. reflexivity. Qed.

Lemma ex3_env e h ws ok : h < 2 ^ 64 -> proper_env (ProverExamples.penv_of e h ws ok).
Proof.
  intros Hh. split; [done|]. split.
  - intros a ids ms Hids [= <-]. apply Forall_fmap. eapply Forall_impl; [exact Hids|]. done.
  - intros a x t k. cbn [ProverExamples.penv_of pe_key]. unfold ProverExamples.ex_key. destruct x as [|c x]; [done|]. intros [= <-]. by left.
Qed.
Lemma ex3_prover_ok : proper_pconfig (ProverExamples.pcfg Bcs) /\ Forall prover_text_ok (ProverExamples.ex_prover_ops Bcs).
Proof.
  split; [repeat split; vm_compute; first [reflexivity|discriminate]|].
  apply Forall_and. split; [exact (proj1 ex2_prover)|].
  unfold ProverExamples.ex_prover_ops, ProverExamples.p_op.
  repeat (apply List.Forall_cons; [split; [apply ex3_env; reflexivity|cbn [po_call]; first [exact I|repeat constructor; vm_compute; first [reflexivity|discriminate]]]|]).
  constructor.
Qed.
Lemma ex3_prover :
  let m := run (prover_text_step "admin" EncodingExamples.ex_keccak EncodingExamples.ex_wshash EncodingExamples.ex_sec1)
             (prover_text_init "admin" (ProverExamples.pcfg Bcs)) (ProverExamples.ex_prover_ops Bcs) in
  m !! "next_worker_set" = None /\
  m !! "config" = Some (w "{'admin':'admin','gateway':'gateway','multisig':'multisig','service_registry':'registry','voting_verifier':'verifier','destination_chain_id':'1337','signing_threshold':['2','3'],'service_name':'validators','chain_name':'sui','worker_set_diff_threshold':1,'encoder':'bcs','key_type':'ecdsa'}") /\
  length (map_to_list m) = 10%nat.
Proof. cbv zeta. split; [|split]; vm_compute; reflexivity. Qed.
