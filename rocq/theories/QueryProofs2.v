(** What the contracts keep has values of its types, so their answers have
    too. *)
From Verif Require Import Base BaseLemmas MapLemmas StdProofs Text TextLemmas StdModel RouterTypes RegistryTypes OperatorsModel MultisigTypes
  EncodingModel VerifierModel RewardsModel RegistryModel RouterModel GatewayModel NexusModel MultisigModel ProverModel
  SystemModel EventsModel JsonModel WireModel WireSpec WireProofs3 WireSystemModel WireSystemSpec WireProofs6
  StorageModel Storage2Model Storage3Model Storage3Proofs2 Storage3Proofs3 Storage3Proofs6 QueryModel QuerySpec QueryProofs.

Definition fine (c : contract) : Prop :=
  match c with
  | CRouter s => forall n e, rt_chains s !! n = Some e -> proper_chain (ce_name e) /\ ce_frozen e < 4
  | CGateway s => forall i m, gw_outgoing s !! i = Some m -> proper_message m
  | CVerifier s => proper_chain (vc_chain (v_config s))
  | CMultisig s => (forall i x, m_sessions s !! i = Some x -> proper_state (ss_state x)) /\
      forall i w, m_sets s !! i = Some w -> proper_set w
  | CRegistry s => (forall n x, sr_services s !! n = Some x -> proper_service x) /\
      forall k w, sr_workers s !! k = Some w -> proper_bond (w_bond w)
  | CProver c s => (proper_chain (pc_chain c) /\ pc_chain_id c < 2 ^ 256) /\ sets_proper s /\
      forall i b, pv_batches s !! i = Some b -> proper_batch b
  | CNexus _ | CRewards _ => True
  end.
Lemma all_insert {K} `{Countable K} {V} (P : V -> Prop) (m : gmap K V) k v :
  (forall i x, m !! i = Some x -> P x) -> P v -> forall i x, <[k := v]> m !! i = Some x -> P x.
Proof.
  intros Hm Hv i x Hx. destruct (decide (k = i)) as [<-|Hne].
  - rewrite lookup_insert in Hx. by injection Hx as <-.
  - rewrite lookup_insert_ne in Hx by done. by eapply Hm.
Qed.

Lemma router_fine s a b op s' o : fine (CRouter s) -> proper_body b -> router_op a b = Some op -> router_step s op = Ok (s', o) ->
  fine (CRouter s').
Proof.
  cbn [fine]. intros Hs Hb Hop H. destruct b; try discriminate Hop; injection Hop as <-; cbn [proper_body router_step] in *.
  - unfold route_messages in H. apply rbind_ok in H as (? & _ & H). apply rbind_ok in H as (? & _ & H). by injection H as <- _.
  - apply rbind_ok in H as (? & _ & H). unfold register_chain in H. apply rbind_ok in H as (? & _ & H).
    apply rbind_ok in H as (? & _ & H). apply rbind_ok in H as (? & _ & H). injection H as <- _. cbn [rt_chains set_chains].
    apply (all_insert (fun e => proper_chain (ce_name e) /\ ce_frozen e < 4)); [done|]. split; [done|cbn; lia].
  - apply rbind_ok in H as (? & _ & H). unfold upgrade_gateway in H. apply rbind_ok in H as (? & _ & H).
    apply rbind_ok in H as (? & _ & H). apply rbind_ok in H as (e & He & H). apply of_option_ok in He. injection H as <- _.
    apply (all_insert (fun e => proper_chain (ce_name e) /\ ce_frozen e < 4)); [done|]. exact (Hs _ _ He).
  - apply rbind_ok in H as (? & _ & H). unfold freeze_chain in H. apply rbind_ok in H as (e & He & H). apply of_option_ok in He. injection H as <- _.
    destruct (Hs _ _ He) as [H1 H2].
    apply (all_insert (fun e => proper_chain (ce_name e) /\ ce_frozen e < 4)); [done|]. split; [done|by apply lor_small].
  - apply rbind_ok in H as (? & _ & H). unfold unfreeze_chain in H. apply rbind_ok in H as (e & He & H). apply of_option_ok in He. injection H as <- _.
    destruct (Hs _ _ He) as [H1 H2].
    apply (all_insert (fun e => proper_chain (ce_name e) /\ ce_frozen e < 4)); [done|]. split; [done|by apply ldiff_small].
Qed.
Lemma gateway_fine s ans a b op s' o : fine (CGateway s) -> proper_body b -> gateway_op ans a b = Some op -> gateway_step s op = Ok (s', o) ->
  fine (CGateway s').
Proof.
  cbn [fine]. intros Hs Hb Hop H. destruct b; try discriminate Hop; injection Hop as <-; cbn [proper_body gateway_step] in *.
  - destruct (bool_decide _).
    + unfold route_outgoing_messages in H. apply rbind_ok in H as (? & _ & H). injection H as <- _. cbn [gw_outgoing].
      revert Hs. generalize (gw_outgoing s). induction Hb as [|m ms Hm Hms IH]; intros t Ht; cbn [foldl]; [exact Ht|].
      apply IH. by apply (all_insert proper_message).
    + apply rbind_ok in H as (? & _ & H). by injection H as <- _.
  - apply rbind_ok in H as (? & _ & H). by injection H as <- _.
Qed.
Lemma verifier_config keccak s op s' o : verifier_step keccak s op = Ok (s', o) -> v_config s' = v_config s.
Proof.
  intros H. destruct op; cbn [verifier_step] in H.
  - unfold verify_messages in H. cbv zeta in H. apply rbind_ok in H as (? & _ & H). apply rbind_ok in H as (? & _ & H).
    apply rbind_ok in H as (? & _ & H). apply rbind_ok in H as (? & _ & H). destruct (omap _ _) as [|m0 l]; [by injection H as <- _|].
    apply rbind_ok in H as (? & _ & H). apply rbind_ok in H as ([s1 i] & Hc & H). apply rbind_ok in H as (? & _ & H).
    apply rbind_ok in H as (? & _ & H). injection H as <- _. cbn [v_config].
    unfold create_poll in Hc. repeat (apply rbind_ok in Hc as (? & _ & Hc)). by injection Hc as <- _.
  - unfold verify_worker_set in H. cbv zeta in H. apply rbind_ok in H as (? & _ & H). apply rbind_ok in H as (? & _ & H).
    apply rbind_ok in H as (? & _ & H). apply rbind_ok in H as ([s1 i] & Hc & H). apply rbind_ok in H as ([? ?] & _ & H). injection H as <- _. cbn [v_config].
    unfold create_poll in Hc. repeat (apply rbind_ok in Hc as (? & _ & Hc)). by injection Hc as <- _.
  - unfold verifier_vote in H. apply rbind_ok in H as (? & _ & H). apply rbind_ok in H as (? & _ & H). by injection H as <- _.
  - unfold verifier_end_poll in H. apply rbind_ok in H as (? & _ & H). apply rbind_ok in H as (? & _ & H). by injection H as <- _.
Qed.
Lemma add_bond_proper b n b' : n < 2 ^ 128 -> proper_bond b -> add_bond b n = Ok b' -> proper_bond b'.
Proof.
  intros Hn Hb H. unfold add_bond in H. apply rbind_ok in H as (m & Hm & H).
  assert (m < 2 ^ 128) as Hlt.
  { destruct b; try (by apply add_u128_lt in Hm). by injection Hm as <-. }
  destruct (m =? 0); [discriminate H|]. by injection H as <-.
Qed.
Lemma authorize_proper svc st ws : forall m, (forall k w, m !! k = Some w -> proper_bond (w_bond w)) ->
  forall k w, foldl (authorize_one svc st) m ws !! k = Some w -> proper_bond (w_bond w).
Proof.
  induction ws as [|a ws IH]; intros m Hm; cbn [foldl]; [done|]. apply IH. unfold authorize_one.
  apply (all_insert (fun w => proper_bond (w_bond w))); [done|]. destruct (m !! (svc, a)) eqn:E; [|done]. cbn. by eapply Hm.
Qed.
Lemma registry_fine s t a funds b op s' o : fine (CRegistry s) -> t < 2 ^ 64 -> Forall (fun c => c.2 < 2 ^ 128) funds -> proper_body b ->
  registry_op t a funds b = Some op -> registry_step s op = Ok (s', o) -> fine (CRegistry s').
Proof.
  cbn [fine]. intros [Hs Hw] Ht Hf Hb Hop H. destruct b; try discriminate Hop; injection Hop as <-; cbn [proper_body registry_step] in *.
  - apply rbind_ok in H as (? & _ & H). unfold register_service in H. apply rbind_ok in H as (? & _ & H). injection H as <- _.
    split; [|done]. cbn [sr_services]. by apply (all_insert proper_service).
  - apply rbind_ok in H as (? & _ & H). unfold update_authorization in H. apply rbind_ok in H as (? & _ & H). injection H as <- _.
    split; [done|]. cbn [sr_workers set_workers]. by apply authorize_proper.
  - apply rbind_ok in H as (? & _ & H). unfold update_authorization in H. apply rbind_ok in H as (? & _ & H). injection H as <- _.
    split; [done|]. cbn [sr_workers set_workers]. by apply authorize_proper.
  - unfold declare_chains in H. apply rbind_ok in H as (? & _ & H). apply rbind_ok in H as (? & _ & H). by injection H as <- _.
  - unfold bond_worker in H. apply rbind_ok in H as (sv & _ & H). apply rbind_ok in H as (n & Hn & H). apply rbind_ok in H as (w & Hnew & H).
    injection H as <- _. split; [done|]. cbn [sr_workers set_workers].
    assert (n < 2 ^ 128) as Hlt.
    { destruct funds as [|c0 fs]; [by injection Hn as <-|]. apply rbind_ok in Hn as (c & Hc & Hn). apply of_option_ok in Hc. injection Hn as <-.
      apply find_some in Hc as [Hc _]. rewrite Forall_forall in Hf. apply Hf. by apply elem_of_list_In. }
    apply (all_insert (fun w => proper_bond (w_bond w))); [done|].
    destruct (sr_workers s !! _) as [w0|] eqn:E.
    + apply rbind_ok in Hnew as (b & Hadd & Hnew). injection Hnew as <-. cbn. eapply add_bond_proper; [exact Hlt| |exact Hadd]. by eapply Hw.
    + by injection Hnew as <-.
  - unfold unbond_worker in H. apply rbind_ok in H as (sv & _ & H). apply rbind_ok in H as (w & Hw0 & H). apply of_option_ok in Hw0.
    apply rbind_ok in H as (b & Hb' & H). injection H as <- _. split; [done|]. cbn [sr_workers set_workers].
    apply (all_insert (fun w => proper_bond (w_bond w))); [done|]. cbn. pose proof (Hw _ _ Hw0) as Hp.
    destruct (w_bond w); cbn in Hb'; try discriminate Hb'; by injection Hb' as <-.
  - unfold claim_stake in H. apply rbind_ok in H as (sv & _ & H). apply rbind_ok in H as (w & Hw0 & H). apply of_option_ok in Hw0.
    apply rbind_ok in H as ([b n] & Hb' & H). injection H as <- _. split; [done|]. cbn [sr_workers set_workers].
    apply (all_insert (fun w => proper_bond (w_bond w))); [done|]. cbn.
    destruct (w_bond w); cbn in Hb'; try discriminate Hb'. apply rbind_ok in Hb' as (due & _ & Hb'). destruct (due <=? t); [|discriminate Hb'].
    by injection Hb' as <- _.
Qed.
Lemma multisig_fine wsid crypto s h a b op s' o : fine (CMultisig s) -> h < 2 ^ 64 -> proper_body b ->
  multisig_op h a b = Some op -> multisig_step wsid crypto s op = Ok (s', o) -> fine (CMultisig s').
Proof.
  cbn [fine]. intros [Hs Hw] Hh Hb Hop H. destruct b; try discriminate Hop; injection Hop as <-; cbn [proper_body multisig_step] in *.
  - unfold start_session in H. do 3 (apply rbind_ok in H as (? & _ & H)). apply rbind_ok in H as (n & _ & H). injection H as <- _.
    split; [|done]. cbn [m_sessions]. by apply (all_insert (fun x => proper_state (ss_state x))).
  - unfold submit_signature in H. apply rbind_ok in H as (ss & Hss & H). apply of_option_ok in Hss.
    do 2 (apply rbind_ok in H as (? & _ & H)). cbv zeta in H. do 4 (apply rbind_ok in H as (? & _ & H)). injection H as <- _.
    split; [|done]. cbn [m_sessions]. apply (all_insert (fun x => proper_state (ss_state x))); [done|]. cbn [ss_state].
    destruct (_ && _); [done|]. by eapply Hs.
  - unfold register_worker_set in H. injection H as <- _. split; [done|]. cbn [m_sets]. by apply (all_insert proper_set).
  - unfold register_pub_key in H. apply rbind_ok in H as (? & _ & H). by injection H as <- _.
  - unfold set_caller in H. apply rbind_ok in H as (? & _ & H). by injection H as <- _.
Qed.
Lemma prover_fine keccak wshash sec1 c env s call s' o :
  answers_keys env -> (forall a ids ms, pe_messages env a ids = Some ms -> Forall proper_message ms) -> pe_height env < 2 ^ 64 ->
  fine (CProver c s) -> prover_execute keccak wshash sec1 c env s call = Ok (s', o) -> fine (CProver c s').
Proof.
  cbn [fine]. intros Hk Hm Hh ([Hc Hn] & Hsets & Hbs) H. split; [done|]. split; [exact (proj1 (prover_sends _ _ _ _ _ _ _ _ _ Hk Hh Hc Hsets H))|].
  destruct call; cbn [prover_execute] in H.
  - unfold construct_proof in H. apply rbind_ok in H as (ms & Hms & H). apply rbind_ok in H as ([s1 b] & Hf & H).
    apply rbind_ok in H as (? & _ & H). apply rbind_ok in H as (? & _ & H). injection H as <- _. cbn [pv_batches set_reply].
    unfold find_batch in Hf. destruct (pv_batches s !! _); [by injection Hf as <- _|].
    apply rbind_ok in Hf as (new & _ & Hf). apply rbind_ok in Hf as (s2 & Hs2 & Hf). apply rbind_ok in Hf as (b' & Hb' & Hf). injection Hf as <- <-.
    cbn [pv_batches set_batches]. apply (all_insert proper_batch).
    + destruct new; [|by injection Hs2 as <-]. unfold save_next in Hs2. destruct (different_in_progress _ _); [discriminate Hs2|]. by injection Hs2 as <-.
    + eapply build_batch_proper; [exact Hn| |exact Hb']. unfold ProverModel.get_messages in Hms. apply rbind_ok in Hms as (ms' & Hms & Hr).
      apply of_option_ok in Hms. destruct (negb _); [discriminate Hr|]. destruct (existsb _ _); [discriminate Hr|]. injection Hr as <-.
      eapply Forall_impl; [exact (Hm _ _ _ Hms)|]. intros m Hp. apply Hp.
  - unfold update_worker_set in H. destruct (pv_current s).
    + apply rbind_ok in H as (? & _ & H). apply rbind_ok in H as (new & _ & H). apply rbind_ok in H as (s1 & Hs1 & H).
      apply rbind_ok in H as (b & Hb & H). apply rbind_ok in H as (? & _ & H). injection H as <- _. cbn [pv_batches set_reply set_batches].
      apply (all_insert proper_batch).
      * unfold save_next in Hs1. destruct (different_in_progress _ _); [discriminate Hs1|]. by injection Hs1 as <-.
      * eapply build_batch_proper; [exact Hn| |exact Hb]. constructor.
    + apply rbind_ok in H as (? & _ & H). by injection H as <- _.
  - unfold confirm_worker_set in H. do 4 (apply rbind_ok in H as (? & _ & H)). by injection H as <- _.
Qed.
Lemma deploy_fine d a c : typed_deployment d -> d !! a = Some c -> fine (deploy c).
Proof.
  intros Hd Ha. specialize (Hd a c Ha). destruct c; cbn; try done; repeat split; try done.
Qed.
