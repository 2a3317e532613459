(** Proofs: messages between EVM chains do not block each other. *)
From Verif Require Import Base BaseLemmas Text TextLemmas StdModel StdSpec StdProofs
  RouterTypes RegistryTypes OperatorsModel VerifierModel VerifierSpec VerifierProofs VerifierProofs2 VerifierProofs3.

Lemma evm_preimage_inj m m' :
  wf_message m -> wf_message m' -> evm_message m -> evm_message m' ->
  message_preimage m = message_preimage m' -> m = m'.
Proof.
  intros (Hc & _ & _ & _ & _ & Hh) (Hc' & _ & _ & _ & _ & Hh')
    (tx & n & src & Hid & Htx & Hs & Hsl & Hd) (tx' & n' & src' & Hid' & Htx' & Hs' & Hsl' & Hd').
  unfold message_preimage, ccid_to_string.
  assert (forall c, wf_chain c -> contains ID_SEPARATOR c = false) as Hnc.
  { intros c. unfold wf_chain, chain_name_of. destruct (contains _ c); done. }
  destruct m as [[c i] s d a h], m' as [[c' i'] s' d' a' h']. cbn [m_cc m_src m_dchain m_daddr m_hash cc_chain cc_id] in *.
  subst i i' s s'. rewrite !app_assoc_str. cbn [String.append]. intros H.
  apply sep_app_inj in H as [-> H]; [|by apply Hnc..].
  rewrite !app_assoc_str in H. cbn [String.append] in H.
  apply app_inj_len_str in H as [-> H]; [|congruence]. injection H as H.
  assert (Hx : forall k r, dec k +:+ String "0" (String "x" r) = (dec k +:+ "0") +:+ String "x" r).
  { intros k r. by rewrite app_assoc_str. }
  rewrite !Hx in H.
  assert (Hno : forall k, contains "x" (dec k +:+ "0") = false).
  { intros k. rewrite contains_app, dec_contains by done. done. }
  apply sep_app_inj in H as [Hn H]; [|apply Hno..].
  apply app_inj_len_r_str in Hn as [-> _]; [|done].
  apply app_inj_len_str in H as [-> H]; [|congruence].
  assert (Hl : String.length (a +:+ h) = String.length (a' +:+ h')) by (rewrite !app_length_str; lia).
  apply app_inj_len_r_str in H as [-> H]; [|done].
  apply app_inj_len_str in H as [-> ->]; [done|congruence].
Qed.

(** the messages requests of a history are about *)
Lemma stored_requested k cfg ops key c :
  valid_vconfig cfg -> v_messages (vrun k cfg ops) !! key = Some c ->
  key = message_key k (c_content c) /\ c_content c ∈ requested ops /\
  exists vp, v_polls (vrun k cfg ops) !! c_poll c = Some vp /\
    is_ok (poll_consensus (vpoll_poll vp) (N.to_nat (c_index c))) = true.
Proof.
  intros Hcfg Hc. pose proof (inv_run k cfg ops) as [_ Hp Hm _]. destruct (Hm _ _ Hc) as [Hk [vp Hvp]]. split; [done|].
  destruct (Hp _ _ Hvp) as [_ (l1 & e & l2 & ex & ws & x & snap & [Hl Ho Hs Hpo Hmsgs _])].
  destruct (Hmsgs _ _ Hc eq_refl) as (ms & -> & Hidx). split; [|exists vp; split; [done|]].
  - unfold requested. destruct e as [op out]. assert (Hin : (op, out) ∈ vlog k cfg ops) by (rewrite Hl; set_solver).
    apply log_elem in Hin as (ops1 & ops2 & s' & -> & _). rewrite bind_app. apply elem_of_app. right. cbn.
    apply elem_of_app. left. unfold opens in Ho.
    destruct op as [hh reg ms'| | |], out as [? [[? ?]|]| | |]; try done; [|by destruct Ho as (_ & _ & _ & _ & _ & _ & _ & _ & ? & _)].
    destruct Ho as (_ & _ & _ & _ & _ & _ & _ & _ & todo & [= ->] & Hsub & _).
    apply elem_of_list_lookup_2 in Hidx. apply sublist_submseteq in Hsub. by eapply elem_of_submseteq.
  - rewrite Hpo, subject_poll_poll. eapply c04_out_of_range; [by eapply valid_majority|]. cbn. by apply lookup_lt_Some in Hidx.
Qed.

Lemma evm_never_blocked k cfg ops m :
  valid_vconfig cfg ->
  Forall (fun m => wf_message m /\ evm_message m) (m :: requested ops) ->
  (forall m', m' ∈ requested ops -> message_key k m' = message_key k m -> message_preimage m' = message_preimage m) ->
  exists st, message_status k (vrun k cfg ops) m = Ok st.
Proof.
  intros Hcfg Hall Hk. unfold message_status, verification_status.
  destruct (v_messages _ !! message_key k m) as [c|] eqn:Hc; [|by eexists].
  destruct (stored_requested _ _ _ _ _ Hcfg Hc) as (Hkey & Hin & vp & Hvp & Hok).
  inversion_clear Hall as [|? ? [Hw He] Hr]. rewrite Forall_forall in Hr. destruct (Hr _ Hin) as [Hw' He'].
  assert (c_content c = m) as Hcm. { apply evm_preimage_inj; [done..|]. by apply Hk. }
  rewrite bool_decide_eq_true_2 by done. rewrite Hvp.
  destruct (poll_consensus _ _) as [[[]|]| |]; try done; try case_bool_decide; by eexists.
Qed.

Lemma evm_request_accepted k cfg ops h reg ms workers :
  valid_vconfig cfg ->
  ms <> [] -> N.of_nat (length ms) <= U32 ->
  Forall (fun m => cc_chain (m_cc m) = vc_chain cfg) ms ->
  Forall (fun m => wf_message m /\ evm_message m) (ms ++ requested ops) ->
  (forall m m', m ∈ ms -> m' ∈ requested ops -> message_key k m' = message_key k m -> message_preimage m' = message_preimage m) ->
  Forall (fun m => is_ok (tx_event_of m) = true) ms ->
  reg (vc_registry cfg) (vc_service cfg) (vc_chain cfg) = Some workers ->
  workers <> [] -> Forall (fun w => exists n, w_bond w = Bonded n) workers ->
  N.of_nat (length workers) < U256 ->
  N.of_nat (length ops) + 1 < U64 -> h + vc_expiry cfg < U64 ->
  is_ok (verify_messages k (vrun k cfg ops) h reg ms) = true.
Proof.
  intros Hc Hne Hlen Hch Hevm Hk Hev Hreg Hw Hb Hwl Hops Hh. eapply c09_enabled; try done.
  apply Forall_forall. intros m Hm. rewrite Forall_app in Hevm. destruct Hevm as [He1 He2]. rewrite Forall_forall in He1.
  destruct (evm_never_blocked k cfg ops m) as [st ->]; [done|constructor; [by apply He1|done]| |done].
  intros m' Hm' Hkey. by eapply Hk.
Qed.
