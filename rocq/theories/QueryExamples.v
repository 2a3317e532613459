(** The history of WireExamples, its questions asked as texts. *)
From Verif Require Import Base BaseLemmas Text StdModel RouterTypes RegistryTypes OperatorsModel MultisigTypes
  RouterModel GatewayModel NexusModel RewardsModel RegistryModel VerifierModel MultisigModel MultisigExamples EncodingModel EncodingExamples
  ProverModel ProverExamples SigningExamples SystemModel SystemSpec SystemExamples EventsModel JsonModel
  WireModel WireSpec WireSystemModel WireSystemSpec WireExamples QueryModel QuerySpec.

Definition qx_env' (h t : N) : qenv := {| qn_height := h; qn_time := t; qn_other := fun _ => None; qn_answer := fun _ _ _ => None |}.
Definition qx_of (t : wtx) : qtx :=
  {| qx_gas := wx_gas t; qx_env := qx_env' (en_height (we_env (wx_env t))) (en_time (we_env (wx_env t)));
     qx_sender := wx_sender t; qx_sub := wx_sub t |}.
Definition qx_all : list qtx := qx_of <$> wx_all.
Definition qx_count (l : list (qtx * list qcall)) : nat * nat := (length l, length (concat (snd <$> l))).
Notation qx_log := (qsyslog ex_keccak ex_wshash ex_sec1 (fun _ _ _ => Some 0) ex_crypto sys_dep).
Notation qx_run := (qsysrun ex_keccak ex_wshash ex_sec1 (fun _ _ _ => Some 0) ex_crypto sys_dep).
(** of 44 transactions 39 succeed, with 54 calls, as without texts *)
Lemma qx_counts : length qx_all = 44%nat /\ qx_count (qx_log qx_all) = (39%nat, 54%nat).
Proof. split; vm_compute; reflexivity. Qed.
Notation qx_ask a t := (chain_querier ex_keccak ex_sec1 (fun _ _ _ => Some 0) (fun _ _ => None) (qx_run qx_all) a t).
Definition qx_check (w : wtx) : bool :=
  (en_height (we_env (wx_env w)) <? 2 ^ 64) && (en_time (we_env (wx_env w)) <? 2 ^ 64) && forallb (fun c => c.2 <? 2 ^ 128) (wb_funds (wx_sub w)).
Lemma qx_typed l : forallb qx_check l = true -> Forall typed_tx (qx_of <$> l).
Proof.
  intros H. rewrite forallb_forall in H. apply Forall_fmap, Forall_forall. intros w Hw%elem_of_list_In.
  apply H in Hw. unfold qx_check in Hw. apply andb_prop in Hw as [Hw H3]. apply andb_prop in Hw as [H1 H2]. apply N.ltb_lt in H1, H2.
  rewrite forallb_forall in H3. split; [split; [exact H1|split; [exact H2|discriminate]]|].
  apply Forall_forall. intros c Hc. apply N.ltb_lt, H3. by apply elem_of_list_In.
Qed.
Lemma qx_checked : forallb qx_check wx_all = true.
Proof. vm_compute. reflexivity. Qed.
Lemma qx_all_typed : Forall typed_tx qx_all.
Proof. exact (qx_typed wx_all qx_checked). Qed.
Lemma qx_deployment : typed_deployment sys_dep.
Proof.
  intros a c H. unfold sys_dep in H. apply elem_of_list_to_map_2 in H.
  repeat (apply elem_of_cons in H as [H|H]; [injection H as -> ->; try exact I; try (split; [discriminate|]; split; reflexivity)|]);
    [|by apply elem_of_nil in H].
  split; [split; [discriminate|]; split; reflexivity|reflexivity].
Qed.
(** the entry of a chain, asked with the text it is given and with one that
    has blanks and a capital letter; the proof of session 1 starts and ends
    as it should; no poll is told *)
Definition qx_sui : string := "{""name"":""sui"",""gateway"":{""address"":""gateway""},""frozen_status"":1}".
Lemma qx_router : qx_ask "router" (t_question (QChainInfo "sui")) = Some qx_sui /\
  qx_ask "router" "{ ""get_chain_info"" : ""SUI"" }" = Some qx_sui /\ qx_ask "gateway" (t_question (QChainInfo "sui")) = None.
Proof. split; [|split]; vm_compute; reflexivity. Qed.
Lemma qx_proof : option_map (fun t => (substring 0 105 t, N.of_nat (String.length t))) (qx_ask "prover" (t_question (QProof 1))) =
  Some ("{""multisig_session_id"":""1"",""message_ids"":[{""chain"":""ethereum"",""id"":""0xabc:1""},{""chain"":""avalanche"",""id"":""", 5884).
Proof. vm_compute. reflexivity. Qed.
Definition qx_polled (st : gmap addr contract) : bool :=
  match st !! "verifier" with Some (CVerifier s) => match v_polls s !! 1 with Some _ => true | None => false end | _ => false end.
Lemma qx_polled_is st : qx_polled st = true -> exists s p, st !! "verifier" = Some (CVerifier s) /\ v_polls s !! 1 = Some p.
Proof.
  unfold qx_polled. destruct (st !! "verifier") as [[]|]; try discriminate. destruct (v_polls s !! 1) as [p|] eqn:E; [|discriminate].
  intros _. exists s, p. by split.
Qed.
Lemma qx_poll : qx_polled (qx_run qx_all) = true.
Proof. vm_compute. reflexivity. Qed.
Lemma qx_no_poll : qx_ask "verifier" (t_question (QPoll 1)) = None.
Proof. vm_compute. reflexivity. Qed.
Lemma qx_poll_kept : exists s p, (qx_run qx_all : gmap addr contract) !! "verifier" = Some (CVerifier s) /\ v_polls s !! 1 = Some p.
Proof. exact (qx_polled_is _ qx_poll). Qed.
