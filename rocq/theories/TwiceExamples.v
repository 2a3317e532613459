(** One event of ethereum is delivered to sui twice, under two ids. *)
From Verif Require Import Base BaseLemmas Text StdModel RouterTypes RegistryTypes OperatorsModel MultisigTypes
  RouterModel GatewayModel NexusModel RewardsModel RegistryModel VerifierModel VerifierSpec
  MultisigModel MultisigExamples EncodingModel EncodingExamples ProverModel ProverSpec ProverExamples
  SigningModel SigningSpec SigningExamples SystemModel SystemSpec SystemProofs6 SystemExamples DeliveryExamples
  EventsModel HandlersModel HandlersSpec HandlersExamples.

Definition tw_vc : vconfig :=
  {| vc_registry := "registry"; vc_service := "validators"; vc_gateway := "0x" +:+ to_hex hx_gw;
     vc_threshold := {| t_num := 2; t_den := 3 |}; vc_expiry := 10; vc_confirmations := 5;
     vc_chain := "ethereum"; vc_rewards := "rewards" |}.
Definition tw_dep : gmap addr deployed := <["ver-eth" := DVerifier tw_vc]> sys_dep.
Definition tw_m (i : string) : message :=
  {| m_cc := {| cc_chain := "ethereum"; cc_id := "0x" +:+ to_hex hx_tx1 +:+ ":" +:+ i |}; m_src := "0x" +:+ to_hex hx_src;
     m_dchain := "sui"; m_daddr := ex_dst Abi; m_hash := hx_hash |}.
Definition tw_m1 := tw_m "1".
Definition tw_m2 := tw_m "01".

(** The source chain: one call of the gateway, in log 1 of a transaction. *)
Definition tw_call : gw_event := ContractCall hx_src "sui" (ex_dst Abi) hx_hash.
Definition tw_receipt : receipt :=
  {| r_hash := hx_tx1; r_block := Some 80; r_logs := [hx_log 0 hx_tx1 OtherEvent; hx_log 1 hx_tx1 tw_call] |}.
Definition tw_node : evm_rpc :=
  {| er_finalized := Some (Some 90); er_latest := Some 100;
     er_receipt := fun q => if String.eqb q hx_tx1 then Some (Some tw_receipt) else None;
     er_order := remove_dups |}.
Definition tw_hcfg (w : addr) : hconfig := {| hc_worker := w; hc_contract := "ver-eth"; hc_chain := OtherChain "ethereum" |}.

Definition tw_txs : list SystemModel.tx := sys_setup ++
  [send 4 "relayer" "gw-eth" (BGatewayVerify [tw_m1; tw_m2]);
   send 5 "alice" "ver-eth" (BVote 1 [SucceededOnChain; SucceededOnChain]);
   send 6 "bob" "ver-eth" (BVote 1 [SucceededOnChain; SucceededOnChain]);
   send 7 "carol" "ver-eth" (BVote 1 [SucceededOnChain; SucceededOnChain]);
   send 20 "relayer" "ver-eth" (BEndPoll 1);
   send 21 "relayer" "gw-eth" (BRoute [tw_m1; tw_m2]);
   send 22 "relayer" "prover" (BProver (ConstructProof [m_cc tw_m1; m_cc tw_m2]));
   send 23 "alice" "multisig" (BSubmitSignature 1 (repeat_char 64 "s"));
   send 24 "bob" "multisig" (BSubmitSignature 1 (repeat_char 64 "t"))].
Notation tw_run := (sysrun ex_keccak ex_wshash ex_sec1 ex_crypto tw_dep tw_txs).
Notation tw_history := (history ex_keccak ex_wshash ex_sec1 ex_crypto tw_dep tw_txs).

(** [v] opened a poll about [es] in the history [l]. *)
Definition poll_about (v : addr) (l : list call) (es : list tx_event) (meta : poll_metadata) : Prop :=
  exists k vs vs' ms sts, k ∈ l /\ k_to k = v /\ k_chain k !! v = Some (CVerifier vs) /\ sb_body (k_sub k) = BVerify ms /\
    verify_messages ex_keccak vs (en_height (k_env k)) (q_active (k_env k) (k_index k) (k_chain k)) ms =
      Ok (vs', OutVerify sts (Some (es, meta))).
(** Every vote cast at [v] in [l] is what the voter's handler answers to the
    event of that poll, having asked [node]. *)
Definition votes_as_seen (v : addr) (node : evm_rpc) (l : list call) (es : list tx_event) (meta : poll_metadata) : Prop :=
  forall k id vs, k ∈ l -> k_to k = v -> sb_body (k_sub k) = BVote id vs ->
    evm_msg_handler hx_acc {| hc_worker := k_sender k; hc_contract := v; hc_chain := OtherChain (pm_chain meta) |}
      (en_height (k_env k)) true node (messages_poll_event hx_json v es meta) =
    Ok (Some {| wt_sender := k_sender k; wt_contract := v; wt_body := BodyVote id vs |}).
Definition is_call (gw : string) (l : evm_log) : bool :=
  String.eqb (l_addr l) gw && match l_event l with Some (ContractCall _ _ _ _) => true | _ => false end.
(** The chain that [node] shows has one call of the gateway [gw]. *)
Definition one_call (node : evm_rpc) (gw : string) : Prop :=
  exists q, forall q' r, er_receipt node q' = Some (Some r) -> q' = q /\ length (List.filter (is_call gw) (r_logs r)) = 1%nat.

Definition tw_poll : option (list tx_event * poll_metadata) :=
  head (omap (fun k => match k_chain k !! "ver-eth", sb_body (k_sub k) with
    | Some (CVerifier vs), BVerify ms =>
        match verify_messages ex_keccak vs (en_height (k_env k)) (q_active (k_env k) (k_index k) (k_chain k)) ms with
        | Ok (_, OutVerify _ (Some p)) => if String.eqb (k_to k) "ver-eth" then Some p else None
        | _ => None
        end
    | _, _ => None
    end) tw_history).

Lemma head_omap {A B} (f : A -> option B) (l : list A) p : head (omap (M:=list) f l) = Some p -> exists k, k ∈ l /\ f k = Some p.
Proof.
  intros H. apply head_Some_elem_of, elem_of_list_omap in H as (k & Hk & Hf). eauto.
Qed.
Lemma tw_polled es meta : tw_poll = Some (es, meta) -> poll_about "ver-eth" tw_history es meta.
Proof.
  intros (k & Hk & H)%head_omap. unfold poll_about.
  destruct (k_chain k !! "ver-eth") as [[| | |vs| | | |]|] eqn:Ev; try done.
  destruct (sb_body (k_sub k)) eqn:Eb; try done.
  destruct (verify_messages _ _ _ _ _) as [[vs' [sts [[es' meta']|]| | |]]| |] eqn:Es; try done.
  destruct (String.eqb_spec (k_to k) "ver-eth") as [Ht|]; [|done]. injection H as -> ->. eauto 12.
Qed.

Definition seen_check (l : list call) (es : list tx_event) (meta : poll_metadata) : bool :=
  forallb (fun k => match sb_body (k_sub k) with
    | BVote id vs =>
        negb (String.eqb (k_to k) "ver-eth") ||
        match evm_msg_handler hx_acc {| hc_worker := k_sender k; hc_contract := "ver-eth"; hc_chain := OtherChain (pm_chain meta) |}
                (en_height (k_env k)) true tw_node (messages_poll_event hx_json "ver-eth" es meta) with
        | Ok (Some t) => String.eqb (wt_sender t) (k_sender k) && String.eqb (wt_contract t) "ver-eth" &&
            match wt_body t with BodyVote id' vs' => (id' =? id) && bool_decide (vs' = vs) | _ => false end
        | _ => false
        end
    | _ => true
    end) l.
Lemma seen_checked l es meta : seen_check l es meta = true -> votes_as_seen "ver-eth" tw_node l es meta.
Proof.
  unfold seen_check. intros H k id vs Hk Ht Hb. rewrite forallb_forall in H. apply elem_of_list_In, H in Hk.
  rewrite Hb, Ht in Hk. cbn [negb orb] in Hk. rewrite String.eqb_refl in Hk. cbn [negb orb] in Hk.
  destruct (evm_msg_handler _ _ _ _ _ _) as [[[w c b]|]| |]; try done. cbn [wt_sender wt_contract wt_body] in Hk.
  apply andb_prop in Hk as [[->%String.eqb_eq ->%String.eqb_eq]%andb_prop Hk].
  destruct b as [id' vs'|]; [|done]. apply andb_prop in Hk as [->%N.eqb_eq ->%bool_decide_eq_true]. done.
Qed.

Definition tw_voters : nat := length (List.filter (fun k => match sb_body (k_sub k) with BVote _ _ => true | _ => false end) tw_history).
Lemma tw_poll_check : match tw_poll with Some (es, meta) => seen_check tw_history es meta | None => false end = true.
Proof. vm_compute. reflexivity. Qed.

Definition tw_served_check (st : chain) : bool :=
  match gateway_of st "gateway" with
  | Some g => bool_decide (ask (GatewayModel.get_messages g [m_cc tw_m1; m_cc tw_m2]) = Some [tw_m1; tw_m2])
  | None => false
  end.
Definition tw_proof_check (st : chain) : bool :=
  match system_proof ex_keccak ex_sec1 sys_recover (pcfg Abi) (sys_pair st) 1 with
  | Ok r =>
      match pr_status r, d_commands (pr_data r) with
      | PfCompleted _, [c1; c2] =>
          bool_decide (pr_ids r = [m_cc tw_m1; m_cc tw_m2]) && negb (String.eqb (c_id c1) (c_id c2)) &&
          bool_decide (c_ty c1 = c_ty c2) && String.eqb (c_params c1) (c_params c2)
      | _, _ => false
      end
  | _ => false
  end.
Lemma tw_served_checked st : tw_served_check st = true -> exists gs, st !! "gateway" = Some (CGateway gs) /\
  GatewayModel.get_messages gs [m_cc tw_m1; m_cc tw_m2] = Ok [tw_m1; tw_m2].
Proof.
  unfold tw_served_check. intros H.
  destruct (gateway_of _ _) as [g|] eqn:E; [|done]. apply gateway_found in E. exists g.
  by apply bool_decide_eq_true, asked_ok in H.
Qed.
Lemma tw_proof_checked st : tw_proof_check st = true -> exists r d c1 c2,
  system_proof ex_keccak ex_sec1 sys_recover (pcfg Abi) (sys_pair st) 1 = Ok r /\ pr_status r = PfCompleted d /\
  pr_ids r = [m_cc tw_m1; m_cc tw_m2] /\ d_commands (pr_data r) = [c1; c2] /\
  c_id c1 <> c_id c2 /\ c_ty c1 = c_ty c2 /\ c_params c1 = c_params c2.
Proof.
  unfold tw_proof_check. destruct (system_proof _ _ _ _ _ 1) as [r| |]; [|done..].
  destruct (pr_status r) as [|d] eqn:Ed; [done|]. destruct (d_commands (pr_data r)) as [|c1 [|c2 [|]]] eqn:Ec; try done.
  intros H. apply andb_prop in H as [H H4%String.eqb_eq]. apply andb_prop in H as [H H3%bool_decide_eq_true].
  apply andb_prop in H as [H1%bool_decide_eq_true H2]. exists r, d, c1, c2. split_and!; try done.
  intros E. by rewrite E, String.eqb_refl in H2.
Qed.
Lemma tw_checks : tw_served_check tw_run = true /\ tw_proof_check tw_run = true.
Proof. split; vm_compute; reflexivity. Qed.

Lemma tw_pair_state txs : pair_state (sysrun ex_keccak ex_wshash ex_sec1 ex_crypto tw_dep txs) "prover" (pcfg Abi)
  (sys_pair (sysrun ex_keccak ex_wshash ex_sec1 ex_crypto tw_dep txs)).
Proof.
  assert (HP : tw_dep !! "prover" = Some (DProver (pcfg Abi))) by (vm_compute; reflexivity).
  assert (HM : tw_dep !! pc_multisig (pcfg Abi) = Some (DMultisig "gov" "rewards" 10)) by (vm_compute; reflexivity).
  destruct (pair_run ex_keccak ex_wshash ex_sec1 ex_crypto tw_dep txs "prover" (pcfg Abi) _ _ _ HP HM) as [[H1 H2] _].
  unfold sys_pair, pair_state, prover_at, multisig_at. change "multisig" with (pc_multisig (pcfg Abi)). rewrite H1, H2. done.
Qed.
Lemma tw_one_call : one_call tw_node hx_gw.
Proof.
  exists hx_tx1. intros q r. cbn [tw_node er_receipt]. destruct (String.eqb_spec q hx_tx1) as [->|]; [|done].
  intros [= <-]. split; [done|]. vm_compute. reflexivity.
Qed.

Lemma tw_witness : exists dep txs vc node gw m id1 id2 es meta gs s r d c1 c2,
  dep !! "ver-eth" = Some (DVerifier vc) /\ valid_vconfig vc /\ vc_gateway vc = "0x" +:+ to_hex gw /\ one_call node gw /\
  id1 <> id2 /\
  poll_about "ver-eth" (history ex_keccak ex_wshash ex_sec1 ex_crypto dep txs) es meta /\
  votes_as_seen "ver-eth" node (history ex_keccak ex_wshash ex_sec1 ex_crypto dep txs) es meta /\
  sysrun ex_keccak ex_wshash ex_sec1 ex_crypto dep txs !! "gateway" = Some (CGateway gs) /\
  GatewayModel.get_messages gs [m_cc (m id1); m_cc (m id2)] = Ok [m id1; m id2] /\
  (forall i, m i = {| m_cc := {| cc_chain := cc_chain (m_cc (m id1)); cc_id := i |}; m_src := m_src (m id1);
                      m_dchain := m_dchain (m id1); m_daddr := m_daddr (m id1); m_hash := m_hash (m id1) |}) /\
  pair_state (sysrun ex_keccak ex_wshash ex_sec1 ex_crypto dep txs) "prover" (pcfg Abi) s /\
  system_proof ex_keccak ex_sec1 sys_recover (pcfg Abi) s 1 = Ok r /\ pr_status r = PfCompleted d /\
  d_commands (pr_data r) = [c1; c2] /\ c_id c1 <> c_id c2 /\ c_ty c1 = c_ty c2 /\ c_params c1 = c_params c2.
Proof.
  pose proof tw_poll_check as HP. destruct tw_poll as [[es meta]|] eqn:EP; [|done].
  destruct (tw_served_checked _ (proj1 tw_checks)) as (gs & Hg & Hm).
  destruct (tw_proof_checked _ (proj2 tw_checks)) as (r & d & c1 & c2 & Hr & Hd & _ & Hc & H1 & H2 & H3).
  exists tw_dep, tw_txs, tw_vc, tw_node, hx_gw.
  exists (fun i => {| m_cc := {| cc_chain := "ethereum"; cc_id := i |}; m_src := m_src tw_m1;
                      m_dchain := "sui"; m_daddr := m_daddr tw_m1; m_hash := m_hash tw_m1 |}).
  exists (cc_id (m_cc tw_m1)), (cc_id (m_cc tw_m2)), es, meta, gs, (sys_pair tw_run), r, d, c1, c2.
  split; [vm_compute; reflexivity|]. split; [exists 2, 3, {| t_num := 2; t_den := 3 |}; split; by vm_compute|].
  split; [done|]. split; [exact tw_one_call|]. split; [by vm_compute|].
  split; [exact (tw_polled _ _ EP)|]. split; [exact (seen_checked _ _ _ HP)|]. split; [exact Hg|]. split; [exact Hm|].
  split; [reflexivity|]. split; [exact (tw_pair_state tw_txs)|]. split; [exact Hr|]. split; [exact Hd|]. split; [exact Hc|].
  split; [exact H1|]. split; [exact H2|exact H3].
Qed.
