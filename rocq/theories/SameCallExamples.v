(** The hypotheses of C109 in a history, and two proofs that give one call with
    its sender spelled in two ways. *)
From Verif Require Import Base BaseLemmas Text StdModel RouterTypes RegistryTypes OperatorsModel MultisigTypes
  RouterModel GatewayModel NexusModel RewardsModel RegistryModel VerifierModel VerifierSpec
  MultisigModel MultisigExamples EncodingModel EncodingExamples ProverModel ProverSpec ProverExamples
  SigningModel SigningSpec SigningExamples SystemModel SystemSpec SystemProofs6 SystemExamples
  EventsModel HandlersModel HandlersSpec HandlersProofs3 WorkersSpec HandlersExamples JourneySpec JourneyExamples SameCallSpec
  TwiceExamples.

(** the sender in capital letters *)
Definition sc_upper : string := "0x73656E6465722D32302D62797465732D6C6F6E67".
Definition sc_m1 : message := tw_m1.
Definition sc_m2 : message :=
  {| m_cc := m_cc sc_m1; m_src := sc_upper; m_dchain := m_dchain sc_m1; m_daddr := m_daddr sc_m1; m_hash := m_hash sc_m1 |}.

(** a second call in the same transaction *)
Definition sc_m3 : message := tw_m "2".
Definition sc_receipt : receipt :=
  {| r_hash := hx_tx1; r_block := Some 80;
     r_logs := [hx_log 0 hx_tx1 OtherEvent; hx_log 1 hx_tx1 tw_call; hx_log 2 hx_tx1 tw_call] |}.
Definition sc_node : evm_rpc :=
  {| er_finalized := Some (Some 90); er_latest := Some 100;
     er_receipt := fun q => if String.eqb q hx_tx1 then Some (Some sc_receipt) else None;
     er_order := remove_dups |}.

Definition sc_first : list SystemModel.tx := sys_setup ++
  [send 4 "relayer" "gw-eth" (BGatewayVerify [sc_m1; sc_m3]);
   send 4 "relayer" "gw-eth" (BGatewayVerify [sc_m2]);
   send 5 "alice" "ver-eth" (BVote 1 [SucceededOnChain; SucceededOnChain]);
   send 5 "alice" "ver-eth" (BVote 2 [SucceededOnChain]);
   send 6 "bob" "ver-eth" (BVote 1 [SucceededOnChain; SucceededOnChain]);
   send 6 "bob" "ver-eth" (BVote 2 [SucceededOnChain]);
   send 20 "relayer" "ver-eth" (BEndPoll 1);
   send 20 "relayer" "ver-eth" (BEndPoll 2);
   send 21 "relayer" "gw-eth" (BRoute [sc_m1; sc_m3]);
   send 21 "nexus" "nexus-gw" (BFromNexus [sys_n]);
   send 22 "relayer" "prover" (BProver (ConstructProof [m_cc sc_m1]));
   send 23 "alice" "multisig" (BSubmitSignature 1 (repeat_char 64 "s"));
   send 24 "bob" "multisig" (BSubmitSignature 1 (repeat_char 64 "t"))].
Definition sc_second : list SystemModel.tx :=
  [send 25 "relayer" "gw-eth" (BRoute [sc_m2]);
   send 26 "relayer" "prover" (BProver (ConstructProof [m_cc sc_m1; m_cc (from_nexus sys_n)]));
   send 27 "alice" "multisig" (BSubmitSignature 2 (repeat_char 64 "s"));
   send 28 "bob" "multisig" (BSubmitSignature 2 (repeat_char 64 "t"))].
Notation sc_run txs := (sysrun ex_keccak ex_wshash ex_sec1 ex_crypto tw_dep txs).
Notation sc_history txs := (history ex_keccak ex_wshash ex_sec1 ex_crypto tw_dep txs).
Definition sc_watches (v : addr) : option (watch * list addr) :=
  if String.eqb v "ver-eth" then Some (watch_of (EvmNode (OtherChain "ethereum") sc_node), ["alice"; "bob"]) else None.

Definition sc_all : list SystemModel.tx := sc_first ++ sc_second.

Lemma tw_valid : valid_vconfig tw_vc.
Proof. exists 2, 3, {| t_num := 2; t_den := 3 |}. split; by vm_compute. Qed.
Lemma tw_ver : tw_dep !! "ver-eth" = Some (DVerifier tw_vc).
Proof. vm_compute. reflexivity. Qed.
Lemma sc_watched_checked l :
  watched_check ex_keccak hx_acc hx_json hs_b58 (EvmNode (OtherChain "ethereum") sc_node) ["alice"; "bob"] "ver-eth" tw_vc l = true ->
  well_watched ex_keccak hx_acc hx_json hs_b58 sc_watches tw_dep l.
Proof.
  intros H v vc w trusted Hd Hw. unfold sc_watches in Hw. destruct (String.eqb_spec v "ver-eth") as [->|]; [|done].
  injection Hw as <- <-. rewrite tw_ver in Hd. injection Hd as <-. exact (watched_checked _ _ _ _ _ _ _ _ _ tw_valid H).
Qed.

(** the chain has one past *)
Lemma sc_logs (pre post : list evm_log) l i : [hx_log 0 hx_tx1 OtherEvent; hx_log 1 hx_tx1 tw_call; hx_log 2 hx_tx1 tw_call] = pre ++ l :: post ->
  l_index l = Some i -> i = 0 /\ l_event l = Some OtherEvent \/ i <> 0 /\ l_event l = Some tw_call.
Proof.
  destruct pre as [|a [|b [|c [|]]]]; intros [=]; subst; cbn; intros [= <-]; auto.
Qed.
Lemma sc_seen c confs q gw t i e : evm_seen c confs sc_node q gw t i e -> i = 0 /\ e = OtherEvent \/ i <> 0 /\ e = tw_call.
Proof.
  intros (r & l & pre & post & Hr & _ & _ & Hl & _ & Hi & _ & _ & He). unfold sc_node, er_receipt in Hr.
  destruct (String.eqb q hx_tx1); [|done]. injection Hr as <-. cbn [sc_receipt r_logs] in Hl.
  destruct (sc_logs _ _ _ _ Hl Hi) as [[-> E]|[Hn E]]; rewrite E in He; injection He as <-; auto.
Qed.
Lemma sc_agree c c' : agree (watch_of (EvmNode c sc_node)) (watch_of (EvmNode c' sc_node)).
Proof.
  intros rpc rpc' confs confs' q q' gw gw' t i e e' -> -> H1%sc_seen H2%sc_seen.
  destruct H1 as [[-> ->]|[Hn ->]], H2 as [[E ->]|[E ->]]; done.
Qed.

Definition sc_cover_check (l : list call) : bool :=
  forallb (fun k => match sb_body (k_sub k) with
    | BFromNexus ns => forallb (fun n => negb (String.eqb (n_schain n) "ethereum")) ns
    | _ => true
    end && match k_chain k !! "router" with
    | Some (CRouter rs) => match get_chain_info rs "ethereum" with Ok e => String.eqb (ce_gateway e) "gw-eth" | _ => true end
    | _ => true
    end) l.
Lemma sc_covered l : sc_cover_check l = true -> covered sc_watches tw_dep "router" sys_rc l "ethereum".
Proof.
  intros H. unfold sc_cover_check in H. rewrite forallb_forall in H.
  split; [exists {| nc_nexus := "nexus"; nc_router := "router" |}; vm_compute; reflexivity|]. split; [|split].
  - intros k ns n Hk Hb Hn. apply elem_of_list_In, H, andb_prop in Hk as [Hk _]. rewrite Hb, forallb_forall in Hk.
    apply elem_of_list_In, Hk in Hn. by destruct (String.eqb_spec (n_schain n) "ethereum").
  - intros k rs e Hk Hr He. apply elem_of_list_In, H, andb_prop in Hk as [_ Hk]. rewrite Hr, He in Hk. apply String.eqb_eq in Hk as ->.
    exists {| gc_verifier := "ver-eth"; gc_router := "router" |}, tw_vc, (watch_of (EvmNode (OtherChain "ethereum") sc_node)), ["alice"; "bob"].
    split; [vm_compute; reflexivity|]. split; [exact tw_ver|reflexivity].
  - intros v v' vc vc' w w' tr tr' _ _ Hw Hw' _ _. unfold sc_watches in Hw, Hw'.
    destruct (String.eqb v "ver-eth"); [|done]. destruct (String.eqb v' "ver-eth"); [|done].
    injection Hw as <- <-. injection Hw' as <- <-. apply sc_agree.
Qed.

Definition sc_ids (l : list call) : list ccid :=
  l ≫= (fun k => match sb_body (k_sub k) with BProver (ConstructProof ids) => ids | _ => [] end).
Lemma sc_ids_in l k ids i : k ∈ l -> sb_body (k_sub k) = BProver (ConstructProof ids) -> i ∈ ids -> i ∈ sc_ids l.
Proof. intros Hk Hb Hi. apply elem_of_list_bind. exists k. split; [|done]. by rewrite Hb. Qed.
Definition sc_ids_check (l : list ccid) : bool :=
  forallb (fun i => bool_decide (chain_name_of (cc_chain i) = Some (cc_chain i)) &&
    forallb (fun i' => implb (String.eqb (ex_keccak (ccid_to_string i)) (ex_keccak (ccid_to_string i')))
                             (String.eqb (ccid_to_string i) (ccid_to_string i'))) l) l.
Lemma sc_ids_checked l : sc_ids_check (sc_ids l) = true -> asked_apart ex_keccak "prover" l /\
  forall k ids i, k ∈ l -> sb_body (k_sub k) = BProver (ConstructProof ids) -> i ∈ ids -> wf_chain (cc_chain i).
Proof.
  intros H. unfold sc_ids_check in H. rewrite forallb_forall in H. split.
  - intros k k' ids ids' i i' Hk Hk' _ _ Hb Hb' Hi Hi' E.
    pose proof (sc_ids_in _ _ _ _ Hk Hb Hi) as H1%elem_of_list_In. pose proof (sc_ids_in _ _ _ _ Hk' Hb' Hi') as H2%elem_of_list_In.
    apply H, andb_prop in H1 as [_ H1]. rewrite forallb_forall in H1. apply H1 in H2. rewrite E, String.eqb_refl in H2. cbn [implb] in H2.
    by apply String.eqb_eq.
  - intros k ids i Hk Hb Hi. pose proof (sc_ids_in _ _ _ _ Hk Hb Hi) as H1%elem_of_list_In.
    apply H, andb_prop in H1 as [H1%bool_decide_eq_true _]. exact H1.
Qed.

Definition sc_both_check (st st' : chain) : bool :=
  match system_proof ex_keccak ex_sec1 sys_recover (pcfg Abi) (sys_pair st) 1, system_proof ex_keccak ex_sec1 sys_recover (pcfg Abi) (sys_pair st') 2 with
  | Ok r, Ok r' =>
      match pr_status r, pr_status r', d_commands (pr_data r), d_commands (pr_data r') with
      | PfCompleted _, PfCompleted _, [x], [x'; _] =>
          bool_decide (pr_ids r = [m_cc sc_m1]) && bool_decide (c_ty x = ApproveContractCall) && bool_decide (c_ty x' = ApproveContractCall) &&
          String.eqb (c_id x) (c_id x') && negb (String.eqb (c_params x) (c_params x'))
      | _, _, _, _ => false
      end
  | _, _ => false
  end.
Lemma sc_both_checked st st' : sc_both_check st st' = true -> exists r r' d d' x x',
  system_proof ex_keccak ex_sec1 sys_recover (pcfg Abi) (sys_pair st) 1 = Ok r /\
  system_proof ex_keccak ex_sec1 sys_recover (pcfg Abi) (sys_pair st') 2 = Ok r' /\
  pr_status r = PfCompleted d /\ pr_status r' = PfCompleted d' /\ pr_ids r = [m_cc sc_m1] /\
  x ∈ d_commands (pr_data r) /\ x' ∈ d_commands (pr_data r') /\ c_ty x = ApproveContractCall /\ c_ty x' = ApproveContractCall /\
  c_id x = c_id x' /\ c_params x <> c_params x'.
Proof.
  unfold sc_both_check. destruct (system_proof _ _ _ _ _ 1) as [r| |]; [|done..]. destruct (system_proof _ _ _ _ _ 2) as [r'| |]; [|done..].
  destruct (pr_status r) as [|d] eqn:E1; [done|]. destruct (pr_status r') as [|d'] eqn:E2; [done|].
  destruct (d_commands (pr_data r)) as [|x [|]] eqn:E3; try done. destruct (d_commands (pr_data r')) as [|x' [|y [|]]] eqn:E4; try done.
  intros H. apply andb_prop in H as [H H5]. apply andb_prop in H as [H H4%String.eqb_eq]. apply andb_prop in H as [H H3%bool_decide_eq_true].
  apply andb_prop in H as [H1%bool_decide_eq_true H2%bool_decide_eq_true].
  exists r, r', d, d', x, x'. do 5 (split; [done|]). split; [rewrite E3; set_solver|]. split; [rewrite E4; set_solver|].
  split; [done|]. split; [done|]. split; [done|]. intros E. by rewrite E, String.eqb_refl in H5.
Qed.
Lemma sc_checks :
  watched_check ex_keccak hx_acc hx_json hs_b58 (EvmNode (OtherChain "ethereum") sc_node) ["alice"; "bob"] "ver-eth" tw_vc (sc_history sc_all) = true /\
  sc_cover_check (sc_history sc_all) = true /\ sc_ids_check (sc_ids (sc_history sc_all)) = true /\
  sc_both_check (sc_run sc_first) (sc_run sc_all) = true.
Proof. split; [|split; [|split]]; vm_compute; reflexivity. Qed.

Definition sc_served_check (st : chain) (m : message) : bool :=
  match gateway_of st "gateway" with
  | Some g => bool_decide (ask (GatewayModel.get_messages g [m_cc m]) = Some [m]) && String.eqb (gc_router (gw_config g)) "router"
  | None => false
  end.
Lemma sc_served_checked st m : sc_served_check st m = true -> exists gs, st !! "gateway" = Some (CGateway gs) /\
  GatewayModel.get_messages gs [m_cc m] = Ok [m] /\ gc_router (gw_config gs) = "router".
Proof.
  unfold sc_served_check. intros H. destruct (gateway_of _ _) as [g|] eqn:E; [|done]. apply gateway_found in E. exists g.
  apply andb_prop in H as [H1%bool_decide_eq_true%asked_ok H2%String.eqb_eq]. done.
Qed.
Lemma sc_served : sc_served_check (sc_run sc_first) sc_m1 = true /\ sc_served_check (sc_run sc_all) sc_m2 = true /\
  sc_served_check (sc_run sc_all) sc_m3 = true.
Proof. split; [|split]; vm_compute; reflexivity. Qed.
Lemma sc_canonical : canonical_evm_id (cc_id (m_cc sc_m1)) /\ canonical_evm_id (cc_id (m_cc sc_m3)).
Proof. split; exists hx_tx1; [exists 1|exists 2]; split; [done| |done|]; split; done. Qed.
(** the hypotheses of C109, and of C63 for different events *)
Lemma sc_meets : well_watched ex_keccak hx_acc hx_json hs_b58 sc_watches tw_dep (sc_history sc_all) /\
  covered sc_watches tw_dep "router" sys_rc (sc_history sc_all) "ethereum" /\ tw_dep !! "router" = Some (DRouter sys_rc) /\
  (exists gs, sc_run sc_first !! "gateway" = Some (CGateway gs) /\ GatewayModel.get_messages gs [m_cc sc_m1] = Ok [sc_m1] /\
     gc_router (gw_config gs) = "router") /\
  (exists gs, sc_run sc_all !! "gateway" = Some (CGateway gs) /\ GatewayModel.get_messages gs [m_cc sc_m2] = Ok [sc_m2] /\
     gc_router (gw_config gs) = "router") /\
  (exists gs, sc_run sc_all !! "gateway" = Some (CGateway gs) /\ GatewayModel.get_messages gs [m_cc sc_m3] = Ok [sc_m3] /\
     gc_router (gw_config gs) = "router") /\
  m_cc sc_m1 = m_cc sc_m2 /\ m_src sc_m1 <> m_src sc_m2 /\ cc_id (m_cc sc_m1) <> cc_id (m_cc sc_m3) /\
  canonical_evm_id (cc_id (m_cc sc_m1)) /\ canonical_evm_id (cc_id (m_cc sc_m3)).
Proof.
  destruct sc_checks as (H1 & H2 & _). destruct sc_served as (H3 & H4 & H5).
  split; [exact (sc_watched_checked _ H1)|]. split; [exact (sc_covered _ H2)|]. split; [vm_compute; reflexivity|].
  split; [exact (sc_served_checked _ _ H3)|]. split; [exact (sc_served_checked _ _ H4)|]. split; [exact (sc_served_checked _ _ H5)|].
  split; [reflexivity|]. split; [by vm_compute|]. split; [by vm_compute|exact sc_canonical].
Qed.

Lemma c109_spelling : exists dep txs later watches c gc rc s s' id id' resp resp' d d' x x',
  well_watched ex_keccak hx_acc hx_json hs_b58 watches dep (history ex_keccak ex_wshash ex_sec1 ex_crypto dep (txs ++ later)) /\
  dep !! "prover" = Some (DProver c) /\ dep !! pc_multisig c = Some (DMultisig "gov" "rewards" 10) /\
  dep !! pc_gateway c = Some (DGateway gc) /\ dep !! gc_router gc = Some (DRouter rc) /\
  pair_state (sysrun ex_keccak ex_wshash ex_sec1 ex_crypto dep txs) "prover" c s /\
  system_proof ex_keccak ex_sec1 sys_recover c s id = Ok resp /\ pr_status resp = PfCompleted d /\
  pair_state (sysrun ex_keccak ex_wshash ex_sec1 ex_crypto dep (txs ++ later)) "prover" c s' /\
  system_proof ex_keccak ex_sec1 sys_recover c s' id' = Ok resp' /\ pr_status resp' = PfCompleted d' /\
  x ∈ d_commands (pr_data resp) /\ x' ∈ d_commands (pr_data resp') /\
  c_ty x = ApproveContractCall /\ c_ty x' = ApproveContractCall /\ c_id x = c_id x' /\
  asked_apart ex_keccak "prover" (history ex_keccak ex_wshash ex_sec1 ex_crypto dep (txs ++ later)) /\
  (forall k ids i, k ∈ history ex_keccak ex_wshash ex_sec1 ex_crypto dep (txs ++ later) ->
     sb_body (k_sub k) = BProver (ConstructProof ids) -> i ∈ ids -> wf_chain (cc_chain i)) /\
  (forall i, i ∈ pr_ids resp -> covered watches dep (gc_router gc) rc (history ex_keccak ex_wshash ex_sec1 ex_crypto dep (txs ++ later)) (cc_chain i)) /\
  c_params x <> c_params x'.
Proof.
  destruct sc_checks as (H1 & H2 & H3 & H4).
  destruct (sc_both_checked _ _ H4) as (r & r' & d & d' & x & x' & Hr & Hr' & Hd & Hd' & Hi & Hx & Hx' & Ht & Ht' & Hc & Hp).
  destruct (sc_ids_checked _ H3) as [Ha Hw].
  exists tw_dep, sc_first, sc_second, sc_watches, (pcfg Abi), {| gc_verifier := "verifier"; gc_router := "router" |}, sys_rc.
  exists (sys_pair (sc_run sc_first)), (sys_pair (sc_run sc_all)), 1, 2, r, r', d, d', x, x'.
  split; [exact (sc_watched_checked _ H1)|]. split; [vm_compute; reflexivity|]. split; [vm_compute; reflexivity|].
  split; [vm_compute; reflexivity|]. split; [vm_compute; reflexivity|]. split; [exact (tw_pair_state sc_first)|].
  split; [exact Hr|]. split; [exact Hd|]. split; [exact (tw_pair_state sc_all)|]. split; [exact Hr'|]. split; [exact Hd'|].
  split; [exact Hx|]. split; [exact Hx'|]. split; [exact Ht|]. split; [exact Ht'|]. split; [exact Hc|]. split; [exact Ha|]. split; [exact Hw|].
  split; [|exact Hp]. intros i Hin. rewrite Hi in Hin. apply elem_of_list_singleton in Hin as ->. exact (sc_covered _ H2).
Qed.
