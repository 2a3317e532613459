(** A message from ethereum, watched by workers running ampd, to sui, where
    the workers then change. *)
From Verif Require Import Base BaseLemmas Text StdModel StdSpec RouterTypes RegistryTypes OperatorsModel MultisigTypes
  RouterModel GatewayModel NexusModel RewardsModel RegistryModel VerifierModel VerifierSpec MultisigModel MultisigExamples
  EncodingModel EncodingSpec EncodingExamples ProverModel ProverSpec ProverExamples SigningModel SigningSpec SigningExamples
  EventsModel HandlersModel HandlersSpec WorkersSpec HandlersExamples SystemModel SystemSpec SystemProofs6 SystemExamples JourneySpec.

(** ** Deciding that workers follow ampd *)
Definition announced_by (keccak : string -> string) (json : string -> option jval) (v : addr) (k : call) : option event :=
  if bool_decide (k_to k = v) then
    match k_chain k !! v with
    | Some (CVerifier vs) =>
        match verifier_op (en_height (k_env k)) (q_active (k_env k) (k_index k) (k_chain k)) (k_sender k) (sb_body (k_sub k)) with
        | Some op => match verifier_step keccak vs op with Ok (_, out) => emitted json v (op, out) | _ => None end
        | None => None
        end
    | _ => None
    end
  else None.
Lemma announced_spec keccak json v k ev : announced_by keccak json v k = Some ev <-> announces keccak json v k ev.
Proof.
  unfold announced_by, announces. split.
  - case_bool_decide as Hto; [|done]. destruct (k_chain k !! v) as [[]|] eqn:Ek; try done.
    destruct (verifier_op _ _ _ _) as [op|] eqn:Eo; [|done]. destruct (verifier_step _ _ _) as [[vs' out]| |] eqn:Ev; [|done..].
    intros He. split; [done|]. eauto 10.
  - intros (Hto & vs & vs' & op & out & H1 & H2 & H3 & H4). rewrite bool_decide_true by done. by rewrite H1, H2, H3.
Qed.

Definition is_vote (a v : addr) (id : N) (ballot : list vote) (r : res herror (option wasm_tx)) : bool :=
  match r with
  | Ok (Some t) => bool_decide (wt_sender t = a) && bool_decide (wt_contract t = v) &&
      match wt_body t with BodyVote i b => bool_decide (i = id) && bool_decide (b = ballot) | _ => false end
  | _ => false
  end.
Lemma is_vote_ok a v id ballot r : is_vote a v id ballot r = true ->
  r = Ok (Some {| wt_sender := a; wt_contract := v; wt_body := BodyVote id ballot |}).
Proof.
  destruct r as [[[s c b]|]| |]; try done. cbn. intros [[->%bool_decide_eq_true ->%bool_decide_eq_true]%andb_prop H]%andb_prop.
  destruct b; [|done]. by apply andb_prop in H as [->%bool_decide_eq_true ->%bool_decide_eq_true].
Qed.
(** a node for each kind of chain *)
Inductive node := EvmNode (c : evm_chain) (rpc : evm_rpc) | SuiNode (rpc : sui_rpc).
Definition watch_of (n : node) : watch :=
  match n with EvmNode c rpc => OnEvm c (fun x => x = rpc) | SuiNode rpc => OnSui (fun x => x = rpc) end.
Definition answers_check (acc : string -> bool) (b58 : string -> option string) (n : node) (v a : addr) (id : N)
    (ballot : list vote) (ev : event) : bool :=
  match n with
  | EvmNode c rpc => let cfg := {| hc_worker := a; hc_contract := v; hc_chain := c |} in
      is_vote a v id ballot (evm_msg_handler acc cfg 0 true rpc ev) || is_vote a v id ballot (evm_ws_handler acc cfg 0 true rpc ev)
  | SuiNode rpc => let cfg := {| hc_worker := a; hc_contract := v; hc_chain := OtherChain "sui" |} in
      is_vote a v id ballot (sui_msg_handler acc b58 cfg 0 true rpc ev) || is_vote a v id ballot (sui_ws_handler acc b58 cfg 0 true rpc ev)
  end.
Lemma answers_checked acc b58 n v a id ballot ev : answers_check acc b58 n v a id ballot ev = true ->
  answers acc b58 (watch_of n) v a id ballot ev.
Proof.
  unfold answers_check, answers. destruct n as [c rpc|rpc]; intros H%orb_prop; exists 0, true; cbn.
  - exists rpc. split; [done|]. destruct H as [H%is_vote_ok|H%is_vote_ok]; auto.
  - exists rpc, (OtherChain "sui"). split; [done|]. destruct H as [H%is_vote_ok|H%is_vote_ok]; auto.
Qed.
Fixpoint ampd_check keccak acc json b58 (n : node) (v a : addr) (seen : list event) (l : list call) : bool :=
  match l with
  | [] => true
  | k :: l =>
      match sb_body (k_sub k) with
      | BVote id ballot => negb (bool_decide (k_to k = v) && bool_decide (k_sender k = a)) ||
                           existsb (answers_check acc b58 n v a id ballot) seen
      | _ => true
      end &&
      ampd_check keccak acc json b58 n v a (match announced_by keccak json v k with Some ev => ev :: seen | None => seen end) l
  end.
Lemma ampd_checked keccak acc json b58 n v a l0 : forall l seen,
  (forall ev, In ev seen -> exists k', k' ∈ l0 /\ announces keccak json v k' ev) ->
  ampd_check keccak acc json b58 n v a seen l = true ->
  forall pre k post id ballot, l = pre ++ k :: post -> k_to k = v -> k_sender k = a -> sb_body (k_sub k) = BVote id ballot ->
    exists k' ev, k' ∈ l0 ++ pre /\ announces keccak json v k' ev /\ answers acc b58 (watch_of n) v a id ballot ev.
Proof.
  intros l. revert l0. induction l as [|x l IH]; intros l0 seen Hseen Hc pre k post id ballot Hl Hto Hs Hb; [by destruct pre|].
  cbn [ampd_check] in Hc. apply andb_prop in Hc as [Hc1 Hc2]. destruct pre as [|y pre].
  - cbn in Hl. injection Hl as -> ->. rewrite Hb in Hc1. rewrite !bool_decide_true in Hc1 by done. cbn in Hc1.
    apply existsb_exists in Hc1 as (ev & Hev & Hans). destruct (Hseen _ Hev) as (k' & Hk' & Han).
    exists k', ev. rewrite app_nil_r. split; [done|]. split; [done|]. by apply answers_checked.
  - cbn in Hl. injection Hl as -> ->. edestruct (IH (l0 ++ [y])) as (k' & ev & H1 & H2 & H3); [|exact Hc2|done..|].
    + intros ev Hev. destruct (announced_by keccak json v y) as [ev'|] eqn:E.
      * destruct Hev as [<-|Hev]; [|destruct (Hseen _ Hev) as (k' & Hk' & Han); exists k'; split; [set_solver|done]].
        exists y. split; [set_solver|]. by apply announced_spec.
      * destruct (Hseen _ Hev) as (k' & Hk' & Han); exists k'; split; [set_solver|done].
    + exists k', ev. split; [|done]. by rewrite <- app_assoc in H1.
Qed.
Definition named_by (vc : vconfig) (k : call) : option (list worker) :=
  match k_chain k !! vc_registry vc with
  | Some (CRegistry s) => ask (get_active_workers s (vc_service vc) (vc_chain vc))
  | Some _ => None
  | None => en_active (k_env k) (k_index k) (vc_registry vc) (vc_service vc) (vc_chain vc)
  end.
Lemma named_spec vc k workers : named vc k workers -> named_by vc k = Some workers.
Proof. unfold named, named_by. destruct (k_chain k !! _) as [[]|]; try done. by intros ->. Qed.
Definition few_check keccak json (trusted : list addr) (v : addr) (vc : vconfig) (l : list call) : bool :=
  forallb (fun k => match announced_by keccak json v k, named_by vc k with
    | Some _, Some workers =>
        N.of_nat (length (filter (fun x => w_addr x ∉ trusted) workers)) * t_den (vc_threshold vc)
          <? N.of_nat (length workers) * t_num (vc_threshold vc)
    | _, _ => true
    end) l.
Definition watched_check keccak acc json b58 n trusted v vc l : bool :=
  match json (vc_gateway vc) with None => true | Some _ => false end &&
  forallb (fun a => ampd_check keccak acc json b58 n v a [] l) trusted && few_check keccak json trusted v vc l.
Lemma watched_checked keccak acc json b58 n trusted v vc l : valid_vconfig vc ->
  watched_check keccak acc json b58 n trusted v vc l = true -> watched keccak acc json b58 (watch_of n) trusted v vc l.
Proof.
  intros Hv H. unfold watched_check in H. apply andb_prop in H as [[Hj Ha]%andb_prop Hf]. rewrite forallb_forall in Ha.
  split; [done|]. split; [by destruct (json _)|]. split.
  - apply Forall_forall. intros a Hin%elem_of_list_In. specialize (Ha a Hin). intros pre k post id ballot Hl Hto Hs Hb.
    exact (ampd_checked keccak acc json b58 n v a [] l [] (fun ev Hev => match Hev with end) Ha pre k post id ballot Hl Hto Hs Hb).
  - intros k ev workers Hk Han%announced_spec Hn%named_spec. unfold few_check in Hf. rewrite forallb_forall in Hf.
    apply elem_of_list_In in Hk. specialize (Hf k Hk). rewrite Han, Hn in Hf. by apply N.ltb_lt.
Qed.

(** ** The deployment and its history *)
Definition jx_vc (chain gw : string) : vconfig :=
  {| vc_registry := "registry"; vc_service := "validators"; vc_gateway := "0x" +:+ to_hex gw;
     vc_threshold := {| t_num := 2; t_den := 3 |}; vc_expiry := 10; vc_confirmations := 5;
     vc_chain := chain; vc_rewards := "rewards" |}.
Lemma jx_valid chain gw : valid_vconfig (jx_vc chain gw).
Proof. exists 2, 3, {| t_num := 2; t_den := 3 |}. split; by vm_compute. Qed.
Definition jx_eth : vconfig := jx_vc "ethereum" hx_gw.
Definition jx_sui : vconfig := jx_vc "sui" hs_gw.
Definition jx_dep : gmap addr deployed :=
  <["ver-eth" := DVerifier jx_eth]> (<["verifier" := DVerifier jx_sui]> (<["prover" := DProver (pcfg Bcs)]> sys_dep)).
Definition jx_m (tx i : string) : message :=
  {| m_cc := {| cc_chain := "ethereum"; cc_id := "0x" +:+ to_hex tx +:+ ":" +:+ i |}; m_src := "0x" +:+ to_hex hx_src;
     m_dchain := "sui"; m_daddr := ex_dst Bcs; m_hash := hx_hash |}.
(** sent, and not yet in a final block *)
Definition jx_m1 : message := jx_m hx_tx1 "1".
Definition jx_m2 : message := jx_m hx_tx2 "4".
Definition jx_call : gw_event := ContractCall hx_src "sui" (ex_dst Bcs) hx_hash.
Definition jx_node : evm_rpc :=
  {| er_finalized := Some (Some 96); er_latest := Some 100;
     er_receipt := fun q =>
       if String.eqb q hx_tx1
       then Some (Some {| r_hash := hx_tx1; r_block := Some 96; r_logs := [hx_log 0 hx_tx1 OtherEvent; hx_log 1 hx_tx1 jx_call] |})
       else if String.eqb q hx_tx2
       then Some (Some {| r_hash := hx_tx2; r_block := Some 97; r_logs := [hx_log 4 hx_tx2 jx_call] |})
       else None;
     er_order := remove_dups |}.

Definition jx_before : list tx :=
  sys_setup ++
  [send 4 "relayer" "gw-eth" (BGatewayVerify [jx_m1; jx_m2]);
   send 5 "alice" "ver-eth" (BVote 1 [SucceededOnChain; NotFound]);
   send 6 "bob" "ver-eth" (BVote 1 [SucceededOnChain; NotFound]);
   send 7 "carol" "ver-eth" (BVote 1 [NotFound; SucceededOnChain]);
   send 20 "relayer" "ver-eth" (BEndPoll 1);
   send 21 "relayer" "gw-eth" (BRoute [jx_m2; jx_m1]);
   send 22 "relayer" "prover" (BProver (ConstructProof [m_cc jx_m1]));
   send 23 "alice" "multisig" (BSubmitSignature 1 (repeat_char 64 "s"));
   send 24 "bob" "multisig" (BSubmitSignature 1 (repeat_char 64 "t"))] ++ sys_change.
Notation jx_run txs := (sysrun ex_keccak ex_wshash ex_sec1 ex_crypto jx_dep txs).
Notation jx_history txs := (history ex_keccak ex_wshash ex_sec1 ex_crypto jx_dep txs).
Definition jx_next : option operators :=
  match pv_next (prover_at (jx_run jx_before)) with
  | Some ws => ask (make_operators ex_keccak ex_sec1 Bcs ws)
  | None => None
  end.
Definition jx_after (o : operators) : list tx :=
  [send 34 "relayer" "verifier" (BVerifyWorkerSet "digest1:4" o);
   send 35 "alice" "verifier" (BVote 1 [SucceededOnChain]);
   send 36 "dave" "verifier" (BVote 1 [SucceededOnChain]);
   send 37 "relayer" "prover" (BProver ConfirmWorkerSet)].
Definition jx_txs : list tx := match jx_next with Some o => jx_before ++ jx_after o | None => [] end.
Definition jx_sui_node : sui_rpc :=
  let b := {| sb_digest := hx_tx1; sb_checkpoint := true;
              sb_events := [ {| se_seq := 4; se_type := Some (hs_gw, "validators", "OperatorshipTransferred"); se_call := None;
                                se_transfer := match jx_next with Some o => sui_operators (o_weights o) (o_threshold o) | None => None end |} ] |} in
  {| sr_block := fun _ => Some b; sr_blocks := fun _ => Some [b]; sr_order := remove_dups |}.

(** carol is not trusted at ethereum *)
Definition jx_trusted (v : addr) : option (node * list addr) :=
  if String.eqb v "ver-eth" then Some (EvmNode (OtherChain "Ethereum") jx_node, ["alice"; "bob"])
  else if String.eqb v "verifier" then Some (SuiNode jx_sui_node, ["alice"; "bob"; "dave"]) else None.
Definition jx_watches (v : addr) : option (watch * list addr) :=
  match jx_trusted v with Some (n, l) => Some (watch_of n, l) | None => None end.
Definition jx_check (l : list call) : bool :=
  watched_check ex_keccak hx_acc hx_json hs_b58 (EvmNode (OtherChain "Ethereum") jx_node) ["alice"; "bob"] "ver-eth" jx_eth l &&
  watched_check ex_keccak hx_acc hx_json hs_b58 (SuiNode jx_sui_node) ["alice"; "bob"; "dave"] "verifier" jx_sui l.
Lemma jx_checked l : jx_check l = true -> well_watched ex_keccak hx_acc hx_json hs_b58 jx_watches jx_dep l.
Proof.
  intros [H1 H2]%andb_prop v vc w trusted Hd Hw. unfold jx_watches, jx_trusted in Hw.
  destruct (String.eqb_spec v "ver-eth") as [->|H3].
  { injection Hw as <- <-. assert (E : jx_dep !! "ver-eth" = Some (DVerifier jx_eth)) by (vm_compute; reflexivity).
    rewrite E in Hd. injection Hd as <-. exact (watched_checked _ _ _ _ _ _ _ _ _ (jx_valid _ _) H1). }
  destruct (String.eqb_spec v "verifier") as [->|H4]; [|done].
  injection Hw as <- <-. assert (E : jx_dep !! "verifier" = Some (DVerifier jx_sui)) by (vm_compute; reflexivity).
  rewrite E in Hd. injection Hd as <-. exact (watched_checked _ _ _ _ _ _ _ _ _ (jx_valid _ _) H2).
Qed.
Lemma jx_check_holds : jx_check (jx_history jx_txs) = true /\ length (jx_history jx_txs) = 48%nat.
Proof. split; vm_compute; reflexivity. Qed.
Lemma jx_watched : well_watched ex_keccak hx_acc hx_json hs_b58 jx_watches jx_dep (jx_history jx_txs).
Proof. exact (jx_checked _ (proj1 jx_check_holds)). Qed.
(** with bob not trusted either, the others would be too many *)
Lemma jx_too_many : few_check ex_keccak hx_json ["alice"] "ver-eth" jx_eth (jx_history jx_txs) = false.
Proof. vm_compute. reflexivity. Qed.
(** carol does not run ampd *)
Lemma jx_carol : ampd_check ex_keccak hx_acc hx_json hs_b58 (EvmNode (OtherChain "Ethereum") jx_node) "ver-eth" "carol" [] (jx_history jx_txs) = false.
Proof. vm_compute. reflexivity. Qed.

Definition jx_served_check (st : chain) : bool :=
  match gateway_of st "gateway" with
  | Some g => bool_decide (ask (GatewayModel.get_messages g [m_cc jx_m1]) = Some [jx_m1]) &&
              bool_decide (ask (GatewayModel.get_messages g [m_cc jx_m2]) = None) && bool_decide (gc_router (gw_config g) = "router")
  | None => false
  end.
Lemma jx_served_checked st : jx_served_check st = true -> exists gs, st !! "gateway" = Some (CGateway gs) /\
  GatewayModel.get_messages gs [m_cc jx_m1] = Ok [jx_m1] /\ is_ok (GatewayModel.get_messages gs [m_cc jx_m2]) = false /\
  jx_dep !! gc_router (gw_config gs) = Some (DRouter sys_rc).
Proof.
  unfold jx_served_check. intros H. destruct (gateway_of _ _) as [g|] eqn:E; [|done]. apply gateway_found in E. exists g.
  apply andb_prop in H as [[H1%bool_decide_eq_true%asked_ok H2%bool_decide_eq_true]%andb_prop H3%bool_decide_eq_true].
  split; [done|]. split; [done|]. split; [by destruct (GatewayModel.get_messages g [m_cc jx_m2])|].
  rewrite H3. vm_compute. reflexivity.
Qed.
Lemma jx_served_holds : jx_served_check (jx_run jx_txs) = true.
Proof. vm_compute. reflexivity. Qed.
Lemma jx_served : exists gs, jx_run jx_txs !! "gateway" = Some (CGateway gs) /\
  GatewayModel.get_messages gs [m_cc jx_m1] = Ok [jx_m1] /\ is_ok (GatewayModel.get_messages gs [m_cc jx_m2]) = false /\
  jx_dep !! gc_router (gw_config gs) = Some (DRouter sys_rc).
Proof. exact (jx_served_checked _ jx_served_holds). Qed.

Lemma jx_prover_at : jx_dep !! "prover" = Some (DProver (pcfg Bcs)) /\
  jx_dep !! pc_multisig (pcfg Bcs) = Some (DMultisig "gov" "rewards" 10) /\
  jx_dep !! pc_gateway (pcfg Bcs) = Some (DGateway {| gc_verifier := "verifier"; gc_router := "router" |}) /\
  jx_dep !! pc_verifier (pcfg Bcs) = Some (DVerifier jx_sui).
Proof. split; [|split; [|split]]; vm_compute; reflexivity. Qed.
Lemma jx_pair_state txs : pair_state (jx_run txs) "prover" (pcfg Bcs) (sys_pair (jx_run txs)).
Proof.
  destruct jx_prover_at as (HP & HM & _).
  destruct (pair_run ex_keccak ex_wshash ex_sec1 ex_crypto jx_dep txs "prover" (pcfg Bcs) _ _ _ HP HM) as [[H1 H2] _].
  unfold sys_pair, pair_state, prover_at, multisig_at. change "multisig" with (pc_multisig (pcfg Bcs)). rewrite H1, H2. done.
Qed.
Definition jx_proof_check (st : chain) : bool :=
  match system_proof ex_keccak ex_sec1 sys_recover (pcfg Bcs) (sys_pair st) 1 with
  | Ok r => bool_decide (pr_ids r = [m_cc jx_m1]) && match completed (Ok r) with Some _ => true | None => false end
  | _ => false
  end.
Lemma jx_proof_checked st : jx_proof_check st = true -> exists resp d,
  system_proof ex_keccak ex_sec1 sys_recover (pcfg Bcs) (sys_pair st) 1 = Ok resp /\ pr_status resp = PfCompleted d /\
  pr_ids resp = [m_cc jx_m1].
Proof.
  unfold jx_proof_check. intros H. destruct (system_proof _ _ _ _ _ 1) as [r| |]; [|done..].
  apply andb_prop in H as [H%bool_decide_eq_true Hc]. unfold completed in Hc.
  destruct (pr_status r) as [|d] eqn:Es; [done|]. by exists r, d.
Qed.
Lemma jx_proof_holds : jx_proof_check (jx_run jx_txs) = true.
Proof. vm_compute. reflexivity. Qed.
Lemma jx_proof : exists s resp d, pair_state (jx_run jx_txs) "prover" (pcfg Bcs) s /\
  system_proof ex_keccak ex_sec1 sys_recover (pcfg Bcs) s 1 = Ok resp /\ pr_status resp = PfCompleted d /\
  pr_ids resp = [m_cc jx_m1].
Proof.
  destruct (jx_proof_checked _ jx_proof_holds) as (resp & d & H). exists (sys_pair (jx_run jx_txs)), resp, d.
  split; [apply jx_pair_state|exact H].
Qed.
(** the worker set confirmed is that proposed at block 31 *)
Definition jx_set_check (st : chain) : bool :=
  match query_worker_set (prover_at st) with
  | Ok ws => (ws_created ws =? 31) && (ws_threshold ws =? 2) && bool_decide (sg_addr <$> members ws = ["dave"; "bob"; "alice"])
  | _ => false
  end.
Lemma jx_set_checked st : jx_set_check st = true -> exists ws, query_worker_set (sy_prover (sys_pair st)) = Ok ws /\
  ws_created ws = 31 /\ ws_threshold ws = 2 /\ sg_addr <$> members ws = ["dave"; "bob"; "alice"].
Proof.
  unfold jx_set_check, sys_pair. cbn [sy_prover]. destruct (query_worker_set _) as [ws| |]; [|done..].
  intros [[H1%N.eqb_eq H2%N.eqb_eq]%andb_prop H3%bool_decide_eq_true]%andb_prop. by exists ws.
Qed.
Lemma jx_set_holds : jx_set_check (jx_run jx_txs) = true.
Proof. vm_compute. reflexivity. Qed.
Lemma jx_set : exists s ws, pair_state (jx_run jx_txs) "prover" (pcfg Bcs) s /\ query_worker_set (sy_prover s) = Ok ws /\
  ws_created ws = 31 /\ ws_threshold ws = 2 /\ sg_addr <$> members ws = ["dave"; "bob"; "alice"].
Proof.
  destruct (jx_set_checked _ jx_set_holds) as (ws & H). exists (sys_pair (jx_run jx_txs)), ws. split; [apply jx_pair_state|exact H].
Qed.
