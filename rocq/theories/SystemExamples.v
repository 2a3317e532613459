(** A history of the whole system: setting up, a message from ethereum to sui,
    one from nexus, its proof, a change of the worker set, rewards. *)
From Verif Require Import Base BaseLemmas Text StdModel RouterTypes RegistryTypes OperatorsModel MultisigTypes
  RouterModel RouterSpec GatewayModel GatewaySpec NexusModel RewardsModel RewardsSpec RegistryModel VerifierModel VerifierSpec
  MultisigModel MultisigSpec MultisigExamples EncodingModel EncodingSpec EncodingExamples ProverModel ProverSpec ProverExamples
  SigningModel SigningSpec SigningExamples SystemModel SystemSpec SystemProofs6.

Definition sys_vc (chain : string) : vconfig :=
  {| vc_registry := "registry"; vc_service := "validators"; vc_gateway := "0xgw";
     vc_threshold := {| t_num := 2; t_den := 3 |}; vc_expiry := 10; vc_confirmations := 5;
     vc_chain := chain; vc_rewards := "rewards" |}.
Definition sys_rp : rparams := {| rp_duration := 100; rp_rewards := 60; rp_threshold := {| t_num := 1; t_den := 2 |} |}.
Definition sys_rc : rtconfig := {| rc_admin := "admin"; rc_governance := "gov"; rc_nexus := "nexus-gw" |}.
Definition sys_ri : rinit := {| ri_gov := "gov"; ri_denom := "uaxl"; ri_params := sys_rp; ri_height := 1 |}.
Definition sys_dep : gmap addr deployed := list_to_map [
  ("router", DRouter sys_rc);
  ("gw-eth", DGateway {| gc_verifier := "ver-eth"; gc_router := "router" |});
  ("ver-eth", DVerifier (sys_vc "ethereum"));
  ("gateway", DGateway {| gc_verifier := "verifier"; gc_router := "router" |});
  ("verifier", DVerifier (sys_vc "sui"));
  ("nexus-gw", DNexus {| nc_nexus := "nexus"; nc_router := "router" |});
  ("rewards", DRewards "gov" "uaxl" sys_rp 1);
  ("registry", DRegistry "gov");
  ("multisig", DMultisig "gov" "rewards" 10);
  ("prover", DProver (pcfg Abi))].

(** no other contract answers *)
Definition sys_env (h : N) : env :=
  {| en_height := h; en_time := h * 5; en_other := fun _ => None; en_is_verified := fun _ _ _ => None;
     en_set_verified := fun _ _ _ => None; en_messages := fun _ _ _ => None; en_active := fun _ _ _ _ => None;
     en_key := fun _ _ _ _ => None |}.
Definition send (h : N) (a to : addr) (b : body) : tx :=
  {| tx_gas := 9; tx_env := sys_env h; tx_sender := a; tx_sub := plain to b |}.
Definition pay (h : N) (a to : addr) (b : body) (n : N) : tx :=
  {| tx_gas := 9; tx_env := sys_env h; tx_sender := a;
     tx_sub := {| sb_to := to; sb_body := b; sb_funds := [("uaxl", n)]; sb_reply := false |} |}.

Definition sys_service : service :=
  {| sv_name := "validators"; sv_contract := "svc"; sv_min_workers := 1; sv_max_workers := None;
     sv_min_bond := 100; sv_denom := "uaxl"; sv_unbonding_days := 7; sv_description := "" |}.
Definition join (h : N) (w : addr) (ch : ascii) : list tx :=
  [pay h w "registry" (BBond "validators") 100; send h w "registry" (BDeclareChains "validators" ["ethereum"; "sui"]);
   send h w "multisig" (BRegisterPublicKey KEcdsa (repeat_char 33 ch))].
Definition sys_setup : list tx :=
  [send 1 "gov" "router" (BRegisterChain "ethereum" "gw-eth"); send 1 "gov" "router" (BRegisterChain "sui" "gateway");
   send 1 "gov" "registry" (BRegisterService sys_service);
   send 1 "gov" "registry" (BAuthorize ["alice"; "bob"; "carol"; "dave"] "validators")] ++
  join 2 "alice" "a" ++ join 2 "bob" "b" ++ join 2 "carol" "c" ++
  [send 2 "gov" "multisig" (BSetCaller true "prover"); send 3 "relayer" "prover" (BProver UpdateWorkerSet)].

Definition sys_m (n : N) : message := ex_message Abi n.
Definition sys_n : nmessage :=
  {| n_schain := "avalanche"; n_saddr := "sender"; n_dchain := "sui"; n_daddr := ex_dst Abi;
     n_hash := repeat_char 32 "h"; n_txid := repeat_char 32 "n"; n_index := 7 |}.

(** ** Two messages are verified at ethereum; only the first passes *)
Definition sys_voting : list tx :=
  [send 4 "relayer" "gw-eth" (BGatewayVerify [sys_m 1; sys_m 2]);
   send 5 "alice" "ver-eth" (BVote 1 [SucceededOnChain; NotFound]);
   send 6 "bob" "ver-eth" (BVote 1 [SucceededOnChain; SucceededOnChain]);
   send 7 "carol" "ver-eth" (BVote 1 [NotFound; FailedOnChain]);
   send 20 "relayer" "ver-eth" (BEndPoll 1)].
Definition sys_routing : list tx :=
  [send 21 "relayer" "gw-eth" (BRoute [sys_m 2; sys_m 1]);
   send 21 "nexus" "nexus-gw" (BFromNexus [sys_n])].
(** ** A proof of both messages *)
Definition sys_proving : list tx :=
  [send 22 "relayer" "prover" (BProver (ConstructProof [m_cc (sys_m 1); m_cc (from_nexus sys_n)]));
   send 23 "alice" "multisig" (BSubmitSignature 1 (repeat_char 64 "s"));
   send 23 "carol" "multisig" (BSubmitSignature 1 (repeat_char 64 "x"));
   send 24 "bob" "multisig" (BSubmitSignature 1 (repeat_char 64 "t"))].
(** ** Dave replaces carol *)
Definition sys_change : list tx :=
  join 29 "dave" "d" ++
  [send 30 "carol" "registry" (BUnbond "validators"); send 31 "relayer" "prover" (BProver UpdateWorkerSet);
   send 32 "alice" "multisig" (BSubmitSignature 2 (repeat_char 64 "s"));
   send 33 "bob" "multisig" (BSubmitSignature 2 (repeat_char 64 "t"))].

Notation sys_run txs := (sysrun ex_keccak ex_wshash ex_sec1 ex_crypto sys_dep txs).
Notation sys_history txs := (history ex_keccak ex_wshash ex_sec1 ex_crypto sys_dep txs).
Definition sys_txs : list tx := sys_setup ++ sys_voting ++ sys_routing ++ sys_proving ++ sys_change.

(** what the new worker set is called at the destination *)
Definition prover_at (st : chain) : pstate :=
  match st !! "prover" with Some (CProver _ s) => s | _ => prover_init end.
Definition multisig_at (st : chain) : mstate :=
  match st !! "multisig" with Some (CMultisig s) => s | _ => multisig_init "" "" 0 end.
Definition sys_next : option operators :=
  match pv_next (prover_at (sys_run sys_txs)) with
  | Some ws => ask (make_operators ex_keccak ex_sec1 Abi ws)
  | None => None
  end.
Definition sys_confirm (o : operators) : list tx :=
  [send 34 "relayer" "verifier" (BVerifyWorkerSet "0xsui:1" o);
   send 35 "alice" "verifier" (BVote 1 [SucceededOnChain]);
   send 36 "relayer" "prover" (BProver ConfirmWorkerSet);
   send 36 "dave" "verifier" (BVote 1 [SucceededOnChain]);
   send 37 "relayer" "prover" (BProver ConfirmWorkerSet)].
Definition sys_rewarding : list tx :=
  [pay 300 "donor" "rewards" (BAddRewards "ver-eth") 100; send 310 "anyone" "rewards" (BDistribute "ver-eth" None)].
Definition sys_all : list tx :=
  match sys_next with Some o => sys_txs ++ sys_confirm o ++ sys_rewarding | None => [] end.

(** 40 transactions, of which a bad signature and an early confirmation fail *)
Example sys_counts : length sys_all = 40%nat /\
  length (syslog ex_keccak ex_wshash ex_sec1 ex_crypto sys_dep sys_all) = 38%nat /\ length (sys_history sys_all) = 53%nat.
Proof. split; [|split]; vm_compute; reflexivity. Qed.

Definition gateway_of (st : chain) (a : addr) : option gwstate :=
  match st !! a with Some (CGateway g) => Some g | _ => None end.
Lemma gateway_found st a g : gateway_of st a = Some g -> st !! a = Some (CGateway g).
Proof. unfold gateway_of. destruct (st !! a) as [[]|]; congruence. Qed.
Definition verifier_of (st : chain) (a : addr) : option vstate :=
  match st !! a with Some (CVerifier g) => Some g | _ => None end.
Definition router_of (st : chain) : option rtstate :=
  match st !! "router" with Some (CRouter g) => Some g | _ => None end.
Definition rewards_of (st : chain) : option rstate :=
  match st !! "rewards" with Some (CRewards g) => Some g | _ => None end.

(** what is served at sui: the message voted for, and the one from nexus *)
Definition served_check (st : chain) : bool :=
  match gateway_of st "gateway" with
  | Some g => bool_decide (ask (GatewayModel.get_messages g [m_cc (sys_m 1)]) = Some [sys_m 1]) &&
              bool_decide (ask (GatewayModel.get_messages g [m_cc (from_nexus sys_n)]) = Some [from_nexus sys_n]) &&
              bool_decide (ask (GatewayModel.get_messages g [m_cc (sys_m 2)]) = None) &&
              bool_decide (gc_router (gw_config g) = "router")
  | None => false
  end.
Lemma asked_ok {A E} (r : res E A) a : ask r = Some a -> r = Ok a.
Proof. destruct r; cbn; congruence. Qed.
Lemma served_checked st : served_check st = true -> exists gs, st !! "gateway" = Some (CGateway gs) /\
  GatewayModel.get_messages gs [m_cc (sys_m 1)] = Ok [sys_m 1] /\
  GatewayModel.get_messages gs [m_cc (from_nexus sys_n)] = Ok [from_nexus sys_n] /\
  is_ok (GatewayModel.get_messages gs [m_cc (sys_m 2)]) = false /\
  sys_dep !! gc_router (gw_config gs) = Some (DRouter sys_rc).
Proof.
  unfold served_check. intros H.
  destruct (gateway_of _ _) as [g|] eqn:E; [|done]. apply gateway_found in E. exists g.
  apply andb_prop in H as [H H4%bool_decide_eq_true]. apply andb_prop in H as [H H3%bool_decide_eq_true].
  apply andb_prop in H as [H1%bool_decide_eq_true%asked_ok H2%bool_decide_eq_true%asked_ok].
  split; [done|]. split; [done|]. split; [done|]. split; [by destruct (GatewayModel.get_messages g [m_cc (sys_m 2)])|].
  rewrite H4. vm_compute. reflexivity.
Qed.
Lemma sys_served_check : served_check (sys_run sys_all) = true.
Proof. vm_compute. reflexivity. Qed.
Lemma sys_served : exists gs, sys_run sys_all !! "gateway" = Some (CGateway gs) /\
  GatewayModel.get_messages gs [m_cc (sys_m 1)] = Ok [sys_m 1] /\
  GatewayModel.get_messages gs [m_cc (from_nexus sys_n)] = Ok [from_nexus sys_n] /\
  is_ok (GatewayModel.get_messages gs [m_cc (sys_m 2)]) = false /\
  sys_dep !! gc_router (gw_config gs) = Some (DRouter sys_rc).
Proof. exact (served_checked _ sys_served_check). Qed.

(** routing [ms] from ethereum in the state after the votes *)
Definition routing_check (txs : list tx) (ms : list message) : bool :=
  match verifier_of (sys_run txs) "ver-eth", router_of (sys_run txs) with
  | Some vs, Some rs =>
      bool_decide (distinct_ids ms) && is_ok (is_verified ex_keccak vs ms) &&
      let v := filter (fun m => status_verified ex_keccak vs m = true) ms in
      bool_decide (v <> []) && is_ok (router_step rs (RouteMessages "gw-eth" v)) &&
      forallb (fun m => match goes_to rs "gw-eth" (m_dchain m) with
                        | Some d => match sys_run txs !! d with
                                    | Some (CGateway g) => bool_decide (gc_router (gw_config g) = "router")
                                    | _ => false
                                    end
                        | None => false
                        end) v
  | _, _ => false
  end.
Example sys_may_route : routing_check (sys_setup ++ sys_voting) [sys_m 2; sys_m 1] = true.
Proof. vm_compute. reflexivity. Qed.
(** the same with sui frozen: the call fails *)
Definition sys_frozen : list tx := sys_setup ++ sys_voting ++ [send 21 "admin" "router" (BFreezeChain "sui" DOutgoing)].
Example sys_blocked : routing_check sys_frozen [sys_m 2; sys_m 1] = false /\
  is_ok (system_step ex_keccak ex_wshash ex_sec1 ex_crypto (sys_run sys_frozen) (send 22 "relayer" "gw-eth" (BRoute [sys_m 2; sys_m 1]))) = false.
Proof. split; vm_compute; reflexivity. Qed.

(** who took part in what, and what it paid *)
Definition attendance (st : chain) (c : addr) (n : N) : list N * N :=
  match rewards_of st with
  | Some r => ((fun w => participated r c n w) <$> ["alice"; "bob"; "carol"; "dave"], event_count r c n)
  | None => ([], 0)
  end.
Example sys_attendance : attendance (sys_run sys_all) "ver-eth" 0 = ([1; 1; 0; 0], 1) /\
  attendance (sys_run sys_all) "multisig" 0 = ([2; 2; 0; 0], 2) /\
  (rlog sys_ri (rewards_ops "rewards" (sys_history sys_all))) !! 7%nat = Some (Distribute 310 "ver-eth" None, [("alice", 30); ("bob", 30)]).
Proof. split; [|split]; vm_compute; reflexivity. Qed.
Lemma sys_valid_ops : rewards_ops "rewards" (sys_history sys_all) =
    [Record_ 20 "ver-eth" "1" "alice"; Record_ 20 "ver-eth" "1" "bob"; Record_ 23 "multisig" "1" "alice";
     Record_ 24 "multisig" "1" "bob"; Record_ 32 "multisig" "2" "alice"; Record_ 33 "multisig" "2" "bob";
     AddRewards "ver-eth" [("uaxl", 100)]; Distribute 310 "ver-eth" None].
Proof. vm_compute. reflexivity. Qed.
Lemma sys_valid : valid_rinit sys_ri /\ Forall valid_rop (rewards_ops "rewards" (sys_history sys_all)).
Proof.
  split; [split; [|by vm_compute]; split; split; by vm_compute|].
  rewrite sys_valid_ops. repeat constructor; cbn; try (intros h [= <-]; by vm_compute); done.
Qed.

(** the proof of the two messages, and of the change of the worker set *)
Definition sys_pair (st : chain) : ssys := {| sy_prover := prover_at st; sy_multisig := multisig_at st |}.
Lemma sys_pair_state txs : pair_state (sys_run txs) "prover" (pcfg Abi) (sys_pair (sys_run txs)).
Proof.
  assert (HP : sys_dep !! "prover" = Some (DProver (pcfg Abi))) by (vm_compute; reflexivity).
  assert (HM : sys_dep !! pc_multisig (pcfg Abi) = Some (DMultisig "gov" "rewards" 10)) by (vm_compute; reflexivity).
  destruct (pair_run ex_keccak ex_wshash ex_sec1 ex_crypto sys_dep txs "prover" (pcfg Abi) _ _ _ HP HM) as [[H1 H2] _].
  unfold sys_pair, pair_state, prover_at, multisig_at. change "multisig" with (pc_multisig (pcfg Abi)). rewrite H1, H2. done.
Qed.
Definition sets_registered (l : list call) : list worker_set :=
  omap (fun k => if bool_decide (k_to k = "multisig") then match sb_body (k_sub k) with BRegisterWorkerSet ws => Some ws | _ => None end else None) l.
Definition apart_check (l : list call) : bool :=
  forallb (fun w => forallb (fun w' => implb (String.eqb (ex_wshash w) (ex_wshash w')) (bool_decide (w = w')))
    (sets_registered l)) (sets_registered l).
Lemma apart_checked l : apart_check l = true -> hashes_apart ex_wshash "multisig" l.
Proof.
  intros H k k' ws ws' Hk Hk' Ht Ht' Hb Hb' E. unfold apart_check in H. rewrite forallb_forall in H.
  assert (Hin : forall k ws, k ∈ l -> k_to k = "multisig" -> sb_body (k_sub k) = BRegisterWorkerSet ws ->
    In ws (sets_registered l)).
  { intros k0 w0 H1 H2 H3. apply elem_of_list_In, elem_of_list_omap. exists k0. split; [done|].
    by rewrite bool_decide_true, H3. }
  specialize (H ws (Hin _ _ Hk Ht Hb)). rewrite forallb_forall in H. specialize (H ws' (Hin _ _ Hk' Ht' Hb')).
  rewrite E, String.eqb_refl in H. cbn in H. by apply bool_decide_eq_true in H.
Qed.
Lemma sys_apart_check : apart_check (sys_history sys_all) = true /\ length (sets_registered (sys_history sys_all)) = 2%nat.
Proof. split; vm_compute; reflexivity. Qed.
Lemma sys_apart : hashes_apart ex_wshash "multisig" (sys_history sys_all).
Proof. exact (apart_checked _ (proj1 sys_apart_check)). Qed.
Definition shown (st : chain) (id : N) : option (list ccid * option string) :=
  match system_proof ex_keccak ex_sec1 sys_recover (pcfg Abi) (sys_pair st) id with
  | Ok r => Some (pr_ids r, completed (Ok r))
  | _ => None
  end.
Definition proofs_check (st : chain) : bool :=
  match shown st 1, shown st 2, shown st 3 with
  | Some (ids, Some d), Some ([], Some d'), None =>
      bool_decide (ids = [m_cc (sys_m 1); m_cc (from_nexus sys_n)]) && negb (String.eqb d d')
  | _, _, _ => false
  end.
Lemma proofs_checked st : proofs_check st = true -> exists resp d,
  system_proof ex_keccak ex_sec1 sys_recover (pcfg Abi) (sys_pair st) 1 = Ok resp /\ pr_status resp = PfCompleted d /\
  pr_ids resp = [m_cc (sys_m 1); m_cc (from_nexus sys_n)].
Proof.
  unfold proofs_check. intros H. destruct (shown st 1) as [[ids [d|]]|] eqn:E1; try done.
  destruct (shown st 2) as [[[|] [d'|]]|]; try done. destruct (shown st 3) as [|]; [done|].
  apply andb_prop in H as [H%bool_decide_eq_true _].
  unfold shown in E1. destruct (system_proof _ _ _ _ _ 1) as [r| |]; [|done..]. unfold completed in E1.
  destruct (pr_status r) as [|d0] eqn:Es; [done|]. exists r, d0. injection E1 as E1 _. split; [done|]. split; [done|]. congruence.
Qed.
Lemma sys_proofs : proofs_check (sys_run sys_all) = true.
Proof. vm_compute. reflexivity. Qed.
Lemma sys_completed : exists s resp d, pair_state (sys_run sys_all) "prover" (pcfg Abi) s /\
  system_proof ex_keccak ex_sec1 sys_recover (pcfg Abi) s 1 = Ok resp /\ pr_status resp = PfCompleted d /\
  pr_ids resp = [m_cc (sys_m 1); m_cc (from_nexus sys_n)].
Proof.
  destruct (proofs_checked _ sys_proofs) as (resp & d & H). exists (sys_pair (sys_run sys_all)), resp, d.
  split; [apply sys_pair_state|exact H].
Qed.
(** the worker sets: the first, and the one confirmed by a vote *)
Definition created (st : chain) : option (N * list addr) :=
  match query_worker_set (prover_at st) with Ok ws => Some (ws_created ws, sg_addr <$> members ws) | _ => None end.
Example sys_sets : created (sys_run sys_txs) = Some (3, ["bob"; "alice"; "carol"]) /\
  created (sys_run sys_all) = Some (31, ["dave"; "bob"; "alice"]).
Proof. split; vm_compute; reflexivity. Qed.
