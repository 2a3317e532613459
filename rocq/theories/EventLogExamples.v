(** Concrete histories for the events of the contracts. *)
From stdpp Require Import sorting.
From Verif Require Import Base BaseLemmas Text StdModel RouterTypes RegistryTypes OperatorsModel MultisigTypes MultisigModel MultisigSpec
  RouterModel RouterSpec GatewayModel GatewaySpec EncodingModel ProverModel ProverSpec VerifierModel VerifierSpec
  LivenessSpec EventsModel JsonModel JsonSpec WireModel WireSpec WireProofs EventLogModel EventLogSpec EventLogProofs EventLogProofs2 EventLogProofs3.
From Verif Require RouterExamples GatewayExamples MultisigExamples VerifierExamples ProverExamples EncodingExamples.

(** The reader of the contracts and of ampd reads what they write. *)
Lemma of_wire_reads : reads_json of_wire.
Proof. intros v Hv. by apply of_wire_to_json. Qed.

(** The router. *)
Lemma ex_router_events :
  let c := RouterExamples.ex_cfg in
  all_events router_events (rtlog c RouterExamples.ex_rops) =
    [("chain_registered", [("name", "ethereum"); ("gateway", "gw-eth")]);
     ("chain_registered", [("name", "polygon"); ("gateway", "gw-pol")]);
     ("chain_frozen", [("name", "polygon")]);
     ("gateway_upgraded", [("chain", "ethereum"); ("gateway_address", "gw-eth3")]);
     ("chain_frozen", [("name", "polygon")]);
     ("chain_registered", [("name", "avalanche"); ("gateway", "gw-ava")])].
Proof. vm_compute. reflexivity. Qed.

(** Where messages to unregistered chains go is not told. *)
Definition nexus_cfg (n : addr) : rtconfig := {| rc_admin := "admin"; rc_governance := "gov"; rc_nexus := n |}.
Definition nexus_ops : list rtop :=
  [RegisterChain "gov" "ethereum" "gw-eth"; RouteMessages "gw-eth" [RouterExamples.ex_m "ethereum" "fantom" "1"]].
Definition nexus_out (n : addr) : rtout :=
  OutRouted [(n, [RouterExamples.ex_m "ethereum" "fantom" "1"])] [RouterExamples.ex_m "ethereum" "fantom" "1"].
Lemma nexus_log n : n = "nexus1" \/ n = "nexus2" -> rtlog (nexus_cfg n) nexus_ops =
  [(RegisterChain "gov" "ethereum" "gw-eth", EvChainRegistered "ethereum" "gw-eth");
   (RouteMessages "gw-eth" [RouterExamples.ex_m "ethereum" "fantom" "1"], nexus_out n)].
Proof. intros [ -> | -> ]; vm_compute; reflexivity. Qed.
Lemma nexus_untold : exists c1 c2 ops m,
  router_instantiated c1 :: all_events router_events (rtlog c1 ops) =
  router_instantiated c2 :: all_events router_events (rtlog c2 ops) /\
  (exists op o, (op, o) ∈ rtlog c1 ops /\ handed o "nexus1" m) /\
  (exists op o, (op, o) ∈ rtlog c2 ops /\ handed o "nexus2" m) /\
  (forall op o, (op, o) ∈ rtlog c1 ops -> ~ handed o "nexus2" m).
Proof.
  exists (nexus_cfg "nexus1"), (nexus_cfg "nexus2"), nexus_ops, (RouterExamples.ex_m "ethereum" "fantom" "1").
  rewrite !nexus_log by (by (left + right)). split; [reflexivity|].
  assert (H : forall n, handed (nexus_out n) n (RouterExamples.ex_m "ethereum" "fantom" "1")).
  { intros n. exists [RouterExamples.ex_m "ethereum" "fantom" "1"]. split; by left. }
  split_and!.
  - do 2 eexists. split; [right; by left|apply H].
  - do 2 eexists. split; [right; by left|apply H].
  - intros op o Ho. apply elem_of_cons in Ho as [[= -> ->]|Ho]; [by intros []|].
    apply elem_of_list_singleton in Ho as [= -> ->]. intros (ms & Hms & _). apply elem_of_list_singleton in Hms. discriminate Hms.
Qed.

(** Which directions are frozen is not told. *)
Definition frozen_ops (d : direction) : list rtop :=
  [RegisterChain "gov" "ethereum" "gw-eth"; FreezeChain "admin" "ethereum" d].
Definition thawed_ops : list rtop :=
  [RegisterChain "gov" "ethereum" "gw-eth"; UnfreezeChain "admin" "ethereum" DBidirectional].
Lemma frozen_untold : exists c ops1 ops2 ops3,
  all_events router_events (rtlog c ops1) = all_events router_events (rtlog c ops2) /\
  all_events router_events (rtlog c ops1) = all_events router_events (rtlog c ops3) /\
  (incoming_frozen <$> rt_chains (rtrun c ops1) !! "ethereum") = Some true /\
  (incoming_frozen <$> rt_chains (rtrun c ops2) !! "ethereum") = Some false /\
  (outgoing_frozen <$> rt_chains (rtrun c ops2) !! "ethereum") = Some true /\
  (outgoing_frozen <$> rt_chains (rtrun c ops3) !! "ethereum") = Some false.
Proof.
  exists RouterExamples.ex_cfg, (frozen_ops DIncoming), (frozen_ops DOutgoing), thawed_ops.
  split_and!; vm_compute; reflexivity.
Qed.

(** The gateway, with a verifier that vouches for messages of its chain. *)
Definition own_answer : gwanswer := fun ms => Some ((fun m => (m_cc m, bool_decide (cc_chain (m_cc m) = "pol"))) <$> ms).
Definition own_ops : list gwop :=
  [GwRouteMessages "router" [GatewayExamples.exg_m "eth" "pol" "1"; GatewayExamples.exg_m "eth" "pol" "2"] own_answer;
   GwRouteMessages "relayer" [GatewayExamples.exg_m "pol" "eth" "9"] own_answer;
   GwRouteMessages "relayer" [GatewayExamples.exg_m "eth" "pol" "3"] own_answer;
   GwRouteMessages "router" [GatewayExamples.exg_m' "eth" "pol" "1"] own_answer].
Lemma own_vouches : Forall (vouches_for "pol") own_ops.
Proof.
  assert (H : forall ms r id, own_answer ms = Some r -> (id, true) ∈ r -> cc_chain id = "pol").
  { intros ms r id [= <-] (m & [= -> Hm] & _)%elem_of_list_fmap. symmetry in Hm. by apply bool_decide_eq_true in Hm. }
  repeat constructor; intros r id; apply H.
Qed.
Lemma own_events :
  fst <$> all_events gateway_events (gwlog GatewayExamples.exg_cfg own_ops) =
    ["message_routed"; "message_routed"; "message_routed"; "message_routing_failed"; "message_routed"] /\
  told (says_routed {| cc_chain := "eth"; cc_id := "1" |}) (all_events gateway_events (gwlog GatewayExamples.exg_cfg own_ops)) =
    Some (GatewayExamples.exg_m' "eth" "pol" "1") /\
  told (says_routed {| cc_chain := "eth"; cc_id := "3" |}) (all_events gateway_events (gwlog GatewayExamples.exg_cfg own_ops)) = None.
Proof. split_and!; vm_compute; reflexivity. Qed.

(** Without that the events do not tell what waits to be delivered: a message
    on its way in looks like one on its way out. *)
Lemma gateway_untold : exists c ops1 ops2 id m,
  all_events gateway_events (gwlog c ops1) = all_events gateway_events (gwlog c ops2) /\
  gw_outgoing (gwrun c ops1) !! id = Some m /\ gw_outgoing (gwrun c ops2) !! id = None.
Proof.
  exists GatewayExamples.exg_cfg,
    [GwRouteMessages "router" [GatewayExamples.exg_m "pol" "eth" "9"] own_answer],
    [GwRouteMessages "relayer" [GatewayExamples.exg_m "pol" "eth" "9"] own_answer],
    {| cc_chain := "pol"; cc_id := "9" |}, (GatewayExamples.exg_m "pol" "eth" "9").
  split_and!; vm_compute; reflexivity.
Qed.

(** Multisig. *)
Definition mg : list (mop * mout) :=
  mlog MultisigExamples.ex_wsid MultisigExamples.ex_crypto "gov" "rewards" 10 (MultisigExamples.ex_ops 5 ++ MultisigExamples.ex_signs).
Lemma multisig_told :
  fst <$> all_events multisig_events mg =
    ["caller_authorized"; "public_key_registered"; "public_key_registered"; "signing_started";
     "signature_submitted"; "signature_submitted"; "signing_completed"; "signature_submitted"] /\
  told (says_caller "prover") (all_events multisig_events mg) = Some true /\
  told (says_caller "stranger") (all_events multisig_events mg) = None /\
  told (says_session 1) (all_events multisig_events mg) = Some ("5", MultisigExamples.ex_msg) /\
  told (says_signature 1 "carol") (all_events multisig_events mg) = Some (MultisigExamples.repeat_char 65 "s") /\
  told (says_signature 1 "dave") (all_events multisig_events mg) = None /\
  told (says_completed 1) (all_events multisig_events mg) = Some "11".
Proof. split_and!; vm_compute; reflexivity. Qed.

(** Verifier. *)
Lemma ex_in_order : in_order VerifierExamples.ex_history.
Proof. unfold in_order. cbn. repeat first [apply SSorted_nil | apply SSorted_cons | apply Forall_nil_2 | apply Forall_cons_2 | lia]. Qed.
Definition vg : list emitted :=
  all_events verifier_events (vlog (fun x => x) VerifierExamples.ex_cfg VerifierExamples.ex_history).
Lemma verifier_types : fst <$> vg = ["messages_poll_started"; "voted"; "voted"; "voted"; "poll_ended"].
Proof. vm_compute. reflexivity. Qed.
(** What the votes say is told only when the poll ends, although the answers
    of the contract change before. *)
Definition open_ops (v : vote) : list vop :=
  [ VerifyMessages 5 VerifierExamples.ex_reg [VerifierExamples.ex_m1];
    Vote 6 "w1" 1 [SucceededOnChain]; Vote 7 "w2" 1 [v] ].
Lemma votes_untold : exists c ops1 ops2 m,
  in_order ops1 /\ in_order ops2 /\
  all_events verifier_events (vlog (fun x => x) c ops1) = all_events verifier_events (vlog (fun x => x) c ops2) /\
  is_verified (fun x => x) (vrun (fun x => x) c ops1) [m] = Ok [(m_cc m, true)] /\
  is_verified (fun x => x) (vrun (fun x => x) c ops2) [m] = Ok [(m_cc m, false)].
Proof.
  exists VerifierExamples.ex_cfg, (open_ops SucceededOnChain), (open_ops NotFound), VerifierExamples.ex_m1.
  split; [unfold in_order; cbn; repeat first [apply SSorted_nil | apply SSorted_cons | apply Forall_nil_2 | apply Forall_cons_2 | lia]|]. split; [unfold in_order; cbn; repeat first [apply SSorted_nil | apply SSorted_cons | apply Forall_nil_2 | apply Forall_cons_2 | lia]|].
  split_and!; vm_compute; reflexivity.
Qed.

(** Prover. *)
Definition pg : list emitted :=
  all_events prover_events (ProverExamples.ex_plog Abi (ProverExamples.ex_prover_ops Abi)).
Lemma prover_types : fst <$> pg =
  ["proof_under_construction"; "proof_under_construction"; "proof_under_construction"; "proof_under_construction"].
Proof. vm_compute. reflexivity. Qed.
