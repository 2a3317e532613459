(** C102, C103: the texts of calls. *)
From Verif Require Import Base BaseLemmas Text StdModel RouterTypes RegistryTypes OperatorsModel MultisigTypes
  RouterModel GatewayModel NexusModel RewardsModel RewardsSpec RegistryModel VerifierModel MultisigModel MultisigExamples EncodingModel EncodingExamples
  ProverModel ProverExamples SigningExamples SystemModel SystemSpec SystemExamples EventsModel HandlersModel HandlersExamples DaemonModel DaemonExamples JsonModel
  WireModel WireSpec WireSystemModel WireSystemSpec WireProofs2 WireProofs3 WireProofs8 WireExamples WireSpec2 WireProofs12.

(** ** C102: whatever text is sent to a contract, a contract only runs with
    values its types promise *)
Theorem C102_verifier : forall s m, (v ← of_wire s; d_vv v) = Some m -> proper_vv m.
Proof. exact (text_proper _ _ _ 6 ltac:(lia) codec_vv). Qed.
Print Assumptions C102_verifier.
Theorem C102_multisig : forall s m, (v ← of_wire s; d_ms v) = Some m -> proper_ms m.
Proof. exact (text_proper _ _ _ 6 ltac:(lia) codec_ms). Qed.
Print Assumptions C102_multisig.
Theorem C102_rewards : forall s m, (v ← of_wire s; d_rw v) = Some m -> proper_rw m.
Proof. exact (text_proper _ _ _ 5 ltac:(lia) codec_rw). Qed.
Print Assumptions C102_rewards.
Theorem C102_gateway : forall s m, (v ← of_wire s; d_gw v) = Some m -> proper_gw m.
Proof. exact (text_proper _ _ _ 4 ltac:(lia) codec_gw). Qed.
Print Assumptions C102_gateway.
Theorem C102_aggregate : forall s ms, ag_call s = Some ms -> Forall proper_message ms.
Proof. exact (text_proper _ _ _ 5 ltac:(lia) codec_ag). Qed.
Print Assumptions C102_aggregate.
Theorem C102_nexus : forall s m, (v ← of_wire s; d_nx v) = Some m -> proper_nx m.
Proof. exact (text_proper _ _ _ 4 ltac:(lia) codec_nx). Qed.
Print Assumptions C102_nexus.
Theorem C102_router : forall s m, (v ← of_wire s; d_rt v) = Some m -> proper_rt m.
Proof. exact (text_proper _ _ _ 4 ltac:(lia) codec_rt). Qed.
Print Assumptions C102_router.
Theorem C102_prover : forall s m, (v ← of_wire s; d_pr v) = Some m -> proper_pr m.
Proof. exact (text_proper _ _ _ 4 ltac:(lia) codec_pr). Qed.
Print Assumptions C102_prover.
Theorem C102_registry : forall s m, (v ← of_wire s; d_sr v) = Some m -> proper_sr m.
Proof. exact (text_proper _ _ _ 4 ltac:(lia) codec_sr). Qed.
Print Assumptions C102_registry.
Example C102_read : rt_call "admin" (wx_freeze "Sui" "Incoming") = Some (FreezeChain "admin" "sui" DIncoming) /\
  rt_call "admin" (wx_freeze "a:b" "Incoming") = None /\ rt_call "admin" (wx_freeze "sui" "incoming") = None.
Proof. split; [|split]; vm_compute; reflexivity. Qed.

(** What a text is read as, its contract would write almost like that: with
    exactly those members, but in any order, and with names in small letters
    and numbers without zeros before them. So a text with a member that does
    not belong there, at any depth, with a member twice or without a member is
    refused. *)
Theorem C102_shape : forall t v, of_wire t = Some v ->
  (forall m, d_vv v = Some m -> fits v (e_vv m)) /\ (forall m, d_ms v = Some m -> plain_ms m -> fits v (e_ms m)) /\
  (forall m, d_rw v = Some m -> fits v (e_rw m)) /\ (forall m, d_gw v = Some m -> fits v (e_gw m)) /\
  (forall m, d_nx v = Some m -> plain_nx m -> fits v (e_nx m)) /\ (forall m, d_rt v = Some m -> fits v (e_rt m)) /\
  (forall m, d_pr v = Some m -> fits v (e_pr m)) /\ (forall m, d_sr v = Some m -> fits v (e_sr m)) /\
  (forall ms, d_ag v = Some ms -> fits v (e_ag ms)).
Proof. exact shape_of. Qed.
Print Assumptions C102_shape.
Example C102_members : is_Some (rt_call "admin" wz_straight) /\ is_Some (of_wire wz_more) /\ rt_call "admin" wz_more = None /\
  is_Some (of_wire wz_twice) /\ rt_call "admin" wz_twice = None /\ is_Some (vv_call 5 "x" (fun _ _ _ => None) (wz_number "+007")).
Proof. vm_compute. repeat split; eauto. Qed.

(** In any history of texts, every call a contract of the system served was
    understood, and proper; also those that other contracts made. *)
Theorem C102_system : forall keccak wshash sec1 crypto d ts t l k,
  (t, l) ∈ wsyslog keccak wshash sec1 crypto d ts -> k ∈ l -> is_Some (d !! wb_to (wk_sub k)) ->
  exists b, understood (wb_text (wk_sub k)) = Some b /\ proper_body b.
Proof. exact c102_system. Qed.
Print Assumptions C102_system.
Example C102_served : length wx_all = 44%nat /\
  wx_count (wsyslog ex_keccak ex_wshash ex_sec1 ex_crypto sys_dep wx_all) = (39%nat, 54%nat).
Proof. split; [exact (proj1 wx_counts)|exact (proj1 (proj2 wx_counts))]. Qed.

(** So what the theorems about rewards ask of the calls always holds. *)
Theorem C102_valid_rewards : forall keccak wshash sec1 crypto d ts R, Forall proper_tx ts -> is_Some (d !! R) ->
  Forall valid_rop (rewards_ops R ((read_entry d <$> wsyslog keccak wshash sec1 crypto d ts) ≫= snd)).
Proof. exact history_rewards. Qed.
Print Assumptions C102_valid_rewards.
(** And what those about messages ask. *)
Theorem C102_messages : forall m, proper_message m -> wf_message m.
Proof. exact proper_message_wf. Qed.
Print Assumptions C102_messages.

(** The type of the rewards per epoch promises that they are not zero, and any
    other code that makes such a value checks it; a text can say zero. *)
Theorem C102_zero_rewards_refuted : exists keccak wshash sec1 crypto d ts text,
  rw_call 400 "gov" [] text = Some (UpdateParams 400 "gov" {| rp_duration := 100; rp_rewards := 0; rp_threshold := {| t_num := 1; t_den := 2 |} |}) /\
  proper_deployment d /\ Forall proper_tx ts /\
  exists s s', wsysrun keccak wshash sec1 crypto d ts !! "rewards" = Some (CRewards s) /\ rp_rewards (r_params s) = 60 /\
    wsysrun keccak wshash sec1 crypto d (ts ++ [wx_text "gov" "rewards" text]) !! "rewards" = Some (CRewards s') /\ rp_rewards (r_params s') = 0.
Proof.
  exists ex_keccak, ex_wshash, ex_sec1, ex_crypto, sys_dep, wx_all, wx_no_rewards.
  split; [vm_compute; reflexivity|]. split; [exact wx_deployment|]. split; [exact wx_proper|].
  destruct wx_zero as [H1 H2]. apply wx_params_is in H1 as (s & H1 & E1). apply wx_params_is in H2 as (s' & H2 & E2).
  exists s, s'. split; [exact H1|]. split; [exact E1|]. split; [exact H2|exact E2].
Qed.
Print Assumptions C102_zero_rewards_refuted.

(** ** C103: what is sent is what is received *)
Theorem C103_verifier : forall m, proper_vv m -> (v ← of_wire (to_json (e_vv m)); d_vv v) = Some m.
Proof. exact (text_heard _ _ _ 6 ltac:(lia) codec_vv). Qed.
Print Assumptions C103_verifier.
Theorem C103_multisig : forall m, proper_ms m -> (v ← of_wire (to_json (e_ms m)); d_ms v) = Some m.
Proof. exact (text_heard _ _ _ 6 ltac:(lia) codec_ms). Qed.
Print Assumptions C103_multisig.
Theorem C103_rewards : forall m, proper_rw m -> (v ← of_wire (to_json (e_rw m)); d_rw v) = Some m.
Proof. exact (text_heard _ _ _ 5 ltac:(lia) codec_rw). Qed.
Print Assumptions C103_rewards.
Theorem C103_gateway : forall m, proper_gw m -> (v ← of_wire (to_json (e_gw m)); d_gw v) = Some m.
Proof. exact (text_heard _ _ _ 4 ltac:(lia) codec_gw). Qed.
Print Assumptions C103_gateway.
Theorem C103_aggregate : forall ms, Forall proper_message ms -> ag_call (to_json (e_ag ms)) = Some ms.
Proof. exact (text_heard _ _ _ 5 ltac:(lia) codec_ag). Qed.
Print Assumptions C103_aggregate.
Theorem C103_nexus : forall m, proper_nx m -> (v ← of_wire (to_json (e_nx m)); d_nx v) = Some m.
Proof. exact (text_heard _ _ _ 4 ltac:(lia) codec_nx). Qed.
Print Assumptions C103_nexus.
Theorem C103_router : forall m, proper_rt m -> (v ← of_wire (to_json (e_rt m)); d_rt v) = Some m.
Proof. exact (text_heard _ _ _ 4 ltac:(lia) codec_rt). Qed.
Print Assumptions C103_router.
Theorem C103_prover : forall m, proper_pr m -> (v ← of_wire (to_json (e_pr m)); d_pr v) = Some m.
Proof. exact (text_heard _ _ _ 4 ltac:(lia) codec_pr). Qed.
Print Assumptions C103_prover.
Theorem C103_registry : forall m, proper_sr m -> (v ← of_wire (to_json (e_sr m)); d_sr v) = Some m.
Proof. exact (text_heard _ _ _ 4 ltac:(lia) codec_sr). Qed.
Print Assumptions C103_registry.

(** The texts, letter by letter, of all messages that contracts and daemons
    write. *)
Theorem C103_texts :
  (forall m, to_json (e_vv m) = t_vv m) /\ (forall m, to_json (e_ms m) = t_ms m) /\ (forall m, to_json (e_rw m) = t_rw m) /\
  (forall m, to_json (e_gw m) = t_gw m) /\ (forall m, to_json (e_nx m) = t_nx m) /\ (forall m, to_json (e_rt m) = t_rt m) /\
  (forall m, to_json (e_pr m) = t_pr m) /\ (forall m, to_json (e_sr m) = t_sr m) /\
  (forall ms, to_json (e_ag ms) = fill "{'verify_messages':{'messages':%}}" [t_messages ms]) /\
  (forall n, to_json (e_nmessage n) = t_nmessage n) /\
  (forall id vs, tx_text (BodyVote id vs) = t_vv (VvVote id vs)) /\ (forall id sg, tx_text (BodySignature id sg) = t_ms (MsSubmit id sg)).
Proof. exact exact_texts. Qed.
Print Assumptions C103_texts.
Example C103_letters : t_rt (RtmFreeze "sui" DIncoming) = wz_straight /\ to_json (e_rt (RtmFreeze "sui" DIncoming)) = wz_straight.
Proof. split; vm_compute; reflexivity. Qed.
(** The order in which the members of objects are given does not matter. *)
Theorem C103_order : forall t t' v v', of_wire t = Some v -> of_wire t' = Some v' -> same v v' ->
  (forall a, rt_call a t = rt_call a t') /\ (forall a ans, gw_call a ans t = gw_call a ans t') /\ (forall a, nx_call a t = nx_call a t') /\
  (forall h a reg, vv_call h a reg t = vv_call h a reg t') /\ (forall h a funds, rw_call h a funds t = rw_call h a funds t') /\
  (forall h a funds, sr_call h a funds t = sr_call h a funds t') /\ (forall h a, ms_call h a t = ms_call h a t') /\
  pr_call t = pr_call t' /\ ag_call t = ag_call t'.
Proof. exact order_free. Qed.
Print Assumptions C103_order.
Example C103_turned : exists v v', of_wire wz_turned = Some v /\ of_wire wz_straight = Some v' /\ same v v' /\ v <> v' /\
  rt_call "admin" wz_turned = Some (FreezeChain "admin" "sui" DIncoming).
Proof.
  eexists _, _. split; [vm_compute; reflexivity|]. split; [vm_compute; reflexivity|]. split; [|split; [discriminate|vm_compute; reflexivity]].
  eapply same_object; [repeat constructor; set_solver|constructor; [|constructor]|reflexivity].
  eapply same_object; [repeat constructor; set_solver|apply same_member; [apply same_value|]; apply same_member; [apply same_value|]; apply same_none|].
  apply perm_swap.
Qed.

(** Different messages, of whatever contracts, are different texts. *)
Theorem C103_apart : forall b b', proper_body b -> proper_body b' -> to_json (e_body b) = to_json (e_body b') -> b = b'.
Proof. exact texts_apart. Qed.
Print Assumptions C103_apart.
(** No text means one thing to one contract and another thing to another: each
    takes it for the one message it is, or has no such message. *)
Theorem C103_one_meaning : forall t,
  (forall a, rt_call a t = (b ← understood t; router_op a b)) /\
  (forall a ans, gw_call a ans t = (b ← understood t; gateway_op ans a b)) /\
  (forall a, nx_call a t = (b ← understood t; nexus_op a b)) /\
  (forall h a reg, vv_call h a reg t = (b ← understood t; verifier_op h reg a b)) /\
  (forall h a funds, rw_call h a funds t = (b ← understood t; rewards_op h a funds b)) /\
  (forall h a funds, sr_call h a funds t = (b ← understood t; registry_op h a funds b)) /\
  (forall h a, ms_call h a t = (b ← understood t; multisig_op h a b)) /\
  pr_call t = (b ← understood t; match b with BProver c => Some c | _ => None end).
Proof. exact one_meaning. Qed.
Print Assumptions C103_one_meaning.

(** A whole history of texts does what the history of the messages does: the
    same state, the same calls, the same failures. *)
Theorem C103_system : forall keccak wshash sec1 crypto d ts, proper_deployment d -> Forall proper_tx ts ->
  wsysrun keccak wshash sec1 crypto d ts = sysrun keccak wshash sec1 crypto d (read_tx d <$> ts) /\
  read_entry d <$> wsyslog keccak wshash sec1 crypto d ts = syslog keccak wshash sec1 crypto d (read_tx d <$> ts).
Proof. exact c103_system. Qed.
Print Assumptions C103_system.
(** So whatever is true of all histories of messages is true of all histories of texts. *)
Theorem C103_transfer : forall keccak wshash sec1 crypto d (P : chain -> list (tx * list call) -> Prop), proper_deployment d ->
  (forall ts, P (sysrun keccak wshash sec1 crypto d ts) (syslog keccak wshash sec1 crypto d ts)) ->
  forall ts, Forall proper_tx ts ->
    P (wsysrun keccak wshash sec1 crypto d ts) (read_entry d <$> wsyslog keccak wshash sec1 crypto d ts).
Proof. exact c103_transfer. Qed.
Print Assumptions C103_transfer.
Example C103_history : proper_deployment sys_dep /\ Forall proper_tx wx_all /\
  wx_frozen (wsysrun ex_keccak ex_wshash ex_sec1 ex_crypto sys_dep (wx_tx <$> sys_all)) = Some false /\
  wx_frozen (wsysrun ex_keccak ex_wshash ex_sec1 ex_crypto sys_dep wx_all) = Some true.
Proof. split; [exact wx_deployment|]. split; [exact wx_proper|]. exact (proj2 (proj2 wx_counts)). Qed.

(** What a daemon sends is the vote or the signature it decided on. *)
Theorem C103_daemon : forall acc b58 de_key worker c v ev tx, handle acc b58 de_key worker c v ev = Ok (Some tx) ->
  match wt_body tx with
  | BodyVote p vs => forall h reg, vv_call h worker reg (tx_text (wt_body tx)) = Some (Vote h worker p vs)
  | BodySignature s sg => forall h, ms_call h worker (tx_text (wt_body tx)) = Some (SubmitSignature h worker s sg)
  end.
Proof. exact daemon_heard. Qed.
Print Assumptions C103_daemon.
Example C103_vote : handle hx_acc hs_b58 hm_key "w1" (EvmMsgVerifier "verifier" "Eth") (dx_calls 5 []) hx_poll = Ok (Some (dx_vote "w1")) /\
  tx_text (wt_body (dx_vote "w1")) = "{""vote"":{""poll_id"":""7"",""votes"":[""succeeded_on_chain"",""not_found""]}}".
Proof. split; vm_compute; reflexivity. Qed.
(** The same for the commands a worker gives. *)
Theorem C103_commands : forall account cf key c a m, command_msg account cf key c = Ok (a, m) -> proper_command key c ->
  understood (wb_text (write m)) = Some (sb_body m).
Proof. exact command_heard. Qed.
Print Assumptions C103_commands.
Example C103_joins : exists m, command_msg dx_account dx_cf dx_dave CmdRegisterKey = Ok ("dave", m) /\ proper_command dx_dave CmdRegisterKey.
Proof. eexists. split; [vm_compute; reflexivity|]. left. reflexivity. Qed.
(** And for what the nexus gateway hands to the nexus module. *)
Theorem C103_to_nexus : forall s a ms s' ns, Forall proper_message ms -> nexus_step s (NxRouteMessages a ms) = Ok (s', NxToNexus ns) ->
  Forall (fun n => (v ← of_wire (to_json (e_nmessage n)); d_nmessage v) = Some n) ns.
Proof. exact nexus_heard. Qed.
Print Assumptions C103_to_nexus.
Example C103_handed : let m := {| m_cc := {| cc_chain := "ethereum"; cc_id := "0xab:5" |}; m_src := "0x1"; m_dchain := "avalanche"; m_daddr := "0x2";
                                  m_hash := repeat_char 32 "h" |} in
  exists s s' n, nexus_step s (NxRouteMessages "router" [m]) = Ok (s', NxToNexus [n]) /\ Forall proper_message [m] /\ n_index n = 5.
Proof.
  exists (nexus_init {| nc_nexus := "nexus"; nc_router := "router" |}). eexists _, _. split; [reflexivity|]. split; [|vm_compute; reflexivity].
  constructor; [|constructor]. vm_compute. repeat split; discriminate.
Qed.
