(** Concrete histories of the five contracts over bytes. *)
From Verif Require Import Base BaseLemmas Text StdModel RegistryTypes RouterTypes MultisigTypes OperatorsModel MultisigModel EncodingModel.
From Verif Require Import GatewayModel NexusModel RewardsModel VerifierModel ProverModel StorageModel StorageSpec.
From Verif Require Import Storage2Model Storage2Spec StorageExamples.
From Verif Require GatewayExamples RewardsExamples RewardsSpec VerifierExamples EncodingExamples ProverExamples.
Local Open Scope string_scope.
Local Open Scope N_scope.

(** Routed messages are found under namespace, chain and id; a second message
    with the id of the first took its place. *)
Lemma ex2_gateway :
  Forall gateway_call_ok GatewayExamples.exg_ops /\
  let m := run gateway_bytes_step (gateway_bytes_init GatewayExamples.exg_cfg) GatewayExamples.exg_ops in
  m !! (byte 0 +:+ byte 17 +:+ "outgoing_messages" +:+ byte 0 +:+ byte 3 +:+ "eth" +:+ "2") =
    Some (GvMessage (GatewayExamples.exg_m "eth" "pol" "2")) /\
  m !! (byte 0 +:+ byte 17 +:+ "outgoing_messages" +:+ byte 0 +:+ byte 3 +:+ "eth" +:+ "1") =
    Some (GvMessage (GatewayExamples.exg_m' "eth" "pol" "1")) /\
  m !! "config" = Some (GvConfig GatewayExamples.exg_cfg) /\
  length (map_to_list m) = 3%nat.
Proof. split; [repeat constructor; vm_compute; discriminate|]. cbv zeta. split; [|split; [|split]]; vm_compute; reflexivity. Qed.

Definition ex2_nx : nxconfig := {| nc_nexus := "nexus"; nc_router := "router" |}.
Definition ex2_nx_ops : list nxop :=
  [NxRouteMessages "router" [GatewayExamples.exg_m "eth" "pol" "1"; GatewayExamples.exg_m "eth" "pol" "2"];
   NxRouteMessages "router" [GatewayExamples.exg_m "eth" "pol" "2"; GatewayExamples.exg_m "eth" "pol" "3"];
   NxRouteMessages "somebody" [GatewayExamples.exg_m "eth" "pol" "4"]].
Lemma ex2_nexus :
  Forall nexus_call_ok ex2_nx_ops /\
  let m := run nexus_bytes_step (nexus_bytes_init ex2_nx) ex2_nx_ops in
  m !! (byte 0 +:+ byte 18 +:+ "routed_message_ids" +:+ byte 0 +:+ byte 3 +:+ "eth" +:+ "3") = Some NvRouted /\
  m !! (byte 0 +:+ byte 18 +:+ "routed_message_ids" +:+ byte 0 +:+ byte 3 +:+ "eth" +:+ "4") = None /\
  length (map_to_list m) = 4%nat.
Proof. split; [repeat constructor; vm_compute; discriminate|]. cbv zeta. split; [|split]; vm_compute; reflexivity. Qed.

Definition ex2_rw_ops : list rop := RewardsExamples.exr_ops ++ [Distribute 60 "pool" None].
Lemma ex2_rewards :
  Forall rewards_call_ok ex2_rw_ops /\
  let m := run rewards_bytes_step (rewards_bytes_init "gov" "uaxl" RewardsExamples.exr_params 5) ex2_rw_ops in
  m !! (byte 0 +:+ byte 6 +:+ "events" +:+ byte 0 +:+ byte 5 +:+ "poll3" +:+ "pool") = Some (WvEvent "poll3" "pool" 1) /\
  match m !! (byte 0 +:+ byte 7 +:+ "tallies" +:+ byte 0 +:+ byte 4 +:+ "pool" +:+ u64_key 1) with
  | Some (WvTally t) => ty_count t = 1 /\ ty_part t !! "w3" = Some 1
  | _ => False
  end /\
  match m !! (byte 0 +:+ byte 18 +:+ "rewards_watermarks" +:+ "pool") with Some (WvMark n) => 1 <= n | _ => False end /\
  match m !! (byte 0 +:+ byte 5 +:+ "pools" +:+ "pool") with
  | Some (WvPool c n) => c = "pool" /\ n < 1000 | _ => False end.
Proof.
  split; [repeat constructor; vm_compute; discriminate|]. cbv zeta.
  split; [vm_compute; reflexivity|]. split; [vm_compute; split; reflexivity|].
  split; [vm_compute; discriminate|vm_compute; split; reflexivity].
Qed.

Definition ex2_keccak (s : string) : string := s.
Lemma ex2_verifier :
  Forall verifier_call_ok VerifierExamples.ex_history /\
  let m := run (verifier_bytes_step ex2_keccak) (verifier_bytes_init VerifierExamples.ex_cfg) VerifierExamples.ex_history in
  m !! "poll_id" = Some (VcPollId 1) /\
  match m !! (byte 0 +:+ byte 5 +:+ "polls" +:+ u64_key 1) with
  | Some (VcPoll (MessagesPoll p)) => poll_status_ p = Finished | _ => False end /\
  m !! (byte 0 +:+ byte 13 +:+ "poll_messages" +:+ message_key ex2_keccak VerifierExamples.ex_m2) =
    Some (VcMessage (Build_poll_content VerifierExamples.ex_m2 1 1)) /\
  length (map_to_list m) = 5%nat /\
  (let? a := raw (v_is_verified ex2_keccak [VerifierExamples.ex_m1; VerifierExamples.ex_m2]) m in Ok (snd <$> a.2)) =
    Ok [true; false].
Proof.
  split; [repeat constructor|]. cbv zeta.
  split; [vm_compute; reflexivity|]. split; [vm_compute; reflexivity|]. split; [vm_compute; reflexivity|].
  split; vm_compute; reflexivity.
Qed.

Lemma ex2_prover :
  let ops := ProverExamples.ex_prover_ops Bcs in
  Forall prover_call_ok ops /\
  let m := run (prover_bytes_step EncodingExamples.ex_keccak EncodingExamples.ex_wshash EncodingExamples.ex_sec1)
             (prover_bytes_init (ProverExamples.pcfg Bcs)) ops in
  match m !! "current_worker_set", m !! "next_worker_set", m !! "reply_tracker" with
  | Some (QvSet w), None, Some (QvReply b) =>
      ws_created w = 15 /\ m !! (byte 0 +:+ byte 22 +:+ "multisig_session_batch" +:+ u64_key 4) = Some (QvSession b)
  | _, _, _ => False
  end /\
  length (map_to_list m) = 10%nat.
Proof. cbv zeta. split; [repeat constructor|]. split; [|vm_compute; reflexivity]. vm_compute. split; reflexivity. Qed.
