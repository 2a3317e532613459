(** A concrete history of a Sui verifier with its workers. *)
From Verif Require Import Base BaseLemmas Text TextLemmas StdModel StdSpec RouterTypes RegistryTypes MultisigTypes OperatorsModel EncodingModel
  VerifierModel VerifierSpec VerifierExamples EventsModel HandlersModel HandlersSpec HandlersProofs HandlersProofs2 HandlersProofs3
  WorkersSpec HandlersExamples WorkersExamples SuiWorkersSpec.

Definition sw_vcfg : vconfig :=
  {| vc_registry := "registry"; vc_service := "validators"; vc_gateway := "0x" +:+ to_hex hs_gw;
     vc_threshold := {| t_num := 2; t_den := 3 |}; vc_expiry := 10; vc_confirmations := 1;
     vc_chain := "sui"; vc_rewards := "rewards" |}.
Lemma sw_valid : valid_vconfig sw_vcfg.
Proof. exists 2, 3, {| t_num := 2; t_den := 3 |}. split; by vm_compute. Qed.
Definition sw_msg (i : string) : message :=
  {| m_cc := {| cc_chain := "sui"; cc_id := "digest1:" +:+ i |}; m_src := to_hex hs_src;
     m_dchain := "avax"; m_daddr := "0xdest"; m_hash := hx_hash |}.

(** w1 and w2 run ampd on the node of HandlersExamples.v, w3 votes as it likes;
    event 3 of the transaction is a call, event 9 does not exist. *)
Definition sw_history : list vop :=
  [ VerifyMessages 5 ex_reg [sw_msg "3"; sw_msg "9"];
    Vote 6 "w1" 1 [SucceededOnChain; NotFound];
    Vote 6 "w3" 1 [SucceededOnChain; SucceededOnChain];
    Vote 7 "w2" 1 [SucceededOnChain; NotFound];
    EndPoll 20 1;
    VerifyWorkerSet 21 ex_reg "digest1:4" hx_operators;
    Vote 22 "w1" 2 [SucceededOnChain];
    Vote 22 "w2" 2 [SucceededOnChain] ].
Notation sw_log := (vlog wx_key sw_vcfg sw_history).

Lemma sw_outcome :
  message_status wx_key (vrun wx_key sw_vcfg sw_history) (sw_msg "3") = Ok Verified /\
  message_status wx_key (vrun wx_key sw_vcfg sw_history) (sw_msg "9") <> Ok Verified /\
  worker_set_status wx_key (vrun wx_key sw_vcfg sw_history) hx_operators = Ok Verified.
Proof. split; [vm_compute; reflexivity|]. split; [by vm_compute|vm_compute; reflexivity]. Qed.

Lemma sw_follow :
  Forall (follows_ampd_sui hx_acc hs_b58 hx_json "sui verifier" (OtherChain "sui") (fun rpc => rpc = hs_node) sw_log) ["w1"; "w2"].
Proof.
  assert (H : forall a, a = "w1" \/ a = "w2" ->
    follows_ampd_sui hx_acc hs_b58 hx_json "sui verifier" (OtherChain "sui") (fun rpc => rpc = hs_node) sw_log a).
  { intros a Ha h id ballot out Hin.
    assert (Hv : (a, id, ballot) ∈ omap (fun e => match e.1 with Vote _ a id b => Some (a, id, b) | _ => None end) sw_log).
    { apply elem_of_list_omap. by exists (Vote h a id ballot, out). }
    assert (Hvs : omap (fun e => match e.1 with Vote _ a id b => Some (a, id, b) | _ => None end) sw_log =
      [("w1", 1, [SucceededOnChain; NotFound]); ("w3", 1, [SucceededOnChain; SucceededOnChain]);
       ("w2", 1, [SucceededOnChain; NotFound]); ("w1", 2, [SucceededOnChain]); ("w2", 2, [SucceededOnChain])])
      by (vm_compute; reflexivity).
    rewrite Hvs in Hv. clear Hvs Hin.
    rewrite !elem_of_cons, elem_of_nil in Hv.
    destruct Hv as [Hv|[Hv|[Hv|[Hv|[Hv|[]]]]]]; injection Hv as -> -> ->.
    - eexists _, _, 6, true, hs_node. split; [wx_pick 0%nat|]. split; [reflexivity|]. split; [done|].
      left. vm_compute. reflexivity.
    - by destruct Ha.
    - eexists _, _, 6, true, hs_node. split; [wx_pick 0%nat|]. split; [reflexivity|]. split; [done|].
      left. vm_compute. reflexivity.
    - eexists _, _, 21, true, hs_node. split; [wx_pick 5%nat|]. split; [reflexivity|]. split; [done|].
      right. vm_compute. reflexivity.
    - eexists _, _, 21, true, hs_node. split; [wx_pick 5%nat|]. split; [reflexivity|]. split; [done|].
      right. vm_compute. reflexivity. }
  repeat constructor; apply H; auto.
Qed.

Lemma sw_trusted : mostly_trusted sw_vcfg sw_log ["w1"; "w2"].
Proof.
  intros e id expires workers subj He Ho.
  assert (Hw : workers = [ex_worker "w1"; ex_worker "w2"; ex_worker "w3"]).
  { assert (Hall : Forall (fun e => match e.1 with
      | VerifyMessages _ r _ | VerifyWorkerSet _ r _ _ => forall a b c, r a b c = Some [ex_worker "w1"; ex_worker "w2"; ex_worker "w3"]
      | _ => True end) sw_log).
    { apply Forall_forall. intros [op out] Hx. apply log_elem in Hx as (o1 & o2 & s' & Hh' & _). cbn [fst].
      assert (Hh : op ∈ sw_history) by (rewrite Hh'; apply elem_of_app; right; left). clear Hh'.
      unfold sw_history in Hh. rewrite !elem_of_cons, elem_of_nil in Hh.
      destruct Hh as [->|[->|[->|[->|[->|[->|[->|[->|[]]]]]]]]]; done. }
    rewrite Forall_forall in Hall. specialize (Hall _ He). destruct e as [op o]. clear He.
    unfold opens in Ho. destruct op as [h r ms|h r mid o'| |]; cbn [fst] in Hall; [| |done..].
    - destruct o as [st [[es meta]|]| | |]; try done.
      destruct Ho as (_ & _ & _ & _ & _ & _ & _ & Ho & _). rewrite Hall in Ho. by injection Ho.
    - destruct o as [ | tx i o2 meta| |]; try done.
      destruct Ho as (_ & _ & _ & _ & _ & _ & _ & Ho & _). rewrite Hall in Ho. by injection Ho. }
  subst workers. vm_compute. reflexivity.
Qed.

(** The prover's set: its keys are the operators. *)
Definition sw_ws : worker_set :=
  {| ws_signers := {[ "w1" := {| sg_addr := "w1"; sg_weight := 3; sg_key := {| pk_type := KEcdsa; pk_bytes := hx_op |} |} ]};
     ws_threshold := 2; ws_created := 1 |}.
Lemma sw_prover :
  make_operators wx_keccak wx_sec1 Bcs sw_ws = Ok hx_operators /\ is_ok (bcs_transfer_params sw_ws) = true.
Proof. split; vm_compute; reflexivity. Qed.
