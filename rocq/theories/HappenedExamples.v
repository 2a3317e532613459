(** A call that two of three workers see gets verified. *)
From Verif Require Import Base BaseLemmas Text TextLemmas StdModel StdSpec RouterTypes RegistryTypes OperatorsModel EncodingModel
  VerifierModel VerifierSpec VerifierExamples LivenessSpec EventsModel HandlersModel HandlersSpec HandlersProofs3 WorkersSpec HandlersExamples
  MonitorExamples ParticipantsSpec ParticipantsExamples HappenedSpec HappenedProofs.

Definition hp_te : tx_event := {| te_tx_id := "0x" +:+ to_hex hx_tx1; te_index := 1; te_daddr := "0xdest"; te_dchain := "avax";
  te_src := "0x" +:+ to_hex hx_src; te_hash := hx_hash |}.
Definition hp_later : list vop := [Vote 41 "w1" 1 [SucceededOnChain]; Vote 42 "w3" 1 [NotFound]; Vote 43 "w2" 1 [SucceededOnChain]].
Definition hp_workers : list worker := [ex_worker "w1"; ex_worker "w2"; ex_worker "w3"].
Definition hp_state : vstate := match verifier_step mx_k (vrun mx_k hx_vcfg []) mx_op with Ok (s, _) => s | _ => vrun mx_k hx_vcfg [] end.
Lemma hp_step : verifier_step mx_k (vrun mx_k hx_vcfg []) mx_op = Ok (hp_state, mx_out).
Proof. destruct mx_step as [s' H]. unfold hp_state. rewrite H. reflexivity. Qed.
Lemma hp_plain : plain_poll hx_acc hx_json {| hc_worker := ""; hc_contract := "verifier"; hc_chain := OtherChain "Eth" |} mx_meta.
Proof.
  split; [done|]. split; [by repeat constructor|]. do 3 (split; [done|]). split; [by vm_compute|]. by repeat split.
Qed.
Lemma hp_form : Forall evm_form [hp_te].
Proof.
  constructor; [|constructor]. split.
  { exists hx_tx1. split; [done|]. right. eexists. split; [reflexivity|apply of_to_hex]. }
  split; [done|]. split; [by vm_compute|]. split; [|done].
  exists hx_src. split; [done|]. right. eexists. split; [reflexivity|apply of_to_hex].
Qed.
Lemma hp_shows : evm_shows (OtherChain "Eth") 5 hx_node (vc_gateway hx_vcfg) hx_m1.
Proof.
  exists hx_tx1, hx_tx1, 1, hx_gw, hx_src, "Avax". split.
  { exists ("0x" +:+ to_hex hx_tx1), "1". split; [vm_compute; reflexivity|]. split; [|vm_compute; reflexivity].
    split; [done|]. right. eexists. split; [reflexivity|apply of_to_hex]. }
  split. { split; [done|]. right. eexists. split; [reflexivity|apply of_to_hex]. }
  split. { split; [done|]. right. eexists. split; [reflexivity|apply of_to_hex]. }
  split; [vm_compute; reflexivity|].
  exists {| r_hash := hx_tx1; r_block := Some 96;
            r_logs := [hx_log 0 hx_tx1 OtherEvent; hx_log 1 hx_tx1 hx_call;
                       hx_log 2 hx_tx1 (OperatorshipTransferred (evm_operators (o_weights hx_operators) 2))] |},
    (hx_log 1 hx_tx1 hx_call), [hx_log 0 hx_tx1 OtherEvent],
    [hx_log 2 hx_tx1 (OperatorshipTransferred (evm_operators (o_weights hx_operators) 2))].
  split; [reflexivity|]. split; [done|]. split. { exists 100. split; [done|]. split; vm_compute; done. }
  split; [reflexivity|]. split; [by repeat constructor|]. done.
Qed.
Lemma hp_part a : a = "w1" \/ a = "w2" ->
  does_its_part "verifier" (OtherChain "Eth") mx_meta (messages_poll_event hx_json "verifier" [hp_te] mx_meta)
    (log (verifier_step mx_k) hp_state hp_later) (evm_msg_handler hx_acc)
    (fun rpc => evm_shows (OtherChain "Eth") 5 rpc (vc_gateway hx_vcfg) hx_m1) a.
Proof.
  intros Ha. exists 40, hx_node, 96. split; [done|]. split; [vm_compute; reflexivity|]. split; [exact hx_honest|]. split; [exact hx_order|].
  split; [exact hp_shows|]. intros ballot Hb.
  assert (ballot = [SucceededOnChain]) as ->.
  { assert (E : evm_msg_handler hx_acc {| hc_worker := a; hc_contract := "verifier"; hc_chain := OtherChain "Eth" |} 40 true hx_node
        (messages_poll_event hx_json "verifier" [hp_te] mx_meta) =
      Ok (Some {| wt_sender := a; wt_contract := "verifier"; wt_body := BodyVote 1 [SucceededOnChain] |})).
    { destruct Ha as [-> | ->]; vm_compute; reflexivity. }
    rewrite E in Hb. by injection Hb as <-. }
  destruct Ha as [-> | ->].
  - eexists 41, _. split; [done|]. eapply (elem_of_list_lookup_2 _ 0%nat). vm_compute. reflexivity.
  - eexists 43, _. split; [done|]. eapply (elem_of_list_lookup_2 _ 2%nat). vm_compute. reflexivity.
Qed.
Lemma hp_verified : message_status mx_k (vrun mx_k hx_vcfg ([] ++ VerifyMessages 40 ex_reg [hx_m1] :: hp_later)) hx_m1 = Ok Verified.
Proof.
  eapply (happened_verified mx_k hx_vcfg [] 40 ex_reg [hx_m1] hp_state _ [hp_te] mx_meta hp_workers hp_later 0 hx_m1 hx_acc hx_json
    "verifier" (OtherChain "Eth") hx_gw ["w1"; "w2"]).
  - exact hx_valid.
  - exact hp_step.
  - reflexivity.
  - vm_compute. reflexivity.
  - intros [|[|j]] m' H _; [lia|vm_compute in H; done|vm_compute in H; done].
  - repeat constructor; by vm_compute.
  - exact hp_plain.
  - split; [done|]. right. eexists. split; [reflexivity|apply of_to_hex].
  - exact hp_form.
  - by vm_compute.
  - apply NoDup_cons. split; [|apply NoDup_singleton]. by rewrite elem_of_list_singleton.
  - intros a Ha. rewrite !elem_of_cons, elem_of_nil in Ha. destruct Ha as [->|[->|[]]]; (split; [|apply hp_part; auto]).
    + apply elem_of_list_here.
    + apply elem_of_list_further, elem_of_list_here.
  - by vm_compute.
Qed.

(** The same for a worker set. *)
Definition hp_id : string := "0x" +:+ to_hex hx_tx1 +:+ ":2".
Definition hp_request : vop := VerifyWorkerSet 40 ex_reg hp_id hx_operators.
Definition hp_out : vout := OutWorkerSet ("0x" +:+ to_hex hx_tx1) 2 hx_operators mx_meta.
Definition hp_state2 : vstate := match verifier_step mx_k (vrun mx_k hx_vcfg []) hp_request with Ok (s, _) => s | _ => vrun mx_k hx_vcfg [] end.
Lemma hp_step2 : verifier_step mx_k (vrun mx_k hx_vcfg []) hp_request = Ok (hp_state2, hp_out).
Proof.
  assert (H : match verifier_step mx_k (vrun mx_k hx_vcfg []) hp_request with Ok (_, o) => o = hp_out | _ => False end) by (vm_compute; reflexivity).
  unfold hp_state2. destruct (verifier_step mx_k (vrun mx_k hx_vcfg []) hp_request) as [[s' o]| |]; [|done..]. by rewrite H.
Qed.
Lemma hp_tx : hex_bytes 32 ("0x" +:+ to_hex hx_tx1) hx_tx1.
Proof. split; [done|]. right. eexists. split; [reflexivity|apply of_to_hex]. Qed.
Lemma hp_shows2 : evm_shows_transfer (OtherChain "Eth") 5 hx_node (vc_gateway hx_vcfg) hp_id hx_operators.
Proof.
  exists hx_tx1, hx_tx1, 2, hx_gw. split.
  { exists ("0x" +:+ to_hex hx_tx1), "2". split; [vm_compute; reflexivity|]. split; [exact hp_tx|vm_compute; reflexivity]. }
  split. { split; [done|]. right. eexists. split; [reflexivity|apply of_to_hex]. }
  exists {| r_hash := hx_tx1; r_block := Some 96;
            r_logs := [hx_log 0 hx_tx1 OtherEvent; hx_log 1 hx_tx1 hx_call;
                       hx_log 2 hx_tx1 (OperatorshipTransferred (evm_operators (o_weights hx_operators) 2))] |},
    (hx_log 2 hx_tx1 (OperatorshipTransferred (evm_operators (o_weights hx_operators) 2))),
    [hx_log 0 hx_tx1 OtherEvent; hx_log 1 hx_tx1 hx_call], [].
  split; [reflexivity|]. split; [done|]. split. { exists 100. split; [done|]. split; vm_compute; done. }
  split; [reflexivity|]. split; [by repeat constructor|]. done.
Qed.
Lemma hp_part2 a : a = "w1" \/ a = "w2" ->
  does_its_part "verifier" (OtherChain "Eth") mx_meta (worker_set_poll_event hx_json "verifier" ("0x" +:+ to_hex hx_tx1) 2 hx_operators mx_meta)
    (log (verifier_step mx_k) hp_state2 hp_later) (evm_ws_handler hx_acc)
    (fun rpc => evm_shows_transfer (OtherChain "Eth") 5 rpc (vc_gateway hx_vcfg) hp_id hx_operators) a.
Proof.
  intros Ha. exists 40, hx_node, 96. split; [done|]. split; [vm_compute; reflexivity|]. split; [exact hx_honest|]. split; [exact hx_order|].
  split; [exact hp_shows2|]. intros ballot Hb.
  assert (ballot = [SucceededOnChain]) as ->.
  { assert (E : evm_ws_handler hx_acc {| hc_worker := a; hc_contract := "verifier"; hc_chain := OtherChain "Eth" |} 40 true hx_node
        (worker_set_poll_event hx_json "verifier" ("0x" +:+ to_hex hx_tx1) 2 hx_operators mx_meta) =
      Ok (Some {| wt_sender := a; wt_contract := "verifier"; wt_body := BodyVote 1 [SucceededOnChain] |})).
    { destruct Ha as [-> | ->]; vm_compute; reflexivity. }
    rewrite E in Hb. by injection Hb as <-. }
  destruct Ha as [-> | ->].
  - eexists 41, _. split; [done|]. eapply (elem_of_list_lookup_2 _ 0%nat). vm_compute. reflexivity.
  - eexists 43, _. split; [done|]. eapply (elem_of_list_lookup_2 _ 2%nat). vm_compute. reflexivity.
Qed.
Lemma hp_verified2 : worker_set_status mx_k (vrun mx_k hx_vcfg ([] ++ hp_request :: hp_later)) hx_operators = Ok Verified.
Proof.
  eapply (happened_verified_set mx_k hx_vcfg [] 40 ex_reg hp_id hx_operators hp_state2 _ _ _ mx_meta hp_workers hp_later hx_acc hx_json
    "verifier" (OtherChain "Eth") hx_gw hx_tx1 ["w1"; "w2"]).
  - exact hx_valid.
  - exact hp_step2.
  - reflexivity.
  - intros h' reg' mid' o' out Hin. apply log_elem in Hin as (o1 & o2 & s' & Hh & _). exfalso.
    assert (Hx : VerifyWorkerSet h' reg' mid' o' ∈ hp_later) by (rewrite Hh; apply elem_of_app; right; left). clear Hh.
    unfold hp_later in Hx. rewrite !elem_of_cons, elem_of_nil in Hx. by destruct Hx as [?|[?|[?|[]]]].
  - exact hp_plain.
  - split; [done|]. right. eexists. split; [reflexivity|apply of_to_hex].
  - apply px_operators.
  - exact hp_tx.
  - done.
  - by vm_compute.
  - apply NoDup_cons. split; [|apply NoDup_singleton]. by rewrite elem_of_list_singleton.
  - intros a Ha. rewrite !elem_of_cons, elem_of_nil in Ha. destruct Ha as [->|[->|[]]]; (split; [|apply hp_part2; auto]).
    + apply elem_of_list_here.
    + apply elem_of_list_further, elem_of_list_here.
  - by vm_compute.
Qed.
