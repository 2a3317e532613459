(** A concrete history of a verifier with its workers. *)
From Verif Require Import Base BaseLemmas Text TextLemmas StdModel StdSpec RouterTypes RegistryTypes MultisigTypes OperatorsModel EncodingModel
  VerifierModel VerifierSpec VerifierExamples EventsModel HandlersModel HandlersSpec HandlersProofs HandlersProofs2 HandlersProofs3
  WorkersSpec HandlersExamples.

(** Three workers; w1 and w2 run ampd on the node above, w3 votes as it likes. *)
Definition wx_history : list vop :=
  [ VerifyMessages 5 ex_reg [hx_m1; hx_m2];
    Vote 6 "w1" 1 [SucceededOnChain; NotFound];
    Vote 6 "w3" 1 [SucceededOnChain; SucceededOnChain];
    Vote 7 "w2" 1 [SucceededOnChain; NotFound];
    EndPoll 20 1;
    VerifyWorkerSet 21 ex_reg ("0x" +:+ to_hex hx_tx1 +:+ ":2") hx_operators;
    Vote 22 "w1" 2 [SucceededOnChain];
    Vote 22 "w2" 2 [SucceededOnChain] ].
Definition wx_key : string -> string := fun s => s.
Notation wx_log := (vlog wx_key hx_vcfg wx_history).

Lemma wx_outcome :
  message_status wx_key (vrun wx_key hx_vcfg wx_history) hx_m1 = Ok Verified /\
  message_status wx_key (vrun wx_key hx_vcfg wx_history) hx_m2 <> Ok Verified /\
  worker_set_status wx_key (vrun wx_key hx_vcfg wx_history) hx_operators = Ok Verified.
Proof. split; [vm_compute; reflexivity|]. split; [by vm_compute|vm_compute; reflexivity]. Qed.

Lemma wx_length : length wx_log = 8%nat.
Proof. vm_compute. reflexivity. Qed.

Ltac wx_pick i := eapply (elem_of_list_lookup_2 _ i); vm_compute; reflexivity.

Lemma wx_follow :
  Forall (follows_ampd hx_acc hx_json "verifier" (OtherChain "Eth") (fun rpc => rpc = hx_node) wx_log) ["w1"; "w2"].
Proof.
  assert (H : forall a, a = "w1" \/ a = "w2" ->
    follows_ampd hx_acc hx_json "verifier" (OtherChain "Eth") (fun rpc => rpc = hx_node) wx_log a).
  { intros a Ha h id ballot out Hin.
    assert (Hv : (a, id, ballot) ∈ omap (fun e => match e.1 with Vote _ a id b => Some (a, id, b) | _ => None end) wx_log).
    { apply elem_of_list_omap. by exists (Vote h a id ballot, out). }
    assert (Hvs : omap (fun e => match e.1 with Vote _ a id b => Some (a, id, b) | _ => None end) wx_log =
      [("w1", 1, [SucceededOnChain; NotFound]); ("w3", 1, [SucceededOnChain; SucceededOnChain]);
       ("w2", 1, [SucceededOnChain; NotFound]); ("w1", 2, [SucceededOnChain]); ("w2", 2, [SucceededOnChain])])
      by (vm_compute; reflexivity).
    rewrite Hvs in Hv. clear Hvs Hin.
    rewrite !elem_of_cons, elem_of_nil in Hv.
    destruct Hv as [Hv|[Hv|[Hv|[Hv|[Hv|[]]]]]]; injection Hv as -> -> ->.
    - eexists _, _, 6, true, hx_node. split; [wx_pick 0%nat|]. split; [reflexivity|]. split; [done|].
      left. vm_compute. reflexivity.
    - by destruct Ha.
    - eexists _, _, 6, true, hx_node. split; [wx_pick 0%nat|]. split; [reflexivity|]. split; [done|].
      left. vm_compute. reflexivity.
    - eexists _, _, 21, true, hx_node. split; [wx_pick 5%nat|]. split; [reflexivity|]. split; [done|].
      right. vm_compute. reflexivity.
    - eexists _, _, 21, true, hx_node. split; [wx_pick 5%nat|]. split; [reflexivity|]. split; [done|].
      right. vm_compute. reflexivity. }
  repeat constructor; apply H; auto.
Qed.

Lemma wx_trusted : mostly_trusted hx_vcfg wx_log ["w1"; "w2"].
Proof.
  intros e id expires workers subj He Ho.
  assert (Hw : workers = [ex_worker "w1"; ex_worker "w2"; ex_worker "w3"]).
  { assert (Hall : Forall (fun e => match e.1 with
      | VerifyMessages _ r _ | VerifyWorkerSet _ r _ _ => forall a b c, r a b c = Some [ex_worker "w1"; ex_worker "w2"; ex_worker "w3"]
      | _ => True end) wx_log).
    { apply Forall_forall. intros [op out] Hx. apply log_elem in Hx as (o1 & o2 & s' & Hh' & _). cbn [fst].
      assert (Hh : op ∈ wx_history) by (rewrite Hh'; apply elem_of_app; right; left). clear Hh'.
      unfold wx_history in Hh. rewrite !elem_of_cons, elem_of_nil in Hh.
      destruct Hh as [->|[->|[->|[->|[->|[->|[->|[->|[]]]]]]]]]; done. }
    rewrite Forall_forall in Hall. specialize (Hall _ He). destruct e as [op o]. clear He.
    unfold opens in Ho. destruct op as [h r ms|h r mid o'| |]; cbn [fst] in Hall; [| |done..].
    - destruct o as [st [[es meta]|]| | |]; try done.
      destruct Ho as (_ & _ & _ & _ & _ & _ & _ & Ho & _). rewrite Hall in Ho. by injection Ho.
    - destruct o as [ | tx i o2 meta| |]; try done.
      destruct Ho as (_ & _ & _ & _ & _ & _ & _ & Ho & _). rewrite Hall in Ho. by injection Ho. }
  subst workers. vm_compute. reflexivity.
Qed.

(** The prover's set for those operators. *)
Definition wx_keccak : string -> string := fun _ => "twelve bytes" +:+ hx_op.
Definition wx_sec1 : string -> option string := Some.
Definition wx_ws : worker_set :=
  {| ws_signers := {[ "w1" := {| sg_addr := "w1"; sg_weight := 3; sg_key := {| pk_type := KEcdsa; pk_bytes := "key" |} |} ]};
     ws_threshold := 2; ws_created := 1 |}.
Lemma wx_prover :
  make_operators wx_keccak wx_sec1 Abi wx_ws = Ok hx_operators /\
  is_ok (abi_transfer_params wx_keccak wx_sec1 wx_ws) = true /\
  Forall (fun p => p.2 < U256) (o_weights hx_operators) /\ o_threshold hx_operators < U256.
Proof.
  split; [vm_compute; reflexivity|]. split; [vm_compute; reflexivity|].
  split; [|vm_compute; reflexivity]. apply Forall_cons. split; [vm_compute; reflexivity|]. apply Forall_nil. done.
Qed.
