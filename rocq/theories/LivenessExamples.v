(** Concrete histories for the statements that something does happen. *)
From stdpp Require Import sorting.
From Verif Require Import Base BaseLemmas Text StdModel StdSpec RegistryTypes RouterTypes MultisigTypes OperatorsModel
  MultisigModel MultisigExamples EncodingModel EncodingSpec EncodingExamples ProverModel ProverSpec ProverProofs ProverProofs3
  VerifierModel VerifierSpec VerifierProofs VerifierExamples LivenessSpec.
From Verif Require ProverExamples.

Definition lx_k : string -> string := fun x => x.
Definition lx_request : vop := VerifyMessages 5 ex_reg [ex_m1; ex_m2].
Definition lx_later : list vop := List.tl ex_history.
(** a request accepted first, with its answer *)
Definition lx_opened (req : vop) : vstate * (list (ccid * bool) * list tx_event * poll_metadata) :=
  match verifier_step lx_k (verifier_init ex_cfg) req with
  | Ok (s, OutVerify sts (Some (es, meta))) => (s, (sts, es, meta))
  | _ => (verifier_init ex_cfg, ([], [], {| pm_poll_id := 0; pm_chain := ""; pm_gateway := ""; pm_confirmations := 0;
                                            pm_expires_at := 0; pm_participants := [] |}))
  end.
Definition lx_workers : list worker := [ex_worker "w1"; ex_worker "w2"; ex_worker "w3"].
Definition voted_for (l : list (vop * vout)) (a : addr) : bool :=
  existsb (fun e => match e with
    | (Vote h b 1 (SucceededOnChain :: _), _) => bool_decide (a = b) && (h <? 15)
    | _ => false
    end) l.
Lemma lx_vouched_iff l voters : NoDup voters -> (forall a, a ∈ voters -> a ∈ ["w1"; "w2"; "w3"]) -> length voters = 2%nat ->
  forallb (voted_for l) voters = true -> vouched (vc_threshold ex_cfg) l 1 15 lx_workers 0.
Proof.
  intros Hd Hin Hlen Hv. exists voters. split; [done|]. split; [|by rewrite Hlen].
  intros a Ha. split; [by apply Hin|]. rewrite forallb_forall in Hv.
  apply elem_of_list_In in Ha. apply Hv, existsb_exists in Ha as ([op o] & Hl & Hop).
  destruct op as [| |h b id ballot|]; try done.
  destruct (decide (id = 1)) as [->|Hne]; [|destruct id as [|[ | |]]; done].
  destruct ballot as [|[]]; try done. apply andb_true_iff in Hop as [->%bool_decide_eq_true Hh].
  exists h, (SucceededOnChain :: ballot), o. split; [by apply elem_of_list_In|]. split; [by apply N.ltb_lt|done].
Qed.

Lemma lx_vouched : exists s' sts es meta,
  verifier_step lx_k (vrun lx_k ex_cfg []) lx_request = Ok (s', OutVerify sts (Some (es, meta))) /\
  ex_reg (vc_registry ex_cfg) (vc_service ex_cfg) (vc_chain ex_cfg) = Some lx_workers /\
  List.filter (wants_poll lx_k (vrun lx_k ex_cfg [])) [ex_m1; ex_m2] = [ex_m1; ex_m2] /\
  message_key lx_k ex_m1 <> message_key lx_k ex_m2 /\
  in_order lx_later /\
  vouched (vc_threshold ex_cfg) (log (verifier_step lx_k) s' lx_later) (pm_poll_id meta) (5 + vc_expiry ex_cfg) lx_workers 0.
Proof.
  exists (lx_opened lx_request).1, (lx_opened lx_request).2.1.1, (lx_opened lx_request).2.1.2, (lx_opened lx_request).2.2.
  split; [vm_compute; reflexivity|]. split; [done|]. split; [vm_compute; reflexivity|].
  split; [intros H; vm_compute in H; discriminate H|]. split.
  { repeat constructor; vm_compute; discriminate. }
  replace (pm_poll_id _) with 1 by (vm_compute; reflexivity).
  apply (lx_vouched_iff _ ["w1"; "w2"]); [apply (bool_decide_eq_true_1 _); by vm_compute| |done|vm_compute; reflexivity].
  intros a. rewrite !elem_of_cons, elem_of_nil. tauto.
Qed.

(** a poll: who may still vote and when it may be ended *)
Definition lx_first : list vop := firstn 2 ex_history.
Lemma lx_votes :
  is_ok (verifier_step lx_k (vrun lx_k ex_cfg lx_first) (Vote 14 "w2" 1 [NotFound; NotFound])) = true /\
  is_ok (verifier_step lx_k (vrun lx_k ex_cfg lx_first) (Vote 15 "w2" 1 [NotFound; NotFound])) = false /\
  is_ok (verifier_step lx_k (vrun lx_k ex_cfg lx_first) (Vote 14 "w2" 1 [NotFound])) = false /\
  is_ok (verifier_step lx_k (vrun lx_k ex_cfg lx_first) (Vote 14 "w1" 1 [NotFound; NotFound])) = false /\
  is_ok (verifier_step lx_k (vrun lx_k ex_cfg lx_first) (Vote 14 "w4" 1 [NotFound; NotFound])) = false /\
  is_ok (verifier_step lx_k (vrun lx_k ex_cfg lx_first) (EndPoll 14 1)) = false /\
  is_ok (verifier_step lx_k (vrun lx_k ex_cfg lx_first) (EndPoll 15 1)) = true /\
  exists e l2, vlog lx_k ex_cfg lx_first = [] ++ e :: l2 /\
    opens ex_cfg e 1 15 lx_workers (OnMessages [ex_m1; ex_m2]).
Proof.
  do 7 (split; [vm_compute; reflexivity|]).
  destruct (vlog lx_k ex_cfg lx_first) as [|e l2] eqn:E; [by vm_compute in E|].
  exists e, l2. split; [done|]. vm_compute in E. injection E as <- <-. cbn. split_and!; try done.
  exists [ex_m1; ex_m2]. split_and!; [done|done|]. repeat constructor.
Qed.

(** The same message twice in one request: the votes on the first one do not
    count. *)
Definition lx_twice : vop := VerifyMessages 5 ex_reg [ex_m1; ex_m1].
Definition lx_twice_votes : list vop :=
  [Vote 6 "w1" 1 [SucceededOnChain; NotFound]; Vote 7 "w2" 1 [SucceededOnChain; NotFound];
   Vote 8 "w3" 1 [SucceededOnChain; NotFound]; EndPoll 20 1].
Lemma c88_duplicate : exists cfg req h reg ms s' sts es meta workers later m,
  req = VerifyMessages h reg ms /\ valid_vconfig cfg /\
  verifier_step lx_k (vrun lx_k cfg []) req = Ok (s', OutVerify sts (Some (es, meta))) /\
  reg (vc_registry cfg) (vc_service cfg) (vc_chain cfg) = Some workers /\
  List.filter (wants_poll lx_k (vrun lx_k cfg [])) ms !! 0%nat = Some m /\ in_order later /\
  vouched (vc_threshold cfg) (log (verifier_step lx_k) s' later) (pm_poll_id meta) (h + vc_expiry cfg) workers 0 /\
  message_status lx_k (vrun lx_k cfg (req :: later)) m = Ok FailedToVerify.
Proof.
  exists ex_cfg, lx_twice, 5, ex_reg, [ex_m1; ex_m1].
  exists (lx_opened lx_twice).1, (lx_opened lx_twice).2.1.1, (lx_opened lx_twice).2.1.2, (lx_opened lx_twice).2.2.
  exists lx_workers, lx_twice_votes, ex_m1.
  split; [done|]. split; [exact ex_valid|]. split; [vm_compute; reflexivity|]. split; [done|]. split; [vm_compute; reflexivity|].
  split. { repeat constructor; vm_compute; discriminate. }
  split; [|vm_compute; reflexivity].
  replace (pm_poll_id _) with 1 by (vm_compute; reflexivity).
  apply (lx_vouched_iff _ ["w1"; "w2"]); [apply (bool_decide_eq_true_1 _); by vm_compute| |done|vm_compute; reflexivity].
  intros a. rewrite !elem_of_cons, elem_of_nil. tauto.
Qed.

(** *** The prover *)
Import ProverExamples.

(** the sessions of the history, a pending and a completed one *)
Lemma lx_session e : exists bid, session_batch (ex_plog e (ex_prover_ops e)) 1 = Some bid.
Proof. destruct e; eexists; vm_compute; reflexivity. Qed.
Lemma lx_answer : mu_state (ex_answer 320) = MCompleted 20 /\ weight_of (signed (mu_signers (ex_answer 320))) < U256 /\
  mu_quorum (ex_answer 320) < U128 /\ Forall (fun x => sg_weight x.1 < U128) (mu_signers (ex_answer 320)) /\
  N.of_nat (length (mu_signers (ex_answer 320))) <= 2 ^ 20 /\
  Forall (fun x => slen (pk_bytes (sg_key x.1)) <= 65 /\ forall sig, x.2 = Some sig -> slen (sig_bytes sig) <= 65)
    (mu_signers (ex_answer 320)) /\
  Forall (fun x => is_Some (ex_sec1 (pk_bytes (sg_key x.1)))) (mu_signers (ex_answer 320)).
Proof.
  split; [done|]. split; [by vm_compute|]. split; [by vm_compute|]. split.
  { unfold ex_answer. cbn [mu_signers]. repeat (apply List.Forall_cons; [by vm_compute|]). apply List.Forall_nil. }
  split; [by vm_compute|]. split; unfold ex_answer; cbn [mu_signers].
  - repeat (apply List.Forall_cons; [split; [by vm_compute|]; intros sig H; injection H as <- || discriminate H; by vm_compute|]).
    apply List.Forall_nil.
  - repeat (apply List.Forall_cons; [eexists; vm_compute; reflexivity|]). apply List.Forall_nil.
Qed.
Definition lx_size_check (id : N) : bool :=
  match get_proof ex_keccak ex_sec1 ex_recover (pcfg Bcs) (ex_prun Bcs (ex_prover_ops Bcs))
          (fun _ => Some {| mu_state := MPending; mu_quorum := 0; mu_signers := [] |}) id with
  | Ok r => match bcs_encode (pr_data r) with Ok e => slen e <=? BCS_MAX | _ => true end
  | _ => true
  end.
Lemma lx_size : lx_size_check 1 = true.
Proof. vm_compute. reflexivity. Qed.

(** Workers "zed" and "zoe" have keys that are no points of the curve; "" has
    none. *)
Definition bad_set : list addr := ["alice"; "zed"; "zoe"].
Definition lx_ops : list pop := firstn 2 (ex_prover_ops Abi).
Definition lx_bad : penv := penv_of Abi 20 bad_set false.
Lemma lx_bad_key : exists cur next,
  sets_after ex_keccak ex_wshash ex_sec1 (pcfg Abi) (ex_plog Abi lx_ops) (Some cur) next /\
  is_active_set (pcfg Abi) lx_bad (set_of Abi 20 bad_set) /\
  pc_diff (pcfg Abi) < differing (set_of Abi 20 bad_set) cur /\
  ws_signers (set_of Abi 20 bad_set) !! "zed" = Some (ex_member "zed" 1 "z") /\
  ex_sec1 (pk_bytes (sg_key (ex_member "zed" 1 "z"))) = None /\
  is_ok (prover_step ex_keccak ex_wshash ex_sec1 (pcfg Abi) (ex_prun Abi lx_ops)
    (p_op (ConstructProof [ev 3]) (penv_of Abi 20 set2 false) (Some 2))) = true /\
  is_ok (prover_step ex_keccak ex_wshash ex_sec1 (pcfg Abi) (ex_prun Abi lx_ops)
    (p_op (ConstructProof [ev 3]) lx_bad (Some 2))) = false.
Proof.
  exists (set_of Abi 10 set1), None. split; [|split; [|split_and!; vm_compute; reflexivity]].
  - pose proof (c46_history ex_keccak ex_wshash ex_sec1 (pcfg Abi) lx_ops) as H.
    replace (pv_current _) with (Some (set_of Abi 10 set1)) in H by (vm_compute; reflexivity).
    replace (pv_next _) with (@None worker_set) in H by (vm_compute; reflexivity).
    exact H.
  - assert (is_ok (make_worker_set (pcfg Abi) lx_bad) = true) as H by (by vm_compute).
    unfold set_of, lx_bad in *. destruct (make_worker_set _ _) eqn:E; [|done..]. by apply make_worker_set_active.
Qed.
Lemma lx_unannounced : may_propose ex_keccak ex_wshash (ex_plog Abi lx_ops) (ConstructProof [ev 3]).
Proof.
  unfold may_propose. intros H. apply announced_iff in H.
  assert (pv_batches (ex_prun Abi lx_ops) !! batch_id ex_keccak ex_wshash [ev 3] None = None) as Hn by (vm_compute; reflexivity).
  destruct H as [b H]. change (prun _ _ _ _ _) with (ex_prun Abi lx_ops) in H. rewrite Hn in H. discriminate H.
Qed.
Definition lx_missing : penv := penv_of Abi 20 ["alice"; "bob"; ""] false.
Lemma lx_no_key :
  pe_active lx_missing (pc_registry (pcfg Abi)) (pc_service (pcfg Abi)) (pc_chain (pcfg Abi)) =
    Some (ProverExamples.ex_worker <$> ["alice"; "bob"; ""]) /\
  pe_key lx_missing (pc_multisig (pcfg Abi)) (w_addr (ProverExamples.ex_worker "")) (pc_key_type (pcfg Abi)) = None.
Proof. done. Qed.
