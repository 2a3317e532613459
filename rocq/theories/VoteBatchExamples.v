(** A worker with votes on two polls, one of which expires while they wait. *)
From Verif Require Import Base StdModel RegistryTypes VerifierModel VerifierSpec VerifierExamples LivenessExamples QueueModel VoteBatchModel VoteBatchProofs.

(** Poll 1 expires at 15, poll 2 at 22; one of three workers voted on poll 2. *)
Definition vb_ops : list vop := [VerifyMessages 5 ex_reg [ex_m1]; VerifyMessages 12 ex_reg [ex_m2]; Vote 13 "w2" 2 [SucceededOnChain]].
Definition vb_chain : chain := {| ch_state := vrun lx_k ex_cfg vb_ops; ch_requests := 0 |}.
Definition vb_height (late : N) (n : nat) : N := match n with 0%nat | 1%nat => 14 | _ => late end.
Definition vb_queue : list (input ballot) := [QMsg (1, [SucceededOnChain]); QMsg (2, [SucceededOnChain]); QTick].
Definition vb_run (late : N) :=
  qrun (chain_estimate lx_k "w1" (fun _ => 100) (fun _ => []) (vb_height late)) (chain_broadcast lx_k "w1" (fun _ => []) (vb_height late))
    1000 vb_chain vb_queue.

Lemma vb_accepted :
  is_Some (tx_run (verifier_step lx_k) (vrun lx_k ex_cfg vb_ops) (cast 14 "w1" <$> [(1, [SucceededOnChain]); (2, [SucceededOnChain])])) /\
  ~ is_Some (tx_run (verifier_step lx_k) (vrun lx_k ex_cfg vb_ops) (cast 14 "w1" <$> [(1, [SucceededOnChain]); (1, [SucceededOnChain])])).
Proof.
  rewrite !batch_iff. split.
  - split; [|rewrite !Forall_cons, Forall_nil; split_and!; [vm_compute; reflexivity|vm_compute; reflexivity|exact I]].
    change (NoDup [1; 2]). apply NoDup_cons. split; [|apply NoDup_singleton].
    by rewrite elem_of_list_singleton.
  - intros [H _]. change (NoDup [1; 1]) in H. apply NoDup_cons in H as [H _]. apply H. left.
Qed.
Lemma vb_in_time : (vb_run 14).2 = Running mq_new /\
  message_status lx_k (ch_state (vb_run 14).1.1) ex_m1 = Ok StatusInProgress /\
  message_status lx_k (ch_state (vb_run 14).1.1) ex_m2 = Ok Verified.
Proof. split; [|split]; vm_compute; reflexivity. Qed.

Lemma vb_opens : exists op s' out subj, verifier_step lx_k (vrun lx_k ex_cfg []) op = Ok (s', out) /\
  opens ex_cfg (op, out) 1 15 lx_workers subj /\ vb_ops = [] ++ op :: skipn 1 vb_ops.
Proof.
  exists (VerifyMessages 5 ex_reg [ex_m1]).
  destruct (verifier_step lx_k (vrun lx_k ex_cfg []) (VerifyMessages 5 ex_reg [ex_m1])) as [[s' out]| |] eqn:E; [|by vm_compute in E..].
  exists s', out, (OnMessages [ex_m1]). split; [done|]. split; [|done].
  assert (Hout : match verifier_step lx_k (vrun lx_k ex_cfg []) (VerifyMessages 5 ex_reg [ex_m1]) with
                 | Ok (_, OutVerify _ (Some (es, m))) => Some es = match tx_event_of ex_m1 with Ok e => Some [e] | _ => None end /\
                     m = {| pm_poll_id := 1; pm_chain := "eth"; pm_gateway := "0xgw"; pm_confirmations := 5;
                            pm_expires_at := 15; pm_participants := ["w1"; "w2"; "w3"] |}
                 | _ => False end).
  { vm_compute. split; reflexivity. }
  rewrite E in Hout. destruct out as [sts [[es m]|]| | |]; try done. destruct Hout as [Hes ->].
  assert (Hev : Forall2 (fun m ev => tx_event_of m = Ok ev) [ex_m1] es).
  { destruct (tx_event_of ex_m1) as [e| |] eqn:Ee; [|discriminate Hes..]. apply (inj Some) in Hes. subst es. constructor; [exact Ee|constructor]. }
  cbn [opens pm_poll_id pm_expires_at pm_chain pm_gateway pm_confirmations pm_participants].
  do 6 (split; [reflexivity|]). split; [reflexivity|]. split; [reflexivity|]. exists [ex_m1]. split; [reflexivity|]. split; [reflexivity|exact Hev].
Qed.

Lemma vb_refuted : exists k cfg ops a gas height limit (b : ballot) ins m,
  let c := {| ch_state := vrun k cfg ops; ch_requests := 0 |} in
  let '(c', calls, o) := qrun (chain_estimate k a gas (fun _ => []) height) (chain_broadcast k a (fun _ => []) height) limit c ins in
  (** the vote is handed over, and would be taken at every height there is *)
  QMsg b ∈ ins /\ (forall n, is_ok (verifier_step k (vrun k cfg ops) (cast (height n) a b)) = true) /\
  (forall n, message_status k (run (verifier_step k) (vrun k cfg ops) [cast (height n) a b]) m = Ok Verified) /\
  (** it was sent, yet it does not count, and no more is sent *)
  (exists bs, b ∈ bs /\ CBroadcast bs false ∈ calls) /\
  message_status k (ch_state c') m = Ok StatusInProgress /\ o = Stopped EBroadcast.
Proof.
  exists lx_k, ex_cfg, vb_ops, "w1", (fun _ => 100), (vb_height 15), 1000, (2, [SucceededOnChain]), vb_queue, ex_m2.
  cbv zeta. fold vb_chain. fold (vb_run 15).
  assert (H : (vb_run 15).1.2 = [CEstimate [(1, [SucceededOnChain])] (Some 100); CEstimate [(2, [SucceededOnChain])] (Some 100);
      CBroadcast [(1, [SucceededOnChain]); (2, [SucceededOnChain])] false] /\
    message_status lx_k (ch_state (vb_run 15).1.1) ex_m2 = Ok StatusInProgress /\ (vb_run 15).2 = Stopped EBroadcast).
  { split; [|split]; vm_compute; reflexivity. }
  destruct (vb_run 15) as [[c' calls] o]. cbn in H. destruct H as (-> & Hm & ->).
  split; [right; left|]. split. { intros [|[|n]]; vm_compute; reflexivity. }
  split. { intros [|[|n]]; vm_compute; reflexivity. }
  split; [|done]. eexists. split; [|right; right; left]. right. left.
Qed.

(** A worker that restarted votes on poll 1 and, again, on poll 2. *)
Definition vb_again :=
  qrun (chain_estimate lx_k "w2" (fun _ => 100) (fun _ => []) (fun _ => 14)) (chain_broadcast lx_k "w2" (fun _ => []) (fun _ => 14))
    1000 vb_chain [QMsg (1, [SucceededOnChain]); QMsg (2, [SucceededOnChain]); QTick].
Lemma vb_again_stops : vb_again.1.2 = [CEstimate [(1, [SucceededOnChain])] (Some 100); CEstimate [(2, [SucceededOnChain])] None] /\
  vb_again.2 = Stopped EEstimateFee /\
  is_ok (verifier_step lx_k (ch_state vb_again.1.1) (cast 14 "w2" (1, [SucceededOnChain]))) = true.
Proof. split; [|split]; vm_compute; reflexivity. Qed.
Lemma vb_finishes :
  let r := qrun (chain_estimate lx_k "w1" (fun _ => 100) (fun _ => []) (vb_height 14)) (chain_broadcast lx_k "w1" (fun _ => []) (vb_height 14))
    1000 vb_chain [QMsg (1, [SucceededOnChain]); QMsg (2, [SucceededOnChain]); QClose] in
  r.2 = Finished /\ message_status lx_k (ch_state r.1.1) ex_m2 = Ok Verified.
Proof. split; vm_compute; reflexivity. Qed.
