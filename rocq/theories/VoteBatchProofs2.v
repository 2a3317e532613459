(** Proofs: votes that are refused on arrival. *)
From Verif Require Import Base BaseLemmas StdModel RegistryTypes VerifierModel VerifierSpec VerifierProofs VerifierProofs5 QueueModel MonitorProofs
  VoteBatchModel VoteBatchProofs.

Lemma single k s h a b : is_Some (tx_run (verifier_step k) s (cast h a <$> [b])) <-> is_ok (verifier_step k s (cast h a b)) = true.
Proof.
  rewrite batch_iff, Forall_singleton. split; [by intros []|]. intros H. split; [|done]. apply NoDup_singleton.
Qed.

Lemma arrival k a gas others height limit c q b :
  is_ok (verifier_step k (before k others c) (cast (height (ch_requests c)) a b)) = false ->
  qstep (chain_estimate k a gas others height) (chain_broadcast k a others height) limit c q (QMsg b) =
  ({| ch_state := before k others c; ch_requests := S (ch_requests c) |}, [CEstimate [b] None], Stopped EEstimateFee).
Proof.
  intros H. unfold qstep, on_msg, chain_estimate.
  destruct (tx_run (verifier_step k) (before k others c) (cast (height (ch_requests c)) a <$> [b])) as [s1|] eqn:E; [|done].
  exfalso. assert (Hx : is_Some (tx_run (verifier_step k) (before k others c) (cast (height (ch_requests c)) a <$> [b]))) by (rewrite E; eauto).
  apply single in Hx. congruence.
Qed.

Lemma arrival_unfit k a gas others height limit cfg ops l1 e l2 id expires workers subj vs c q :
  before k others c = vrun k cfg ops -> vlog k cfg ops = l1 ++ e :: l2 -> opens cfg e id expires workers subj ->
  (expires <= height (ch_requests c) \/ exists h' vs' o, (Vote h' a id vs', o) ∈ l2) ->
  qstep (chain_estimate k a gas others height) (chain_broadcast k a others height) limit c q (QMsg (id, vs)) =
  ({| ch_state := vrun k cfg ops; ch_requests := S (ch_requests c) |}, [CEstimate [(id, vs)] None], Stopped EEstimateFee).
Proof.
  intros Hb Hl Ho Hor. rewrite <- Hb. apply arrival. rewrite Hb. apply not_true_iff_false. intros H. cbn [cast] in H.
  apply (c88_vote _ _ _ _ _ _ _ _ _ _ _ _ _ Hl Ho) in H as (_ & Hlt & _ & Hno).
  destruct Hor as [Hle|(h' & vs' & o & Hin)]; [lia|]. by eapply Hno.
Qed.
