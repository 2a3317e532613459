(** Concrete voting-verifier histories used as witnesses and examples. *)
From Verif Require Import Base BaseLemmas Text StdModel StdSpec RouterTypes RegistryTypes OperatorsModel
  VerifierModel VerifierSpec VerifierProofs VerifierProofs2 VerifierProofs3.

Definition ex_worker (a : addr) : worker :=
  {| w_addr := a; w_bond := Bonded 100; w_auth := Authorized; w_service := "validators" |}.
Definition ex_reg : registry_oracle := fun _ _ _ => Some [ex_worker "w1"; ex_worker "w2"; ex_worker "w3"].
Definition ex_cfg : vconfig :=
  {| vc_registry := "registry"; vc_service := "validators"; vc_gateway := "0xgw";
     vc_threshold := {| t_num := 2; t_den := 3 |}; vc_expiry := 10; vc_confirmations := 5;
     vc_chain := "eth"; vc_rewards := "rewards" |}.
Lemma ex_valid : valid_vconfig ex_cfg.
Proof. exists 2, 3, {| t_num := 2; t_den := 3 |}. split; by vm_compute. Qed.

Definition ex_hash : string := "0123456789abcdef0123456789abcdef".
Definition ex_msg (id src : string) : message :=
  {| m_cc := {| cc_chain := "eth"; cc_id := id |}; m_src := src; m_dchain := "avax";
     m_daddr := "0xdest"; m_hash := ex_hash |}.
Definition ex_m1 := ex_msg "0xaa:1" "0xsrc".
Definition ex_m2 := ex_msg "0xbb:2" "0xsrc".
Definition ex_history : list vop :=
  [ VerifyMessages 5 ex_reg [ex_m1; ex_m2];
    Vote 6 "w1" 1 [SucceededOnChain; NotFound];
    Vote 7 "w2" 1 [SucceededOnChain; FailedOnChain];
    Vote 8 "w3" 1 [NotFound; SucceededOnChain];
    EndPoll 20 1 ].

(** two messages with the same preimage *)
Definition clash1 := ex_msg "tx:1" "1x".
Definition clash2 := ex_msg "tx:11" "x".
Lemma c12_refuted : exists m1 m2,
  m1 <> m2 /\ wf_message m1 /\ wf_message m2 /\
  is_ok (tx_event_of m1) = true /\ is_ok (tx_event_of m2) = true /\
  cc_chain (m_cc m1) = cc_chain (m_cc m2) /\
  forall k c ops h reg ops',
    is_ok (verify_messages k (vrun k c ops) h reg [m1]) = true ->
    let s := vrun k c (ops ++ VerifyMessages h reg [m1] :: ops') in
    message_status k s m2 = Panic /\
    forall h' reg' ms, m2 ∈ ms -> is_ok (verify_messages k s h' reg' ms) = false.
Proof.
  exists clash1, clash2. split; [done|]. split; [by vm_compute|]. split; [by vm_compute|].
  split; [done|]. split; [done|]. split; [done|].
  intros k c ops h reg ops' Hok. apply c12_blocked; [done|done|].
  unfold message_key. f_equal.
Qed.

Lemma c12_keys k m m' :
  wf_message m -> wf_message m' ->
  String.length (cc_id (m_cc m)) = String.length (cc_id (m_cc m')) ->
  String.length (m_src m) = String.length (m_src m') ->
  String.length (m_dchain m) = String.length (m_dchain m') ->
  (k (message_preimage m) = k (message_preimage m') -> message_preimage m = message_preimage m') ->
  message_key k m = message_key k m' -> m = m'.
Proof. intros Hw Hw' H1 H2 H3 Hno Hk. apply preimage_inj; auto. Qed.

Definition ex_operators : operators := operators_new [("op1", 1); ("op2", 1)] 2.
Definition ex_ws_first : list vop :=
  [ VerifyWorkerSet 5 ex_reg "0xcc:0" ex_operators; Vote 6 "w1" 1 [SucceededOnChain] ].
Definition ex_ws_again : vop := VerifyWorkerSet 7 ex_reg "0xcc:0" ex_operators.
Definition ex_ws_rest : list vop := [ Vote 8 "w2" 1 [SucceededOnChain] ].

Lemma ex_ws_first_set k :
  v_worker_sets (vrun k ex_cfg (ex_ws_first ++ ex_ws_rest)) = <[operators_key k ex_operators := Build_poll_content ex_operators 1 0]> ∅ /\
  v_worker_sets (vrun k ex_cfg ex_ws_first) = <[operators_key k ex_operators := Build_poll_content ex_operators 1 0]> ∅.
Proof. split; vm_compute; reflexivity. Qed.

Lemma c13_refuted : exists c ops1 again ops2 o,
  valid_vconfig c /\
  forall k, is_ok (verifier_step k (vrun k c ops1) again) = true /\
    worker_set_status k (vrun k c (ops1 ++ ops2)) o = Ok Verified /\
    worker_set_status k (vrun k c (ops1 ++ again :: ops2)) o <> Ok Verified.
Proof.
  exists ex_cfg, ex_ws_first, ex_ws_again, ex_ws_rest, ex_operators.
  split; [exact ex_valid|]. intros k.
  destruct (ex_ws_first_set k) as [Hs1 Hs2].
  assert (exists s' out, verifier_step k (vrun k ex_cfg ex_ws_first) ex_ws_again = Ok (s', out) /\
     opened_id out = Some 2) as (s' & out & Hstep & Hout).
  { cbn [verifier_step ex_ws_again]. unfold verify_worker_set, is_worker_set_verified, worker_set_status.
    rewrite Hs2, lookup_insert. do 2 eexists. split; vm_compute; reflexivity. }
  split_and!.
  - by rewrite Hstep.
  - unfold worker_set_status. rewrite Hs1, lookup_insert. by vm_compute.
  - eapply c13_restart; [exact ex_valid|exact Hstep|]. rewrite Hout. repeat constructor. cbn. congruence.
Qed.

Lemma c63_refuted : exists m1 m2 ev,
  cc_id (m_cc m1) <> cc_id (m_cc m2) /\ wf_message m1 /\ wf_message m2 /\
  tx_event_of m1 = Ok ev /\ tx_event_of m2 = Ok ev /\
  exists c ops, valid_vconfig c /\
    message_status (fun x => x) (vrun (fun x => x) c ops) m1 = Ok Verified /\
    message_status (fun x => x) (vrun (fun x => x) c ops) m2 = Ok Verified.
Proof.
  exists (ex_msg "0xaa:1" "0xsrc"), (ex_msg "0xaa:01" "0xsrc"),
    {| te_tx_id := "0xaa"; te_index := 1; te_daddr := "0xdest"; te_dchain := "avax";
       te_src := "0xsrc"; te_hash := ex_hash |}.
  split; [done|]. split; [by vm_compute|]. split; [by vm_compute|].
  split; [by vm_compute|]. split; [by vm_compute|].
  exists ex_cfg, [ VerifyMessages 5 ex_reg [ex_msg "0xaa:1" "0xsrc"; ex_msg "0xaa:01" "0xsrc"];
    Vote 6 "w1" 1 [SucceededOnChain; SucceededOnChain];
    Vote 7 "w2" 1 [SucceededOnChain; SucceededOnChain] ].
  split; [exact ex_valid|]. split; by vm_compute.
Qed.

(** EVM messages: two requests, the second with a new and an old message *)
Definition ex_evm_msg (id : string) : message :=
  {| m_cc := {| cc_chain := "eth"; cc_id := "0xabababababababababababababababababababababababababababababababab:" +:+ id |};
     m_src := "0xcdcdcdcdcdcdcdcdcdcdcdcdcdcdcdcdcdcdcdcd"; m_dchain := "avax"; m_daddr := "0xcdcdcdcdcdcdcdcdcdcdcdcdcdcdcdcdcdcdcdcd"; m_hash := ex_hash |}.
Lemma ex_evm_form n : evm_message (ex_evm_msg (dec n)).
Proof. exists "0xabababababababababababababababababababababababababababababababab", n, "cdcdcdcdcdcdcdcdcdcdcdcdcdcdcdcdcdcdcdcd". done. Qed.
Definition ex_evm_history : list vop :=
  [ VerifyMessages 5 ex_reg [ex_evm_msg (dec 1)]; Vote 6 "w1" 1 [SucceededOnChain]; Vote 7 "w2" 1 [SucceededOnChain];
    VerifyMessages 8 ex_reg [ex_evm_msg (dec 1); ex_evm_msg (dec 11)] ].
Lemma ex_evm_requested : Forall (fun m => wf_message m /\ evm_message m) (requested ex_evm_history) /\
  message_status (fun x => x) (vrun (fun x => x) ex_cfg ex_evm_history) (ex_evm_msg (dec 1)) = Ok Verified /\
  message_status (fun x => x) (vrun (fun x => x) ex_cfg ex_evm_history) (ex_evm_msg (dec 11)) = Ok StatusInProgress.
Proof.
  split; [|split; vm_compute; reflexivity].
  change (requested ex_evm_history) with [ex_evm_msg (dec 1); ex_evm_msg (dec 1); ex_evm_msg (dec 11)].
  repeat constructor; try apply ex_evm_form; by vm_compute.
Qed.
