(** C07-C13 and C63: the voting verifier. Vocabulary: VerifierSpec.v. [k] is
    the hash function; nothing is assumed about it. *)
From Verif Require Import Base BaseLemmas Text StdModel StdSpec RouterTypes RegistryTypes OperatorsModel
  VerifierModel VerifierSpec VerifierProofs VerifierProofs2 VerifierProofs3 VerifierProofs4 VerifierExamples.

(** C07. *)
Theorem C07_verified_stays : forall k c ops ops' m,
  valid_vconfig c ->
  message_status k (vrun k c ops) m = Ok Verified ->
  message_status k (vrun k c (ops ++ ops')) m = Ok Verified.
Proof. exact c07. Qed.
Print Assumptions C07_verified_stays.

(** C08. A verified message was item [idx] of a poll that some earlier call
    opened, and enough of the workers named by the registry at that moment
    voted for it afterwards, before the poll expired. *)
Theorem C08_verified_means_quorum : forall k c ops m,
  valid_vconfig c ->
  message_status k (vrun k c ops) m = Ok Verified ->
  exists l1 e l2 id expires workers ms idx,
    vlog k c ops = l1 ++ e :: l2 /\
    opens c e id expires workers (OnMessages ms) /\ ms !! idx = Some m /\
    vouched (vc_threshold c) l2 id expires workers idx.
Proof. exact c08. Qed.
Print Assumptions C08_verified_means_quorum.

(** C09. Requests about settled or pending messages change nothing. *)
Theorem C09_settled_unchanged : forall k s h reg ms,
  ms <> [] -> Forall (fun m => cc_chain (m_cc m) = vc_chain (v_config s)) ms ->
  Forall (fun m => message_status k s m = Ok Verified \/
                   message_status k s m = Ok StatusInProgress) ms ->
  exists statuses, verify_messages k s h reg ms = Ok (s, OutVerify statuses None).
Proof. exact c09_settled. Qed.
Print Assumptions C09_settled_unchanged.

(** Other requests open exactly one new poll for exactly the messages that
    are neither settled nor pending, in request order; those become pending
    (unless the batch itself contains another message under the same key);
    the status of all other messages is untouched. *)
Theorem C09_opens_one_poll : forall k c ops h reg ms s' out,
  valid_vconfig c ->
  let s := vrun k c ops in
  verify_messages k s h reg ms = Ok (s', out) ->
  let todo := List.filter (wants_poll k s) ms in
  (todo = [] -> s' = s /\ exists statuses, out = OutVerify statuses None) /\
  (todo <> [] -> exists statuses events meta p,
     out = OutVerify statuses (Some (events, meta)) /\
     Forall2 (fun m ev => tx_event_of m = Ok ev) todo events /\
     v_polls s !! pm_poll_id meta = None /\
     v_polls s' = <[pm_poll_id meta := MessagesPoll p]> (v_polls s) /\
     poll_size p = N.of_nat (length todo) /\
     (forall m, m ∈ todo -> message_status k s' m = Ok StatusInProgress \/
        exists m', m' ∈ todo /\ m' <> m /\ message_key k m' = message_key k m)) /\
  (forall m, (forall m', m' ∈ todo -> message_key k m' <> message_key k m) ->
     message_status k s' m = message_status k s m).
Proof. exact c09_opens. Qed.
Print Assumptions C09_opens_one_poll.

(** Nothing else makes a request fail; in particular failed and unknown
    messages can always be polled (again). *)
Theorem C09_request_accepted : forall k c ops h reg ms workers,
  valid_vconfig c ->
  let s := vrun k c ops in
  ms <> [] -> N.of_nat (length ms) <= U32 ->
  Forall (fun m => cc_chain (m_cc m) = vc_chain c) ms ->
  Forall (fun m => message_status k s m <> Panic) ms ->
  Forall (fun m => is_ok (tx_event_of m) = true) ms ->
  reg (vc_registry c) (vc_service c) (vc_chain c) = Some workers ->
  workers <> [] -> Forall (fun w => exists n, w_bond w = Bonded n) workers ->
  N.of_nat (length workers) < U256 ->
  N.of_nat (length ops) + 1 < U64 -> h + vc_expiry c < U64 ->
  is_ok (verify_messages k s h reg ms) = true.
Proof. exact c09_enabled. Qed.
Print Assumptions C09_request_accepted.

(** C10. *)
Theorem C10_ids_increase : forall k c ops,
  StronglySorted N.lt (opened (vlog k c ops)).
Proof. intros k c ops. exact (proj1 (c10_ids k c ops)). Qed.
Print Assumptions C10_ids_increase.

Theorem C10_polls_fixed : forall k c ops ops' id vp,
  v_polls (vrun k c ops) !! id = Some vp ->
  exists vp', v_polls (vrun k c (ops ++ ops')) !! id = Some vp' /\ fixed_parts vp' = fixed_parts vp.
Proof. exact c10_fixed. Qed.
Print Assumptions C10_polls_fixed.

Theorem C10_other_polls_untouched : forall k c ops op s' out id vp,
  let s := vrun k c ops in
  verifier_step k s op = Ok (s', out) -> v_polls s !! id = Some vp ->
  exists vp', v_polls s' !! id = Some vp' /\ fixed_parts vp' = fixed_parts vp /\
    (vp' = vp \/ addresses op id).
Proof. exact c10_step. Qed.
Print Assumptions C10_other_polls_untouched.

Theorem C10_votes_touch_one_poll : forall k c ops op s' out,
  let s := vrun k c ops in
  verifier_step k s op = Ok (s', out) ->
  match op with
  | Vote _ _ id _ | EndPoll _ id =>
      v_messages s' = v_messages s /\ v_worker_sets s' = v_worker_sets s /\
      v_poll_id s' = v_poll_id s /\ v_config s' = v_config s /\
      forall id', id' <> id -> v_polls s' !! id' = v_polls s !! id'
  | _ => v_config s' = v_config s
  end.
Proof. exact c10_untouched. Qed.
Print Assumptions C10_votes_touch_one_poll.

(** C11. Ending a poll reports exactly the workers whose vote in it was
    accepted and agrees with every item that has a result. *)
Theorem C11_end_reports : forall k c ops l1 h id recs res l2,
  vlog k c ops = l1 ++ (EndPoll h id, OutEnded recs res) :: l2 ->
  exists parts, recs = (fun a => (vc_rewards c, dec id, a)) <$> parts /\ NoDup parts /\
    ps_poll_id res = id /\
    forall a, a ∈ parts <->
      exists h' ballot out, (Vote h' a id ballot, out) ∈ l1 /\
        forall i v, ps_results res !! i = Some (Some v) -> ballot !! i = Some v.
Proof. exact c11_reports. Qed.
Print Assumptions C11_end_reports.

Theorem C11_ended_once : forall k c ops, NoDup (ended (vlog k c ops)).
Proof. intros k c ops. exact (proj1 (proj2 (finished_run k c ops))). Qed.
Print Assumptions C11_ended_once.

Theorem C11_never_reported_twice : forall k c ops, NoDup (all_reported (vlog k c ops)).
Proof. intros k c ops. exact (proj1 (proj2 (proj2 (finished_run k c ops)))). Qed.
Print Assumptions C11_never_reported_twice.

(** C12 is false: whoever gets [m1] polled blocks the different, equally
    well-formed message [m2] forever, whatever the hash function. *)
Theorem C12_distinct_keys_refuted : exists m1 m2,
  m1 <> m2 /\ wf_message m1 /\ wf_message m2 /\
  is_ok (tx_event_of m1) = true /\ is_ok (tx_event_of m2) = true /\
  cc_chain (m_cc m1) = cc_chain (m_cc m2) /\
  forall k c ops h reg ops',
    is_ok (verify_messages k (vrun k c ops) h reg [m1]) = true ->
    let s := vrun k c (ops ++ VerifyMessages h reg [m1] :: ops') in
    message_status k s m2 = Panic /\
    forall h' reg' ms, m2 ∈ ms -> is_ok (verify_messages k s h' reg' ms) = false.
Proof. exact c12_refuted. Qed.
Print Assumptions C12_distinct_keys_refuted.

(** What holds: messages whose id, source address and destination chain have
    the same lengths share a key only if the hash function collides. *)
Theorem C12_keys_equal_lengths : forall k m m',
  wf_message m -> wf_message m' ->
  String.length (cc_id (m_cc m)) = String.length (cc_id (m_cc m')) ->
  String.length (m_src m) = String.length (m_src m') ->
  String.length (m_dchain m) = String.length (m_dchain m') ->
  (k (message_preimage m) = k (message_preimage m') -> message_preimage m = message_preimage m') ->
  message_key k m = message_key k m' -> m = m'.
Proof. exact c12_keys. Qed.
Print Assumptions C12_keys_equal_lengths.

(** C13. A verified worker set stays verified, and was vouched for. *)
Theorem C13_verified_stays : forall k c ops ops' o,
  valid_vconfig c ->
  worker_set_status k (vrun k c ops) o = Ok Verified ->
  worker_set_status k (vrun k c (ops ++ ops')) o = Ok Verified.
Proof. exact c13_stays. Qed.
Print Assumptions C13_verified_stays.

Theorem C13_verified_means_quorum : forall k c ops o,
  valid_vconfig c ->
  worker_set_status k (vrun k c ops) o = Ok Verified ->
  exists l1 e l2 id expires workers,
    vlog k c ops = l1 ++ e :: l2 /\
    opens c e id expires workers (OnOperators o) /\
    vouched (vc_threshold c) l2 id expires workers 0.
Proof. exact c13_quorum. Qed.
Print Assumptions C13_verified_means_quorum.

(** The other half of C13 is false: a repeated request starts a new poll, and
    votes in the earlier one no longer count. *)
Theorem C13_repeated_request_restarts : forall k c ops h reg mid o s' out ops',
  valid_vconfig c ->
  verify_worker_set k (vrun k c ops) h reg mid o = Ok (s', out) ->
  Forall (fun op => match op with
                    | Vote _ _ id _ => opened_id out <> Some id
                    | EndPoll _ _ => True | _ => False end) ops' ->
  worker_set_status k (vrun k c (ops ++ VerifyWorkerSet h reg mid o :: ops')) o <> Ok Verified.
Proof. exact c13_restart. Qed.
Print Assumptions C13_repeated_request_restarts.

Theorem C13_keeps_votes_refuted : exists c ops1 again ops2 o,
  valid_vconfig c /\
  forall k, is_ok (verifier_step k (vrun k c ops1) again) = true /\
    worker_set_status k (vrun k c (ops1 ++ ops2)) o = Ok Verified /\
    worker_set_status k (vrun k c (ops1 ++ again :: ops2)) o <> Ok Verified.
Proof. exact c13_refuted. Qed.
Print Assumptions C13_keeps_votes_refuted.

(** C63 is false: one source-chain event can be verified under several
    cross-chain ids. *)
Theorem C63_one_id_per_event_refuted : exists m1 m2 ev,
  cc_id (m_cc m1) <> cc_id (m_cc m2) /\ wf_message m1 /\ wf_message m2 /\
  tx_event_of m1 = Ok ev /\ tx_event_of m2 = Ok ev /\
  exists c ops, valid_vconfig c /\
    message_status (fun x => x) (vrun (fun x => x) c ops) m1 = Ok Verified /\
    message_status (fun x => x) (vrun (fun x => x) c ops) m2 = Ok Verified.
Proof. exact c63_refuted. Qed.
Print Assumptions C63_one_id_per_event_refuted.

(** What holds: ids with a canonically printed index are determined by the
    event. *)
Theorem C63_canonical_ids : forall m m' tx tx' n n' ev,
  cc_id (m_cc m) = tx +:+ String ID_SEPARATOR (dec n) ->
  cc_id (m_cc m') = tx' +:+ String ID_SEPARATOR (dec n') ->
  n < U64 -> n' < U64 ->
  tx_event_of m = Ok ev -> tx_event_of m' = Ok ev ->
  cc_id (m_cc m) = cc_id (m_cc m').
Proof. exact c63_canonical. Qed.
Print Assumptions C63_canonical_ids.

(** A history meeting the hypotheses above: two messages polled, one
    verified, the other failed and polled again. *)
Example verifier_nonvacuous :
  valid_vconfig ex_cfg /\
  let k := fun x => x in
  message_status k (vrun k ex_cfg ex_history) ex_m1 = Ok Verified /\
  message_status k (vrun k ex_cfg ex_history) ex_m2 = Ok FailedToVerify /\
  opened (vlog k ex_cfg (ex_history ++ [VerifyMessages 30 ex_reg [ex_m1; ex_m2]])) = [1; 2] /\
  message_status k (vrun k ex_cfg (ex_history ++ [VerifyMessages 30 ex_reg [ex_m1; ex_m2]])) ex_m2
    = Ok StatusInProgress /\
  ended (vlog k ex_cfg ex_history) = [1] /\
  all_reported (vlog k ex_cfg ex_history) = [("rewards", "1", "w1"); ("rewards", "1", "w2")] /\
  worker_set_status k (vrun k ex_cfg (ex_ws_first ++ ex_ws_rest)) ex_operators = Ok Verified.
Proof. split; [exact ex_valid|]. split_and!; by vm_compute. Qed.

(** C69. If only messages between EVM chains were asked for, none has lost its
    place to another, and requests for more are accepted. The hash is only
    asked not to collide on the messages concerned. *)
Theorem C69_separate : forall m m',
  wf_message m -> wf_message m' -> evm_message m -> evm_message m' ->
  message_preimage m = message_preimage m' -> m = m'.
Proof. exact evm_preimage_inj. Qed.
Print Assumptions C69_separate.
Theorem C69_has_status : forall k c ops m,
  valid_vconfig c ->
  Forall (fun m => wf_message m /\ evm_message m) (m :: requested ops) ->
  (forall m', m' ∈ requested ops -> message_key k m' = message_key k m -> message_preimage m' = message_preimage m) ->
  exists st, message_status k (vrun k c ops) m = Ok st.
Proof. exact evm_never_blocked. Qed.
Print Assumptions C69_has_status.
Theorem C69_accepted : forall k c ops h reg ms workers,
  valid_vconfig c ->
  ms <> [] -> N.of_nat (length ms) <= U32 ->
  Forall (fun m => cc_chain (m_cc m) = vc_chain c) ms ->
  Forall (fun m => wf_message m /\ evm_message m) (ms ++ requested ops) ->
  (forall m m', m ∈ ms -> m' ∈ requested ops -> message_key k m' = message_key k m -> message_preimage m' = message_preimage m) ->
  Forall (fun m => is_ok (tx_event_of m) = true) ms ->
  reg (vc_registry c) (vc_service c) (vc_chain c) = Some workers ->
  workers <> [] -> Forall (fun w => exists n, w_bond w = Bonded n) workers ->
  N.of_nat (length workers) < U256 ->
  N.of_nat (length ops) + 1 < U64 -> h + vc_expiry c < U64 ->
  is_ok (verify_messages k (vrun k c ops) h reg ms) = true.
Proof. exact evm_request_accepted. Qed.
Print Assumptions C69_accepted.
Example C69_ex : Forall (fun m => wf_message m /\ evm_message m) (requested ex_evm_history) /\
  message_status (fun x => x) (vrun (fun x => x) ex_cfg ex_evm_history) (ex_evm_msg (dec 1)) = Ok Verified /\
  message_status (fun x => x) (vrun (fun x => x) ex_cfg ex_evm_history) (ex_evm_msg (dec 11)) = Ok StatusInProgress.
Proof. exact ex_evm_requested. Qed.
