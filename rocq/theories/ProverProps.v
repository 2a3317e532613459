(** Properties C46-C49 of the multisig prover. [keccak], [wshash], [sec1] and
    [recover] are arbitrary functions; see EncodingModel.v. *)
From Verif Require Import Base Text StdModel StdSpec RegistryTypes RouterTypes MultisigTypes OperatorsModel
  MultisigModel EncodingModel EncodingSpec EncodingExamples ProverModel ProverSpec ProverProofs ProverProofs2
  ProverProofs3 ProverProofs4 ProverProofs5 ProverExamples.

(** C46. *)
Theorem C46_history : forall keccak wshash sec1 c ops,
  sets_after keccak wshash sec1 c (plog keccak wshash sec1 c ops)
    (pv_current (prun keccak wshash sec1 c ops)) (pv_next (prun keccak wshash sec1 c ops)).
Proof. exact c46_history. Qed.
Print Assumptions C46_history.

Theorem C46_functional : forall keccak wshash sec1 c l cur next,
  sets_after keccak wshash sec1 c l cur next ->
  forall cur' next', sets_after keccak wshash sec1 c l cur' next' -> cur' = cur /\ next' = next.
Proof. exact sets_after_functional. Qed.
Print Assumptions C46_functional.

Theorem C46_current_changes : forall keccak wshash sec1 c ops op s' out,
  prover_step keccak wshash sec1 c (prun keccak wshash sec1 c ops) op = Ok (s', out) ->
  query_worker_set s' <> query_worker_set (prun keccak wshash sec1 c ops) ->
  exists ws, query_worker_set s' = Ok ws /\ px_msg out = MsgRegister (pc_multisig c) ws /\
    ((query_worker_set (prun keccak wshash sec1 c ops) = Err PStd /\ po_call op = UpdateWorkerSet /\
        is_active_set c (po_env op) ws) \/
     (exists cur o, sets_after keccak wshash sec1 c (plog keccak wshash sec1 c ops) cur (Some ws) /\
        po_call op = ConfirmWorkerSet /\ make_operators keccak sec1 (pc_encoder c) ws = Ok o /\
        pe_verified (po_env op) (pc_verifier c) o = Some true)).
Proof. exact c46_changes. Qed.
Print Assumptions C46_current_changes.

Theorem C46_confirm : forall keccak wshash sec1 c ops env cur next,
  sets_after keccak wshash sec1 c (plog keccak wshash sec1 c ops) cur next ->
  (is_ok (prover_execute keccak wshash sec1 c env (prun keccak wshash sec1 c ops) ConfirmWorkerSet) = true <->
   exists ws o, next = Some ws /\ make_operators keccak sec1 (pc_encoder c) ws = Ok o /\
     pe_verified env (pc_verifier c) o = Some true) /\
  (forall s' m, prover_execute keccak wshash sec1 c env (prun keccak wshash sec1 c ops) ConfirmWorkerSet = Ok (s', m) ->
     query_worker_set s' = of_option PStd next /\
     is_ok (prover_execute keccak wshash sec1 c env s' ConfirmWorkerSet) = false).
Proof. exact c46_confirm. Qed.
Print Assumptions C46_confirm.

Theorem C46_adopted_was_proposed : forall keccak wshash sec1 c ops l1 op out l2,
  plog keccak wshash sec1 c ops = l1 ++ (op, out) :: l2 -> po_call op = ConfirmWorkerSet ->
  exists ws la e lb, px_msg out = MsgRegister (pc_multisig c) ws /\
    l1 = la ++ e :: lb /\ proposal keccak wshash sec1 c la e ws /\
    Forall (fun x => po_call x.1 <> ConfirmWorkerSet) lb.
Proof. exact c46_proposed. Qed.
Print Assumptions C46_adopted_was_proposed.

(** C47. *)
Theorem C47_update : forall keccak wshash sec1 c ops env cur next ws,
  sensible c env -> sets_after keccak wshash sec1 c (plog keccak wshash sec1 c ops) (Some cur) next ->
  is_active_set c env ws ->
  let s := prun keccak wshash sec1 c ops in
  let r := prover_execute keccak wshash sec1 c env s UpdateWorkerSet in
  (differing ws cur <= pc_diff c -> r = Err WorkerSetUnchanged) /\
  (pc_diff c < differing ws cur -> ~ admits next ws -> r = Err WorkerSetConfirmationInProgress) /\
  (pc_diff c < differing ws cur -> admits next ws ->
   forall b digest, build_batch keccak wshash sec1 (pc_chain_id c) (pc_encoder c) (Some ws) [] = Ok b ->
     msg_digest keccak b = Ok digest ->
     r = Ok (with_batch s (Some ws) b, MsgStart (pc_multisig c) (to_hex (wshash cur)) digest (pc_chain c))).
Proof. exact c47_update. Qed.
Print Assumptions C47_update.

Theorem C47_construct : forall keccak wshash sec1 c ops env cur next ws ids ms,
  sensible c env -> sets_after keccak wshash sec1 c (plog keccak wshash sec1 c ops) (Some cur) next ->
  is_active_set c env ws ->
  pe_messages env (pc_gateway c) ids = Some ms -> length ms = length ids ->
  Forall (fun m => m_dchain m = pc_chain c) ms ->
  ~ announced (plog keccak wshash sec1 c ops) (batch_id keccak wshash ids None) ->
  let s := prun keccak wshash sec1 c ops in
  let r := prover_execute keccak wshash sec1 c env s (ConstructProof ids) in
  (pc_diff c < differing ws cur -> ~ admits next ws -> r = Err WorkerSetConfirmationInProgress) /\
  (forall new, (differing ws cur <= pc_diff c /\ new = None) \/
     (pc_diff c < differing ws cur /\ admits next ws /\ new = Some ws) ->
   forall b digest, build_batch keccak wshash sec1 (pc_chain_id c) (pc_encoder c) new ms = Ok b ->
     msg_digest keccak b = Ok digest ->
     r = Ok (with_batch s new b, MsgStart (pc_multisig c) (to_hex (wshash cur)) digest (pc_chain c))).
Proof. exact c47_construct. Qed.
Print Assumptions C47_construct.

Theorem C47_waits : forall keccak wshash sec1 c l l' cur ws cur' next',
  sets_after keccak wshash sec1 c l cur (Some ws) -> sets_after keccak wshash sec1 c (l ++ l') cur' next' ->
  Forall (fun x => po_call x.1 <> ConfirmWorkerSet) l' ->
  exists ws', next' = Some ws' /\ same_set ws ws'.
Proof. exact c47_waits. Qed.
Print Assumptions C47_waits.

Theorem C47_same_zero : forall a b, differing a b = 0 <-> ws_signers a = ws_signers b.
Proof. exact c47_same_zero. Qed.
Print Assumptions C47_same_zero.

Theorem C47_members : forall a b,
  (forall k x y, ws_signers a !! k = Some x -> ws_signers b !! k = Some y -> x = y) ->
  differing a b =
    N.of_nat (size ((dom (ws_signers a) ∖ dom (ws_signers b)) ∪ (dom (ws_signers b) ∖ dom (ws_signers a)))).
Proof. exact c47_members. Qed.
Print Assumptions C47_members.

(** C48. *)
Theorem C48_selection : forall l q r, optimize_signers l q = Ok r -> selection l q r.
Proof. exact optimize_selection. Qed.
Print Assumptions C48_selection.

Theorem C48_selection_exists : forall l q, weight_of (signed l) < U256 -> exists r, optimize_signers l q = Ok r.
Proof. exact optimize_total. Qed.
Print Assumptions C48_selection_exists.

Theorem C48_get_proof : forall keccak wshash sec1 recover c ops mu id r,
  (forall x, String.length (keccak x) = 32%nat) -> (forall w, String.length (wshash w) = 32%nat) ->
  pc_chain_id c < U256 ->
  get_proof keccak sec1 recover c (prun keccak wshash sec1 c ops) mu id = Ok r ->
  exists m bid b, mu id = Some m /\ session_batch (plog keccak wshash sec1 c ops) id = Some bid /\
    last_built keccak wshash sec1 c (plog keccak wshash sec1 c ops) bid b /\ b_encoder b = pc_encoder c /\
    pr_session r = id /\ pr_ids r = b_ids b /\ pr_data r = b_data b /\
    match mu_state m with
    | MPending => pr_status r = PfPending
    | MCompleted _ => exists sel d, pr_status r = PfCompleted d /\ selection (mu_signers m) (mu_quorum m) sel /\
        (mu_quorum m < U256 -> Forall (fun x => sg_weight x.1 < U256) (mu_signers m) -> fits (b_encoder b) d ->
         proof_shows keccak sec1 recover b (mu_quorum m) sel d)
    end.
Proof. exact c48_get_proof. Qed.
Print Assumptions C48_get_proof.

(** C49. *)
Theorem C49_order : forall keccak wshash sec1 c ops env ids ids' f ans ans' s1 out1 s2 out2,
  ids ≡ₚ ids' -> gateway_by_id c env f ids -> gateway_by_id c env f ids' ->
  prover_step keccak wshash sec1 c (prun keccak wshash sec1 c ops)
    {| po_call := ConstructProof ids; po_env := env; po_multisig := ans |} = Ok (s1, out1) ->
  prover_step keccak wshash sec1 c (prun keccak wshash sec1 c ops)
    {| po_call := ConstructProof ids'; po_env := env; po_multisig := ans' |} = Ok (s2, out2) ->
  fst <$> px_event out1 = fst <$> px_event out2 /\ is_Some (px_event out1).
Proof. exact c49_order. Qed.
Print Assumptions C49_order.

Theorem C49_again : forall keccak wshash sec1 c ops op ids ids' s' out,
  prover_step keccak wshash sec1 c (prun keccak wshash sec1 c ops) op = Ok (s', out) ->
  po_call op = ConstructProof ids' -> ids ≡ₚ ids' ->
  announced (plog keccak wshash sec1 c ops) (batch_id keccak wshash ids None) ->
  exists b cur id,
    last_built keccak wshash sec1 c (plog keccak wshash sec1 c ops) (batch_id keccak wshash ids None) b /\
    query_worker_set (prun keccak wshash sec1 c ops) = Ok cur /\ asks_to_sign keccak wshash c out cur b id /\
    pv_batches s' = pv_batches (prun keccak wshash sec1 c ops).
Proof. exact c49_again_built. Qed.
Print Assumptions C49_again.

Theorem C49_distinct : forall keccak wshash sec1 c ops ops' op op' ids ids' f f' s1 out1 s2 out2 bid i i',
  (forall w, wshash w <> "") ->
  Forall event_id (ids ++ ids') \/ Forall plain_id (ids ++ ids') ->
  (forall new new', may_carry c (po_env op) new -> may_carry c (po_env op') new' ->
     EncodingSpec.no_collision keccak [batch_id_preimage wshash ids new; batch_id_preimage wshash ids' new']) ->
  prover_step keccak wshash sec1 c (prun keccak wshash sec1 c ops) op = Ok (s1, out1) ->
  po_call op = ConstructProof ids -> gateway_by_id c (po_env op) f ids ->
  prover_step keccak wshash sec1 c (prun keccak wshash sec1 c ops') op' = Ok (s2, out2) ->
  po_call op' = ConstructProof ids' -> gateway_by_id c (po_env op') f' ids' ->
  px_event out1 = Some (bid, i) -> px_event out2 = Some (bid, i') -> ids ≡ₚ ids'.
Proof. exact c49_distinct. Qed.
Print Assumptions C49_distinct.

Theorem C49_comma_refuted : exists keccak wshash sec1 recover c ops op out bid id requested f mu r,
  (op, out) ∈ plog keccak wshash sec1 c ops /\ po_call op = ConstructProof requested /\
  gateway_by_id c (po_env op) f requested /\ px_event out = Some (bid, id) /\
  Forall wf_message (f <$> requested) /\
  get_proof keccak sec1 recover c (prun keccak wshash sec1 c ops) mu id = Ok r /\ ~ pr_ids r ≡ₚ requested.
Proof. exact c49_wrong_batch. Qed.
Print Assumptions C49_comma_refuted.

(** The hypotheses above are met by these values. *)
Example C46_C47_history : ex_prover_check Abi = true /\ ex_prover_check Bcs = true.
Proof. exact ex_prover_history. Qed.
Example C47_waiting : forall e, exists cur next, sets_after ex_keccak ex_wshash ex_sec1 (pcfg e)
    (plog ex_keccak ex_wshash ex_sec1 (pcfg e) (firstn 5 (ex_prover_ops e))) (Some cur) next /\
  is_active_set (pcfg e) (penv_of e 14 set3 false) (set_of e 14 set3) /\
  pc_diff (pcfg e) < differing (set_of e 14 set3) cur /\ ~ admits next (set_of e 14 set3) /\
  is_active_set (pcfg e) (penv_of e 14 set2 false) (set_of e 14 set2) /\ admits next (set_of e 14 set2).
Proof. exact ex_waiting. Qed.
Example C47_sensible : forall e h ws ok, N.of_nat (length ws) < U256 -> sensible (pcfg e) (penv_of e h ws ok).
Proof. exact ex_sensible. Qed.
Example C48_proofs : ex_proof_check Abi = true /\ ex_proof_check Bcs = true.
Proof. exact ex_proofs. Qed.
Example C49_gateway : forall e h ws ok ids, gateway_by_id (pcfg e) (penv_of e h ws ok) (ex_msg_of e) ids.
Proof. exact ex_gateway. Qed.
Example C49_no_clash : forall new new',
  may_carry (pcfg Bcs) (penv_of Bcs 11 set1 false) new -> may_carry (pcfg Bcs) (penv_of Bcs 11 set1 false) new' ->
  EncodingSpec.no_collision ex_keccak [batch_id_preimage ex_wshash [ev 1; ev 2] new; batch_id_preimage ex_wshash [ev 3] new'].
Proof. exact ex_no_clash. Qed.
