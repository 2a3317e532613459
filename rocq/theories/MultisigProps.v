(** C22-C27: the multisig contract. [wsid] names worker sets, [crypto]
    verifies signatures; both are arbitrary. Histories are arbitrary lists of
    calls; [mlog] lists the accepted ones with their responses. *)
From Verif Require Import Base Text StdModel MultisigTypes MultisigModel MultisigSpec MultisigProofs3
  MultisigExamples.

(** C22: a session is completed exactly when somebody signed and the distinct
    signers' weight reaches the threshold. *)
Theorem C22_completes_at_threshold : forall wsid crypto g r p ops id msg ws,
  no_collision wsid ops -> started_with wsid (mlog wsid crypto g r p ops) id msg ws ->
  NoDup (signed_by (mlog wsid crypto g r p ops) id) /\
  exists mu, get_multisig (mrun wsid crypto g r p ops) id = Ok mu /\ mu_quorum mu = ws_threshold ws /\
    ((exists c, mu_state mu = MCompleted c) <->
     reached ws (signed_by (mlog wsid crypto g r p ops) id)).
Proof. exact c22_completes. Qed.
Print Assumptions C22_completes_at_threshold.

(** For a positive threshold, exactly when the weight reaches the threshold. *)
Theorem C22_positive_threshold : forall wsid crypto g r p ops id msg ws,
  no_collision wsid ops -> started_with wsid (mlog wsid crypto g r p ops) id msg ws -> 0 < ws_threshold ws ->
  exists mu, get_multisig (mrun wsid crypto g r p ops) id = Ok mu /\
    ((exists c, mu_state mu = MCompleted c) <->
     ws_threshold ws <= lsum (weight_in ws) (signed_by (mlog wsid crypto g r p ops) id)).
Proof. exact c22_positive. Qed.
Print Assumptions C22_positive_threshold.

(** With threshold zero the property as stated is false: the session is
    pending until the first signature. *)
Theorem C22_zero_threshold_refuted :
  exists wsid crypto g r p ops id msg ws mu,
    no_collision wsid ops /\ started_with wsid (mlog wsid crypto g r p ops) id msg ws /\
    get_multisig (mrun wsid crypto g r p ops) id = Ok mu /\
    ws_threshold ws <= lsum (weight_in ws) (signed_by (mlog wsid crypto g r p ops) id) /\
    mu_state mu = MPending.
Proof. exact c22_zero_refuted. Qed.
Print Assumptions C22_zero_threshold_refuted.

(** C23. *)
Theorem C23_completed_forever : forall wsid crypto g r p ops1 ops2 id mu c,
  no_collision wsid (ops1 ++ ops2) ->
  get_multisig (mrun wsid crypto g r p ops1) id = Ok mu -> mu_state mu = MCompleted c ->
  exists mu', get_multisig (mrun wsid crypto g r p (ops1 ++ ops2)) id = Ok mu' /\
    mu_state mu' = MCompleted c.
Proof. exact c23_forever. Qed.
Print Assumptions C23_completed_forever.

(** The completion events of a session: none while pending, exactly one, with
    the height of the state, once completed. *)
Theorem C23_one_event : forall wsid crypto g r p ops id msg ws,
  no_collision wsid ops -> started_with wsid (mlog wsid crypto g r p ops) id msg ws ->
  exists mu, get_multisig (mrun wsid crypto g r p ops) id = Ok mu /\
    completions (mlog wsid crypto g r p ops) id =
    match mu_state mu with MPending => [] | MCompleted c => [c] end.
Proof. exact c23_events. Qed.
Print Assumptions C23_one_event.

(** It is emitted by the submission that first reached the threshold, and
    carries that submission's height. *)
Theorem C23_event_at_threshold : forall wsid crypto g r p ops l1 op rw id a sig c l2 msg ws,
  no_collision wsid ops ->
  mlog wsid crypto g r p ops = l1 ++ (op, OutSigned rw id a sig (Some c)) :: l2 ->
  started_with wsid (mlog wsid crypto g r p ops) id msg ws ->
  op = SubmitSignature c a id (sig_bytes sig) /\
  ~ reached ws (signed_by l1 id) /\
  reached ws (signed_by (l1 ++ [(op, OutSigned rw id a sig (Some c))]) id).
Proof. exact c23_first. Qed.
Print Assumptions C23_event_at_threshold.

(** C24: an accepted submission came from a signer of the session's worker
    set, is good for the session's message and the signer's key in that set,
    is recorded as given, and is reported to the rewards contract. *)
Theorem C24_accepted_is_valid : forall wsid crypto g r p ops h a id b out,
  no_collision wsid ops -> (SubmitSignature h a id b, out) ∈ mlog wsid crypto g r p ops ->
  exists msg ws sg sig c,
    started_with wsid (mlog wsid crypto g r p ops) id msg ws /\ ws_signers ws !! a = Some sg /\
    sig_bytes sig = b /\ good_signature crypto sig msg (sg_key sg) /\
    submitted (mlog wsid crypto g r p ops) id a = Some sig /\
    out = OutSigned (r, dec id, a) id a sig c.
Proof. exact c24_valid. Qed.
Print Assumptions C24_accepted_is_valid.

(** The session query shows, for every signer of the set in order, exactly
    the signature of the signer's accepted submission, if any. *)
Theorem C24_stored_is_submitted : forall wsid crypto g r p ops id msg ws,
  no_collision wsid ops -> started_with wsid (mlog wsid crypto g r p ops) id msg ws ->
  exists mu, get_multisig (mrun wsid crypto g r p ops) id = Ok mu /\
    mu_signers mu = (fun '(a, sg) => (sg, submitted (mlog wsid crypto g r p ops) id a))
                      <$> btree_iter (ws_signers ws).
Proof. exact c24_stored. Qed.
Print Assumptions C24_stored_is_submitted.

Theorem C24_never_replaced : forall wsid crypto g r p ops1 ops2 id a sig,
  submitted (mlog wsid crypto g r p ops1) id a = Some sig ->
  submitted (mlog wsid crypto g r p (ops1 ++ ops2)) id a = Some sig.
Proof. exact c24_never_replaced. Qed.
Print Assumptions C24_never_replaced.

Theorem C24_second_rejected : forall wsid crypto g r p ops h a id b,
  no_collision wsid ops -> a ∈ signed_by (mlog wsid crypto g r p ops) id ->
  is_ok (submit_signature crypto (mrun wsid crypto g r p ops) h a id b) = false.
Proof. exact c24_once. Qed.
Print Assumptions C24_second_rejected.

(** C25: rejected as closed exactly after the grace period. *)
Theorem C25_closed_iff : forall wsid crypto g r p ops id msg ws mu h a sg b,
  no_collision wsid ops -> started_with wsid (mlog wsid crypto g r p ops) id msg ws ->
  get_multisig (mrun wsid crypto g r p ops) id = Ok mu ->
  ws_signers ws !! a = Some sg -> sig_length_ok (pk_type (sg_key sg)) (String.length b) ->
  submit_signature crypto (mrun wsid crypto g r p ops) h a id b = Err SigningSessionClosed <->
  exists c, mu_state mu = MCompleted c /\ c + p < U64 /\ c + p < h.
Proof. exact c25_closed. Qed.
Print Assumptions C25_closed_iff.

(** Acceptance, exactly. *)
Theorem C25_accepted_iff : forall wsid crypto g r p ops id msg ws mu h a b,
  no_collision wsid ops -> started_with wsid (mlog wsid crypto g r p ops) id msg ws ->
  get_multisig (mrun wsid crypto g r p ops) id = Ok mu ->
  msum (fun a _ => weight_in ws a) (ws_signers ws) < U256 ->
  is_ok (submit_signature crypto (mrun wsid crypto g r p ops) h a id b) = true <->
  (exists sg sig, ws_signers ws !! a = Some sg /\
     signature_try_from (pk_type (sg_key sg)) b = Some sig /\
     good_signature crypto sig msg (sg_key sg)) /\
  a ∉ signed_by (mlog wsid crypto g r p ops) id /\
  (forall c, mu_state mu = MCompleted c -> c + p < U64 /\ h <= c + p).
Proof. exact c25_accepted. Qed.
Print Assumptions C25_accepted_iff.

(** A grace period so large that its end exceeds 64 bits aborts every later
    submission. *)
Theorem C25_overflow_aborts : forall wsid crypto g r p ops id msg ws mu h a sg b c,
  no_collision wsid ops -> started_with wsid (mlog wsid crypto g r p ops) id msg ws ->
  get_multisig (mrun wsid crypto g r p ops) id = Ok mu ->
  ws_signers ws !! a = Some sg -> sig_length_ok (pk_type (sg_key sg)) (String.length b) ->
  mu_state mu = MCompleted c -> U64 <= c + p ->
  submit_signature crypto (mrun wsid crypto g r p ops) h a id b = Panic.
Proof. exact c25_overflow. Qed.
Print Assumptions C25_overflow_aborts.

(** C26. *)
Theorem C26_start_accepted_iff : forall wsid crypto g r p ops a w msg chain,
  no_collision wsid ops ->
  is_ok (start_session (mrun wsid crypto g r p ops) a w msg chain) = true <->
  authorized (mlog wsid crypto g r p ops) a /\ String.length msg = 32%nat /\
  (exists b ws, wsid ws = w /\ (RegisterWorkerSet b ws, OutNone) ∈ mlog wsid crypto g r p ops) /\
  N.of_nat (length (started_ids (mlog wsid crypto g r p ops))) + 1 < U64.
Proof. exact c26_accepted. Qed.
Print Assumptions C26_start_accepted_iff.

(** The response announces the requested message, chain and set, and the
    keys of that set. *)
Theorem C26_start_response : forall wsid crypto g r p ops a w msg chain out,
  no_collision wsid ops -> (StartSession a w msg chain, out) ∈ mlog wsid crypto g r p ops ->
  exists id ws, w = wsid ws /\ started_with wsid (mlog wsid crypto g r p ops) id msg ws /\
    out = OutStarted id w (sg_key <$> ws_signers ws) msg chain.
Proof. exact c26_response. Qed.
Print Assumptions C26_start_response.

(** Ids are 1, 2, 3, ... in the order of the calls. *)
Theorem C26_ids : forall wsid crypto g r p ops,
  started_ids (mlog wsid crypto g r p ops) =
  N.of_nat <$> seq 1 (length (started_ids (mlog wsid crypto g r p ops))).
Proof. exact c26_ids. Qed.
Print Assumptions C26_ids.

(** A session has one message and one worker set, for ever. *)
Theorem C26_session_immutable : forall wsid crypto g r p ops id msg ws msg' ws',
  no_collision wsid ops ->
  started_with wsid (mlog wsid crypto g r p ops) id msg ws ->
  started_with wsid (mlog wsid crypto g r p ops) id msg' ws' ->
  msg' = msg /\ ws' = ws.
Proof. exact started_unique. Qed.
Print Assumptions C26_session_immutable.

Theorem C26_only_governance : forall wsid crypto g r p ops a auth c out,
  (SetCaller a auth c, out) ∈ mlog wsid crypto g r p ops -> a = g.
Proof. exact c26_governance. Qed.
Print Assumptions C26_only_governance.

(** C27. *)
Theorem C27_key_query : forall wsid crypto g r p ops a t,
  get_public_key (mrun wsid crypto g r p ops) a t =
  match last_key (mlog wsid crypto g r p ops) a t with
  | Some b => Ok {| pk_type := t; pk_bytes := b |}
  | None => Err MStdError
  end.
Proof. exact c27_key. Qed.
Print Assumptions C27_key_query.

Theorem C27_key_length : forall s a t b,
  is_ok (register_pub_key s a t b) = true <-> key_length_ok t (String.length b).
Proof. exact c27_bad_key. Qed.
Print Assumptions C27_key_length.

Theorem C27_signature_length : forall wsid crypto g r p ops h a id b msg ws sg,
  no_collision wsid ops -> started_with wsid (mlog wsid crypto g r p ops) id msg ws ->
  ws_signers ws !! a = Some sg ->
  ~ sig_length_ok (pk_type (sg_key sg)) (String.length b) ->
  submit_signature crypto (mrun wsid crypto g r p ops) h a id b = Err InvalidSignatureFormat.
Proof. exact c27_bad_signature. Qed.
Print Assumptions C27_signature_length.

(** A history with a session completed at height 11 by the second of three
    signatures, with refused submissions in between. *)
Example multisig_nonvacuous :
  let ops := ex_ops 5 ++ ex_signs in
  no_collision ex_wsid ops /\
  started_with ex_wsid (ex_log ops) 1 ex_msg (ex_set 5) /\
  signed_by (ex_log ops) 1 = ["alice"; "bob"; "carol"] /\
  completions (ex_log ops) 1 = [11] /\
  started_ids (ex_log ops) = [1] /\
  (exists mu, get_multisig (ex_run ops) 1 = Ok mu /\ mu_state mu = MCompleted 11 /\ mu_quorum mu = 5 /\
     length (omap snd (mu_signers mu)) = 3%nat) /\
  (exists mu, get_multisig (ex_run (ex_ops 5 ++ firstn 4 ex_signs)) 1 = Ok mu /\ mu_state mu = MPending) /\
  authorized (ex_log ops) "prover" /\
  last_key (ex_log ops) "alice" KEcdsa = Some (repeat_char 65 "b") /\
  multisig_step ex_wsid ex_crypto (ex_run (ex_ops 5 ++ firstn 5 ex_signs))
    (SubmitSignature 22 "carol" 1 (repeat_char 65 "s")) = Err SigningSessionClosed.
Proof. exact ex_history. Qed.
