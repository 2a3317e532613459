(** C54: the aggregate verifier. *)
From Verif Require Import Base Text StdModel RegistryTypes RouterTypes OperatorsModel VerifierModel
  AggregateModel AggregateSpec AggregateProofs AggregateExamples.

(** A request succeeds exactly if the configured verifier accepts the same
    messages and answers with a list of ids and booleans; the answer is
    passed on unchanged. *)
Theorem C54_verify : forall S (call : addr -> S -> list message -> option (S * option payload)) verifier s ms s' d,
  agg_verify call verifier s ms = Ok (s', d) <->
  call verifier s ms = Some (s', Some d) /\ exists l, spells d l.
Proof. exact @c54_verify. Qed.
Print Assumptions C54_verify.

(** A query succeeds exactly if the configured verifier's answer is a string
    in base 64, and yields the bytes it encodes. *)
Theorem C54_query : forall S (ask : addr -> S -> list message -> option payload) b64 verifier s ms d,
  agg_query ask b64 verifier s ms = Ok d <-> exists t, ask verifier s ms = Some (Json (JStr t)) /\ b64 t = Some d.
Proof. exact @c54_query. Qed.
Print Assumptions C54_query.

(** The voting verifier never answers in these ways: in front of it, the
    aggregate verifier refuses every request and every query. *)
Theorem C54_voting_verify_fails : forall keccak height reg me verifier s ms,
  is_ok (agg_verify (voting_call keccak height reg me) verifier s ms) = false.
Proof. exact c54_voting_verify. Qed.
Print Assumptions C54_voting_verify_fails.
Theorem C54_voting_query_fails : forall keccak b64 me verifier s ms,
  is_ok (agg_query (voting_ask keccak me) b64 verifier s ms) = false.
Proof. exact c54_voting_query. Qed.
Print Assumptions C54_voting_query_fails.
Theorem C54_relay_refuted : exists keccak height reg me s ms s' d a,
  voting_call keccak height reg me me s ms = Some (s', Some d) /\ voting_ask keccak me me s ms = Some a /\
  is_ok (agg_verify (voting_call keccak height reg me) me s ms) = false /\
  forall b64, is_ok (agg_query (voting_ask keccak me) b64 me s ms) = false.
Proof. exact c54_lost. Qed.
Print Assumptions C54_relay_refuted.

(** A caller that reads the voting verifier's answer as ids and booleans gets
    the statuses. *)
Theorem C54_direct : forall keccak me s ms l,
  Forall (fun m => wf_ccid (m_cc m)) ms -> is_verified keccak s ms = Ok l ->
  exists p, voting_ask keccak me me s ms = Some p /\ spells p l.
Proof. exact c54_direct. Qed.
Print Assumptions C54_direct.

(** The contract and its callers read an answer in just one way. *)
Theorem C54_reading : forall p l, json_statuses p = Some l <-> spells p l.
Proof. exact json_statuses_spec. Qed.
Print Assumptions C54_reading.

(** The hypotheses above are met by these values. *)
Example C54_relays : agg_verify plain_call "verifier" 5 [ex_agg_msg] =
  Ok (6, Json (statuses_json [({| cc_chain := "ethereum"; cc_id := "0xabc:1" |}, true)])).
Proof. exact ex_relay. Qed.
Example C54_wf : wf_ccid (m_cc ex_agg_msg).
Proof. exact ex_wf. Qed.
