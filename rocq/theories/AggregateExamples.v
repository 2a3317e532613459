(** Concrete answers of a verifier. *)
From Verif Require Import Base Text StdModel RegistryTypes RouterTypes OperatorsModel VerifierModel VerifierSpec VerifierExamples
  AggregateModel AggregateSpec AggregateProofs.

(** a verifier whose answer has the shape the contract expects *)
Definition plain_call (to : addr) (s : N) (ms : list message) : option (N * option payload) :=
  if String.eqb to "verifier" then Some (s + 1, Some (Json (statuses_json ((fun m => (m_cc m, true)) <$> ms)))) else None.
Definition ex_agg_msg : message :=
  {| m_cc := {| cc_chain := "ethereum"; cc_id := "0xabc:1" |}; m_src := "a"; m_dchain := "sui"; m_daddr := "b"; m_hash := "h" |}.
Example ex_relay : agg_verify plain_call "verifier" 5 [ex_agg_msg] =
  Ok (6, Json (statuses_json [({| cc_chain := "ethereum"; cc_id := "0xabc:1" |}, true)])).
Proof. vm_compute. reflexivity. Qed.
Example ex_wf : wf_ccid (m_cc ex_agg_msg).
Proof. split; [vm_compute; reflexivity|done]. Qed.

(** the voting verifier accepts a request and answers a query; passed on by
    the aggregate verifier, both fail *)
Lemma c54_lost : exists keccak height reg me s ms s' d a,
  voting_call keccak height reg me me s ms = Some (s', Some d) /\ voting_ask keccak me me s ms = Some a /\
  is_ok (agg_verify (voting_call keccak height reg me) me s ms) = false /\
  forall b64, is_ok (agg_query (voting_ask keccak me) b64 me s ms) = false.
Proof.
  exists (fun x => x), 5, ex_reg, "verifier", (verifier_init ex_cfg), [ex_m1].
  eexists _, _, _. split; [vm_compute; reflexivity|]. split; [vm_compute; reflexivity|].
  split; [apply c54_voting_verify|]. intros. apply c54_voting_query.
Qed.
