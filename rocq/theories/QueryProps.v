(** C106: questions and answers as texts. *)
From Verif Require Import Base BaseLemmas Text StdModel RouterTypes RegistryTypes OperatorsModel MultisigTypes
  RouterModel GatewayModel NexusModel RewardsModel RegistryModel VerifierModel MultisigModel MultisigExamples EncodingModel EncodingExamples
  ProverModel ProverExamples SigningExamples SystemModel SystemSpec SystemExamples EventsModel JsonModel
  WireModel WireSpec WireSystemModel WireSystemSpec WireExamples QueryModel QuerySpec QueryProofs QueryProofs5 QueryExamples.

(** The texts of all questions and of all answers, letter by letter. *)
Theorem C106_texts : (forall q, to_json (e_question q) = t_question q) /\ (forall a, to_json (e_answer a) = t_answer a).
Proof. exact (conj question_text answer_text). Qed.
Print Assumptions C106_texts.
Example C106_texts_are : t_question (QActive "validators" "sui") = "{""get_active_workers"":{""service_name"":""validators"",""chain_name"":""sui""}}" /\
  t_question QCurrentSet = """get_worker_set""" /\
  t_answer (AVerified [({| cc_chain := "eth"; cc_id := "0x1:0" |}, true)]) = "[[{""chain"":""eth"",""id"":""0x1:0""},true]]".
Proof. split; [|split]; vm_compute; reflexivity. Qed.

(** In every reachable state, the text of a question is answered with the text
    of what the contract's model answers, and the asker reads just that;
    contracts that do not have the question do not answer. The prover's own
    question to the multisig goes through texts, too. *)
Theorem C106_answered : forall keccak wshash sec1 recover crypto d txs oth a q,
  typed_deployment d -> Forall typed_tx txs -> proper_question q ->
  let st := qsysrun keccak wshash sec1 recover crypto d txs in is_Some (st !! a) ->
  chain_querier keccak sec1 recover oth st a (t_question q) = t_answer <$> plain_answer keccak sec1 recover oth st a q /\
  asked (chain_querier keccak sec1 recover oth st) a q = plain_answer keccak sec1 recover oth st a q.
Proof. exact c106_answered. Qed.
Print Assumptions C106_answered.
Example C106_proof_text : option_map (fun t => (substring 0 105 t, N.of_nat (String.length t))) (qx_ask "prover" (t_question (QProof 1))) =
  Some ("{""multisig_session_id"":""1"",""message_ids"":[{""chain"":""ethereum"",""id"":""0xabc:1""},{""chain"":""avalanche"",""id"":""", 5884).
Proof. exact qx_proof. Qed.

(** Whatever text is answered, it is answered as the question that it spells,
    a question with values of its types. *)
Theorem C106_any_text : forall keccak wshash sec1 recover crypto d txs oth a t r,
  typed_deployment d -> Forall typed_tx txs ->
  let st := qsysrun keccak wshash sec1 recover crypto d txs in is_Some (st !! a) ->
  chain_querier keccak sec1 recover oth st a t = Some r ->
  exists q x, proper_question q /\ plain_answer keccak sec1 recover oth st a q = Some x /\ r = t_answer x /\
    chain_querier keccak sec1 recover oth st a (t_question q) = Some r.
Proof. exact c106_any_text. Qed.
Print Assumptions C106_any_text.
Example C106_spellings : qx_ask "router" (t_question (QChainInfo "sui")) = Some qx_sui /\
  qx_ask "router" "{ ""get_chain_info"" : ""SUI"" }" = Some qx_sui /\ qx_ask "gateway" (t_question (QChainInfo "sui")) = None.
Proof. exact qx_router. Qed.

(** A whole history in which every question is a text and every answer is a
    text does what the history does in which they are not: the same state, the
    same calls, the same failures. *)
Theorem C106_system : forall keccak wshash sec1 recover crypto d txs, typed_deployment d -> Forall typed_tx txs ->
  qsysrun keccak wshash sec1 recover crypto d txs = wsysrun keccak wshash sec1 crypto d (read_qtx <$> txs) /\
  read_qentry <$> qsyslog keccak wshash sec1 recover crypto d txs = wsyslog keccak wshash sec1 crypto d (read_qtx <$> txs).
Proof. exact c106_system. Qed.
Print Assumptions C106_system.
(** So whatever is true of all histories of messages is true of all histories
    in which messages, questions and answers are texts. *)
Theorem C106_transfer : forall keccak wshash sec1 recover crypto d (P : chain -> list (tx * list call) -> Prop), typed_deployment d ->
  (forall ts, P (sysrun keccak wshash sec1 crypto d ts) (syslog keccak wshash sec1 crypto d ts)) ->
  forall txs, Forall typed_tx txs ->
    P (qsysrun keccak wshash sec1 recover crypto d txs)
      (read_entry d <$> (read_qentry <$> qsyslog keccak wshash sec1 recover crypto d txs)).
Proof. exact c106_transfer. Qed.
Print Assumptions C106_transfer.
Example C106_history : typed_deployment sys_dep /\ Forall typed_tx qx_all /\ length qx_all = 44%nat /\ qx_count (qx_log qx_all) = (39%nat, 54%nat).
Proof. exact (conj qx_deployment (conj qx_all_typed qx_counts)). Qed.

(** The verifier's question for a poll is never answered, by any contract, in
    any state. *)
Theorem C106_polls_unanswered : forall keccak wshash sec1 recover crypto d txs oth a id,
  typed_deployment d -> Forall typed_tx txs -> id < 2 ^ 64 ->
  let st := qsysrun keccak wshash sec1 recover crypto d txs in is_Some (st !! a) ->
  chain_querier keccak sec1 recover oth st a (t_question (QPoll id)) = None.
Proof. exact c106_polls. Qed.
Print Assumptions C106_polls_unanswered.
Example C106_poll_kept : (exists s p, (qx_run qx_all : gmap addr contract) !! "verifier" = Some (CVerifier s) /\ v_polls s !! 1 = Some p) /\
  qx_ask "verifier" (t_question (QPoll 1)) = None.
Proof. exact (conj qx_poll_kept qx_no_poll). Qed.
