(** C113 for Sui chains: what happened on the source chain gets verified.
    Vocabulary: HappenedSuiSpec.v, ParticipantsSpec.v, SuiWorkersSpec.v. *)
From Verif Require Import Base Text StdModel StdSpec RouterTypes RegistryTypes OperatorsModel EncodingModel
  VerifierModel VerifierSpec VerifierExamples LivenessSpec EventsModel HandlersModel HandlersSpec HandlersProofs3 WorkersSpec HandlersExamples
  MonitorExamples ParticipantsSpec SuiWorkersSpec SuiWorkersExamples HappenedExamples HappenedSuiSpec HappenedSuiProofs HappenedSuiExamples.

(** A message that was asked about is Verified once enough of the workers do
    their part, their nodes holding its call and answering for the poll's
    transactions, whatever the other workers vote and whatever else is called. *)
Theorem C113_sui_message_gets_verified : forall k cfg ops1 h reg ms s' sts es meta workers ops2 idx m acc b58 json contract chain gw (voters : list addr),
  valid_vconfig cfg ->
  verifier_step k (vrun k cfg ops1) (VerifyMessages h reg ms) = Ok (s', OutVerify sts (Some (es, meta))) ->
  reg (vc_registry cfg) (vc_service cfg) (vc_chain cfg) = Some workers ->
  let asked := List.filter (wants_poll k (vrun k cfg ops1)) ms in
  asked !! idx = Some m ->
  (forall j m', asked !! j = Some m' -> message_key k m' = message_key k m -> (j <= idx)%nat) ->
  in_order ops2 ->
  plain_poll acc json {| hc_worker := ""; hc_contract := contract; hc_chain := chain |} meta ->
  hex_bytes 32 (vc_gateway cfg) gw -> Forall (sui_form b58) es ->
  NoDup voters ->
  (forall a, a ∈ voters -> a ∈ w_addr <$> workers /\
     does_its_part_sui contract chain meta (messages_poll_event json contract es meta) (log (verifier_step k) s' ops2) (sui_msg_handler acc b58)
       (fun rpc => answers_poll b58 rpc es /\ sui_has b58 (vc_gateway cfg) m rpc) a) ->
  N.of_nat (length workers) * t_num (vc_threshold cfg) <= N.of_nat (length voters) * t_den (vc_threshold cfg) ->
  message_status k (vrun k cfg (ops1 ++ VerifyMessages h reg ms :: ops2)) m = Ok Verified.
Proof. exact happened_sui. Qed.
Print Assumptions C113_sui_message_gets_verified.

(** So is a worker set the gateway handed over to, unless somebody asks about
    it again. *)
Theorem C113_sui_worker_set_gets_verified : forall k cfg ops1 h reg mid o s' tx n o' meta workers ops2 acc b58 json contract chain gw t (voters : list addr),
  valid_vconfig cfg ->
  verifier_step k (vrun k cfg ops1) (VerifyWorkerSet h reg mid o) = Ok (s', OutWorkerSet tx n o' meta) ->
  reg (vc_registry cfg) (vc_service cfg) (vc_chain cfg) = Some workers ->
  (forall h' reg' mid' o' out, (VerifyWorkerSet h' reg' mid' o', out) ∈ log (verifier_step k) s' ops2 ->
     operators_key k o' <> operators_key k o) ->
  plain_poll acc json {| hc_worker := ""; hc_contract := contract; hc_chain := chain |} meta ->
  hex_bytes 32 (vc_gateway cfg) gw -> sui_operators_form o -> b58 tx = Some t -> n < 2 ^ 64 ->
  NoDup voters ->
  (forall a, a ∈ voters -> a ∈ w_addr <$> workers /\
     does_its_part_sui contract chain meta (worker_set_poll_event json contract tx n o meta) (log (verifier_step k) s' ops2) (sui_ws_handler acc b58)
       (sui_has_transfer b58 (vc_gateway cfg) mid o) a) ->
  N.of_nat (length workers) * t_num (vc_threshold cfg) <= N.of_nat (length voters) * t_den (vc_threshold cfg) ->
  worker_set_status k (vrun k cfg (ops1 ++ VerifyWorkerSet h reg mid o :: ops2)) o = Ok Verified.
Proof. exact happened_sui_set. Qed.
Print Assumptions C113_sui_worker_set_gets_verified.

(** Two of three workers do their part, the third votes that it found nothing. *)
Example C113_ex_sui_node : honest_blocks hn_node /\ set_order (sr_order hn_node) /\ answers_poll hs_b58 hn_node [hn_te] /\
  sui_has hs_b58 (vc_gateway sw_vcfg) (sw_msg "3") hn_node /\ sui_has_transfer hs_b58 (vc_gateway sw_vcfg) "digest1:4" hx_operators hn_node.
Proof. exact (conj hn_honest (conj hn_order (conj hn_answers (conj hn_has hn_has_transfer)))). Qed.
Example C113_ex_sui_steps : verifier_step mx_k (vrun mx_k sw_vcfg []) hn_request = Ok (hn_after hn_request, hn_out) /\
  verifier_step mx_k (vrun mx_k sw_vcfg []) hn_request2 = Ok (hn_after hn_request2, hn_out2).
Proof. exact hn_steps. Qed.
Example C113_ex_sui_verified :
  message_status mx_k (vrun mx_k sw_vcfg ([] ++ hn_request :: hp_later)) (sw_msg "3") = Ok Verified /\
  worker_set_status mx_k (vrun mx_k sw_vcfg ([] ++ hn_request2 :: hp_later)) hx_operators = Ok Verified.
Proof. exact hn_verified. Qed.
