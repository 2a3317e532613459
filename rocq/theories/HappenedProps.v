(** C113: what happened on the source chain gets verified. Vocabulary:
    HappenedSpec.v, ParticipantsSpec.v. *)
From Verif Require Import Base Text StdModel StdSpec RouterTypes RegistryTypes OperatorsModel EncodingModel
  VerifierModel VerifierSpec VerifierExamples LivenessSpec EventsModel HandlersModel HandlersSpec HandlersProofs3 WorkersSpec HandlersExamples
  MonitorExamples ParticipantsSpec HappenedSpec HappenedProofs HappenedExamples.

(** A message that was asked about is Verified once enough of the workers do
    their part, their nodes showing its call, whatever the other workers vote
    and whatever else is called. *)
Theorem C113_message_gets_verified : forall k cfg ops1 h reg ms s' sts es meta workers ops2 idx m acc json contract chain gw (voters : list addr),
  valid_vconfig cfg ->
  verifier_step k (vrun k cfg ops1) (VerifyMessages h reg ms) = Ok (s', OutVerify sts (Some (es, meta))) ->
  reg (vc_registry cfg) (vc_service cfg) (vc_chain cfg) = Some workers ->
  let asked := List.filter (wants_poll k (vrun k cfg ops1)) ms in
  asked !! idx = Some m ->
  (forall j m', asked !! j = Some m' -> message_key k m' = message_key k m -> (j <= idx)%nat) ->
  in_order ops2 ->
  plain_poll acc json {| hc_worker := ""; hc_contract := contract; hc_chain := chain |} meta ->
  hex_bytes 20 (vc_gateway cfg) gw -> Forall evm_form es -> lower (evm_chain_str chain) = vc_chain cfg ->
  NoDup voters ->
  (forall a, a ∈ voters -> a ∈ w_addr <$> workers /\
     does_its_part contract chain meta (messages_poll_event json contract es meta) (log (verifier_step k) s' ops2) (evm_msg_handler acc)
       (fun rpc => evm_shows chain (vc_confirmations cfg) rpc (vc_gateway cfg) m) a) ->
  N.of_nat (length workers) * t_num (vc_threshold cfg) <= N.of_nat (length voters) * t_den (vc_threshold cfg) ->
  message_status k (vrun k cfg (ops1 ++ VerifyMessages h reg ms :: ops2)) m = Ok Verified.
Proof. exact happened_verified. Qed.
Print Assumptions C113_message_gets_verified.

(** So is a worker set the gateway handed over to, unless somebody asks about
    it again. *)
Theorem C113_worker_set_gets_verified : forall k cfg ops1 h reg mid o s' tx n o' meta workers ops2 acc json contract chain gw t (voters : list addr),
  valid_vconfig cfg ->
  verifier_step k (vrun k cfg ops1) (VerifyWorkerSet h reg mid o) = Ok (s', OutWorkerSet tx n o' meta) ->
  reg (vc_registry cfg) (vc_service cfg) (vc_chain cfg) = Some workers ->
  (forall h' reg' mid' o' out, (VerifyWorkerSet h' reg' mid' o', out) ∈ log (verifier_step k) s' ops2 ->
     operators_key k o' <> operators_key k o) ->
  plain_poll acc json {| hc_worker := ""; hc_contract := contract; hc_chain := chain |} meta ->
  hex_bytes 20 (vc_gateway cfg) gw -> evm_operators_form o -> hex_bytes 32 tx t -> n < 2 ^ 64 -> lower (evm_chain_str chain) = vc_chain cfg ->
  NoDup voters ->
  (forall a, a ∈ voters -> a ∈ w_addr <$> workers /\
     does_its_part contract chain meta (worker_set_poll_event json contract tx n o meta) (log (verifier_step k) s' ops2) (evm_ws_handler acc)
       (fun rpc => evm_shows_transfer chain (vc_confirmations cfg) rpc (vc_gateway cfg) mid o) a) ->
  N.of_nat (length workers) * t_num (vc_threshold cfg) <= N.of_nat (length voters) * t_den (vc_threshold cfg) ->
  worker_set_status k (vrun k cfg (ops1 ++ VerifyWorkerSet h reg mid o :: ops2)) o = Ok Verified.
Proof. exact happened_verified_set. Qed.
Print Assumptions C113_worker_set_gets_verified.

(** Two of three workers do their part, the third votes that it found nothing. *)
Example C113_ex_part : forall a, a = "w1" \/ a = "w2" ->
  does_its_part "verifier" (OtherChain "Eth") mx_meta (messages_poll_event hx_json "verifier" [hp_te] mx_meta)
    (log (verifier_step mx_k) hp_state hp_later) (evm_msg_handler hx_acc)
    (fun rpc => evm_shows (OtherChain "Eth") 5 rpc (vc_gateway hx_vcfg) hx_m1) a.
Proof. exact hp_part. Qed.
Example C113_ex_step : verifier_step mx_k (vrun mx_k hx_vcfg []) mx_op = Ok (hp_state, mx_out).
Proof. exact hp_step. Qed.
Example C113_ex_verified : message_status mx_k (vrun mx_k hx_vcfg ([] ++ VerifyMessages 40 ex_reg [hx_m1] :: hp_later)) hx_m1 = Ok Verified.
Proof. exact hp_verified. Qed.
Example C113_ex_part_set : forall a, a = "w1" \/ a = "w2" ->
  does_its_part "verifier" (OtherChain "Eth") mx_meta (worker_set_poll_event hx_json "verifier" ("0x" +:+ to_hex hx_tx1) 2 hx_operators mx_meta)
    (log (verifier_step mx_k) hp_state2 hp_later) (evm_ws_handler hx_acc)
    (fun rpc => evm_shows_transfer (OtherChain "Eth") 5 rpc (vc_gateway hx_vcfg) hp_id hx_operators) a.
Proof. exact hp_part2. Qed.
Example C113_ex_verified_set : worker_set_status mx_k (vrun mx_k hx_vcfg ([] ++ hp_request :: hp_later)) hx_operators = Ok Verified.
Proof. exact hp_verified2. Qed.
