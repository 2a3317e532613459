(** C91, C92: the worker daemon as a whole, and setting up a worker. *)
From Verif Require Import Base Text StdModel StdSpec RouterTypes RegistryTypes MultisigTypes OperatorsModel RegistryModel RegistrySpec
  MultisigModel EncodingModel VerifierModel EventsModel HandlersModel HandlersSpec HandlersProofs3 HandlersExamples SubscriptionModel SubscriptionSpec SubscriptionExamples
  QueueModel QueueSpec MultisigExamples EncodingExamples ProverExamples SigningExamples SystemModel SystemSpec SystemExamples
  DaemonModel DaemonSpec DaemonProofs DaemonProofs2 DaemonProofs4 DaemonSpec2 DaemonProofs6 DaemonProofs5 DaemonExamples.

(** ** C91 *)

(** An accepted configuration gives every handler its own name, unless an EVM
    chain is called "sui". *)
Theorem C91_names : forall l, accepted l = true -> (no_evm_sui l <-> NoDup (label <$> l)).
Proof. exact labels_distinct. Qed.
Print Assumptions C91_names.
Example C91_ex_names :
  accepted [EvmMsgVerifier "a" "Ethereum"; EvmMsgVerifier "b" "polygon"; EvmWorkerSetVerifier "a" "Ethereum";
            MultisigSigner "m"; SuiMsgVerifier "c"; SuiWorkerSetVerifier "c"] = true /\
  accepted [EvmMsgVerifier "a" "Ethereum"; EvmMsgVerifier "b" "Ethereum"] = false /\
  accepted [MultisigSigner "a"; MultisigSigner "b"] = false.
Proof. split; [|split]; vm_compute; reflexivity. Qed.

(** If one is: that handler ends with its first block, the daemon does not
    fail, and the blocks are recorded as handled. *)
Theorem C91_names_refuted : accepted [EvmMsgVerifier "verifier" "sui"; SuiMsgVerifier "sui verifier"] = true /\
  exists x r o1 o2, (rn_handlers x).*1 = [EvmMsgVerifier "verifier" "sui"; SuiMsgVerifier "sui verifier"] /\
  dx_daemon hs_poll (dx_heights "sui-msg-verifier" 5) x = Ok r /\
  lb_outcomes r = [("sui-msg-verifier", o1); ("sui-msg-verifier", o2)] /\ ho_given o1 = frame (6, []) /\ ho_end o1 = HandlerError /\
  delivered (lb_calls r) = [dx_sui_vote] /\ lb_heights r !! "sui-msg-verifier" = Some 8 /\ lb_exit r = Ok tt.
Proof. exact (conj eq_refl (ex_intro _ dx_sui_run (match dx_sui with ex_intro _ r (ex_intro _ o1 (ex_intro _ o2 H)) =>
  ex_intro _ r (ex_intro _ o1 (ex_intro _ o2 (conj eq_refl H))) end))). Qed.
Print Assumptions C91_names_refuted.
(** A chain can be configured twice, written in two ways: the worker then votes
    twice in the same poll. *)
Theorem C91_once_per_chain_refuted : accepted dx_twice = true /\
  exists r, dx_daemon hx_poll (dx_heights "Eth-msg-verifier" 5) dx_twice_run = Ok r /\
    handed_over hx_acc hs_b58 hm_key "w1" dx_twice_run r = [[dx_vote "w1"]; [dx_vote "w1"]] /\
    delivered (lb_calls r) = [dx_vote "w1"; dx_vote "w1"].
Proof. exact (conj eq_refl dx_voted_twice). Qed.
Print Assumptions C91_once_per_chain_refuted.

(** If the queue ends without error, exactly what the handlers made was
    broadcast successfully, each handler's in its order. *)
Theorem C91_all_sent : forall acc b58 de_key worker decode json B estimate broadcast limit s (x : drun B) r,
  run_daemon acc b58 de_key worker decode json estimate broadcast limit s x = Ok r ->
  channel_keeps acc b58 de_key worker x r -> lb_queue r = Finished ->
  interleaved (handed_over acc b58 de_key worker x r) (delivered (lb_calls r)).
Proof. exact (fun acc b58 de_key worker decode json B => @finished_delivers acc b58 de_key worker decode json B). Qed.
Print Assumptions C91_all_sent.

(** Then every block up to the height recorded for a handler was handled: each
    of its events without error, and what the handler made was broadcast. *)
Theorem C91_recorded : forall acc b58 de_key worker decode json B estimate broadcast limit s (x : drun B) r c t r0,
  run_daemon acc b58 de_key worker decode json estimate broadcast limit s x = Ok r ->
  fair_daemon decode json acc b58 de_key worker s x c t -> s !! label c = Some r0 ->
  channel_keeps acc b58 de_key worker x r -> (rn_killed x = false -> lb_queue r = Finished) ->
  exists r1, lb_heights r !! label c = Some r1 /\
    forall k, r0 < k -> k <= r1 ->
      exists o evs, (label c, o) ∈ lb_outcomes r /\ answered decode json (rn_inputs x) k evs /\
        block_served acc b58 de_key worker c t (ho_given o) k evs (delivered (lb_calls r)).
Proof. exact (fun acc b58 de_key worker decode json B => @run_served acc b58 de_key worker decode json B). Qed.
Print Assumptions C91_recorded.
(** ... and so across any number of restarts. *)
Theorem C91_restarts : forall acc b58 de_key worker decode json B estimate broadcast limit s (xs : list (drun B)) s' log l r,
  run_daemons acc b58 de_key worker decode json estimate broadcast limit s xs = (s', log) -> s !! l = Some r ->
  Forall (orderly decode json acc b58 de_key worker l) log ->
  exists r', s' !! l = Some r' /\ forall k, r < k -> k <= r' ->
    Exists (served_in decode json acc b58 de_key worker l k) log.
Proof. exact (fun acc b58 de_key worker decode json B => @runs_serve acc b58 de_key worker decode json B). Qed.
Print Assumptions C91_restarts.
(** So a worker's vote in a poll of its chain, opened in a block up to the
    recorded height, was broadcast, if the height was known to be below the
    poll's expiry while that block was handled. *)
Theorem C91_votes : forall acc b58 de_key worker decode json B estimate broadcast limit s (xs : list (drun B)) s' log
    contract name r k jsn es meta gw,
  run_daemons acc b58 de_key worker decode json estimate broadcast limit s xs = (s', log) ->
  s !! (name +:+ "-msg-verifier") = Some r ->
  Forall (orderly decode json acc b58 de_key worker (name +:+ "-msg-verifier")) log ->
  acc contract = true -> Forall (fun a => acc a = true) (pm_participants meta) ->
  jsn contract = None -> jsn (pm_chain meta) = None -> jsn (pm_gateway meta) = None ->
  wf_chain (pm_chain meta) -> hex_bytes 20 (pm_gateway meta) gw ->
  pm_poll_id meta < 2 ^ 64 -> pm_confirmations meta < 2 ^ 64 -> pm_expires_at meta < 2 ^ 64 ->
  Forall evm_form es -> lower name = pm_chain meta -> worker ∈ pm_participants meta ->
  (forall s0 x y evs, (s0, x, y) ∈ log -> answered decode json (rn_inputs x) k evs ->
     messages_poll_event jsn contract es meta ∈ evs) ->
  (forall s0 x y c t given, (s0, x, y) ∈ log -> (c, t) ∈ rn_handlers x -> label c = name +:+ "-msg-verifier" ->
     c = EvmMsgVerifier contract name /\ (inside k given -> ce_height (te_calls t given) < pm_expires_at meta)) ->
  exists r', s' !! (name +:+ "-msg-verifier") = Some r' /\ (r < k -> k <= r' ->
    exists s0 x y votes, (s0, x, y) ∈ log /\ length votes = length es /\
      {| wt_sender := worker; wt_contract := contract; wt_body := BodyVote (pm_poll_id meta) votes |} ∈ delivered (lb_calls y)).
Proof. exact (fun acc b58 de_key worker decode json B => @runs_vote acc b58 de_key worker decode json B). Qed.
Print Assumptions C91_votes.
Example C91_ex : exists r, dx_daemons hx_poll (dx_heights "Eth-msg-verifier" 5) [dx_run1 true false] =
    (lb_heights r, [(dx_heights "Eth-msg-verifier" 5 : heights, dx_run1 true false, r)]) /\
  orderly sx_decode (dx_json hx_poll) hx_acc hs_b58 hm_key "w1" "Eth-msg-verifier"
    (dx_heights "Eth-msg-verifier" 5 : heights, dx_run1 true false, r) /\
  lb_heights r !! "Eth-msg-verifier" = Some 8 /\ delivered (lb_calls r) = [dx_vote "w1"].
Proof. exact dx_delivered. Qed.
Example C91_ex_poll :
  (forall evs, answered sx_decode (dx_json hx_poll) (rn_inputs (dx_run1 true false)) 7 evs ->
     messages_poll_event hx_json "verifier" hx_events hx_meta ∈ evs) /\
  (forall c t given, (c, t) ∈ rn_handlers (dx_run1 true false) -> label c = "Eth-msg-verifier" ->
     c = EvmMsgVerifier "verifier" "Eth" /\ (inside 7 given -> ce_height (te_calls t given) < pm_expires_at hx_meta)) /\
  Forall evm_form hx_events /\ hex_bytes 20 (pm_gateway hx_meta) hx_gw /\ wf_chain (pm_chain hx_meta) /\
  lower "Eth" = pm_chain hx_meta.
Proof. exact dx_poll_hyps. Qed.

(** The same for all five handlers: whatever asked the worker for something in
    a block up to the recorded height was done, rightly, and broadcast. *)
Theorem C91_handlers : forall acc b58 de_key worker decode json B estimate broadcast limit s (xs : list (drun B)) s' log c r k ev,
  run_daemons acc b58 de_key worker decode json estimate broadcast limit s xs = (s', log) ->
  s !! label c = Some r -> Forall (orderly decode json acc b58 de_key worker (label c)) log ->
  (forall s0 x y evs, (s0, x, y) ∈ log -> answered decode json (rn_inputs x) k evs -> ev ∈ evs) ->
  (forall s0 x y c' t given, (s0, x, y) ∈ log -> (c', t) ∈ rn_handlers x -> label c' = label c ->
     c' = c /\ (inside k given -> concerns worker c (ce_height (te_calls t given)) ev)) ->
  exists r', s' !! label c = Some r' /\ (r < k -> k <= r' ->
    exists s0 x y t given tx, (s0, x, y) ∈ log /\ (c, t) ∈ rn_handlers x /\ inside k given /\
      does b58 de_key worker c (te_calls t given) ev tx /\ tx ∈ delivered (lb_calls y)).
Proof. exact (fun acc b58 de_key worker decode json B => @runs_do acc b58 de_key worker decode json B). Qed.
Print Assumptions C91_handlers.
Example C91_concerned :
  concerns "w1" (EvmMsgVerifier "verifier" "Eth") 49 hx_poll /\
  concerns "w1" (EvmWorkerSetVerifier "verifier" "Eth") 49 hx_ws_poll /\
  concerns "w1" (SuiMsgVerifier "sui verifier") 49 hs_poll /\
  concerns "w1" (SuiWorkerSetVerifier "sui verifier") 49 hs_ws_poll /\
  concerns "w1" (MultisigSigner "multisig") 49 hm_event.
Proof. exact dx_concerns. Qed.

(** What the daemon reports: told to stop, that it could write its heights and
    nothing else; otherwise success only if the first task to end did not fail. *)
Theorem C91_exit : forall acc b58 de_key worker decode json B estimate broadcast limit s (x : drun B) r,
  run_daemon acc b58 de_key worker decode json estimate broadcast limit s x = Ok r ->
  (rn_signal x = true -> lb_exit r = if rn_flush x then Ok tt else Err ReturnState) /\
  (rn_signal x = false -> lb_exit r = Ok tt -> rn_flush x = true /\
     match rn_first x with
     | TaskHandlers => forall l o, (l, o) ∈ lb_outcomes r -> ho_end o <> StreamError /\ ho_end o <> HandlerError
     | TaskQueue => (forall e, lb_queue r <> QueueModel.Stopped e) /\ lb_queue r <> Crashed
     | TaskHeight => rn_height x = true
     | _ => True
     end).
Proof. exact (fun acc b58 de_key worker decode json B => @run_exit acc b58 de_key worker decode json B). Qed.
Print Assumptions C91_exit.

(** Without the condition on the queue this is false: after a failed broadcast
    the heights are written all the same, the daemon reports an error or, if
    it was told to stop, none, and the next run starts behind the block. *)
Theorem C91_recorded_refuted : forall signal : bool,
  exists (acc : string -> bool) (b58 : string -> option string) (de_key : jval -> option string) (worker : addr)
    (decode : string -> option string) (json : string -> option jval)
    (estimate : bool -> list wasm_tx -> bool * option N) (broadcast : bool -> list wasm_tx -> bool * bool) (limit : N)
    c t1 t2 s x1 r1 x2 r2 k tx h1 h2,
    (* the first run *)
    run_daemon acc b58 de_key worker decode json estimate broadcast limit s x1 = Ok r1 /\
    fair_daemon decode json acc b58 de_key worker s x1 c t1 /\ channel_keeps acc b58 de_key worker x1 r1 /\
    rn_handlers x1 = [(c, t1)] /\ rn_killed x1 = false /\ s !! label c = Some h1 /\ h1 < k /\
    (exists evs ev before, answered decode json (rn_inputs x1) k evs /\ ev ∈ evs /\
       handle acc b58 de_key worker c (te_calls t1 before) ev = Ok (Some tx)) /\
    handed_over acc b58 de_key worker x1 r1 = [[tx]] /\ delivered (lb_calls r1) = [] /\
    lb_exit r1 = (if signal then Ok tt else Err BroadcasterFailed) /\
    lb_heights r1 !! label c = Some h2 /\ k <= h2 /\
    (* the second *)
    run_daemon acc b58 de_key worker decode json estimate broadcast limit (lb_heights r1) x2 = Ok r2 /\
    fair_daemon decode json acc b58 de_key worker (lb_heights r1) x2 c t2 /\ lb_queue r2 = Finished /\ rn_handlers x2 = [(c, t2)] /\
    rn_killed x2 = false /\ handed_over acc b58 de_key worker x2 r2 = [[]] /\ lb_heights r2 !! label c = Some (h2 + 1).
Proof. exact dx_lost. Qed.
Print Assumptions C91_recorded_refuted.

(** ** C92 *)

(** An authorised worker that runs the three commands, with enough coins for
    the bond, is active on the chains it declared, with the key of its daemon. *)
Theorem C92_onboarding : forall keccak wshash sec1 crypto account dep txs saved t cf key svc sv w amount chains ma g gm rm nm
    gas1 gas2 gas3 e1 e2 e3 s mst,
  let a := account key in
  let sstep := system_step keccak wshash sec1 crypto in
  let st := sysrun keccak wshash sec1 crypto dep txs in
  worker_key saved t cf = Ok key -> String.length key = 33%nat ->
  dep !! cf_registry cf = Some (DRegistry g) -> multisig_address cf = Some ma -> dep !! ma = Some (DMultisig gm rm nm) ->
  dep !! a = None ->
  st !! cf_registry cf = Some (CRegistry s) -> st !! ma = Some (CMultisig mst) ->
  sr_services s !! svc = Some sv -> sr_workers s !! (svc, a) = Some w -> w_auth w = Authorized ->
  0 < amount -> owed (w_bond w) + amount < U128 -> sv_min_bond sv <= owed (w_bond w) + amount ->
  exists m1 m2 m3 st1 st2 st3 k1 k2 k3,
    run_command account saved t cf (CmdBond svc amount (sv_denom sv)) = Ok (a, m1) /\
    run_command account saved t cf (CmdDeclare svc chains) = Ok (a, m2) /\
    run_command account saved t cf CmdRegisterKey = Ok (a, m3) /\
    sstep st {| tx_gas := S gas1; tx_env := e1; tx_sender := a; tx_sub := m1 |} = Ok (st1, k1) /\
    sstep st1 {| tx_gas := S gas2; tx_env := e2; tx_sender := a; tx_sub := m2 |} = Ok (st2, k2) /\
    sstep st2 {| tx_gas := S gas3; tx_env := e3; tx_sender := a; tx_sub := m3 |} = Ok (st3, k3) /\
    (forall e n ch, ch ∈ chains -> exists ws w', q_active e n st3 (cf_registry cf) svc ch = Some ws /\ w' ∈ ws /\
       w_addr w' = a /\ w_bond w' = Bonded (owed (w_bond w) + amount)) /\
    (forall e n, q_key e n st3 ma a KEcdsa = Some {| pk_type := KEcdsa; pk_bytes := key |}).
Proof. exact onboarding. Qed.
Print Assumptions C92_onboarding.
Example C92_ex_onboarding :
  worker_key None dx_dave_tofnd dx_cf = Ok dx_dave /\ String.length dx_dave = 33%nat /\
  sys_dep !! cf_registry dx_cf = Some (DRegistry "gov") /\ multisig_address dx_cf = Some "multisig" /\
  sys_dep !! "multisig" = Some (DMultisig "gov" "rewards" 10) /\ sys_dep !! dx_account dx_dave = None /\
  exists s mst sv w, sys_run sys_setup !! cf_registry dx_cf = Some (CRegistry s) /\ sys_run sys_setup !! "multisig" = Some (CMultisig mst) /\
    sr_services s !! "validators" = Some sv /\ sr_workers s !! ("validators", dx_account dx_dave) = Some w /\
    w_auth w = Authorized /\ owed (w_bond w) = 0 /\ sv_min_bond sv = 100 /\ sv_denom sv = "uaxl".
Proof. exact dx_joins. Qed.

(** It can sign if its key was made under the address of the multisig. *)
Theorem C92_signs : forall acc b58 de_key pub sig ms tf cf key contract a v json session keys digest w,
  derived_keys pub sig ms tf -> worker_key None tf cf = Ok key -> cf_key_uid cf = contract ->
  ce_sign v = tf_sign tf -> ce_open v = true ->
  acc contract = true -> json contract = None -> json (to_hex digest) = None ->
  Forall (fun x => acc x.1 = true /\ is_Some (de_key x.2)) keys -> NoDup keys.*1 -> (a, w) ∈ keys -> de_key w = Some key ->
  session < 2 ^ 64 -> String.length digest = 32%nat ->
  exists m, m ∈ ms /\ pub m contract = key /\
  handle acc b58 de_key a (MultisigSigner contract) v (signing_event json contract session keys digest) =
    Ok (Some {| wt_sender := a; wt_contract := contract; wt_body := BodySignature session (sig m contract digest) |}).
Proof. exact cf_signs. Qed.
Print Assumptions C92_signs.
(** With any other key id, as the default, every request to sign is an error, *)
Theorem C92_default_key_id_errs : forall acc b58 de_key pub sig ms tf cf key contract a v ev,
  derived_keys pub sig ms tf -> ids_apart pub -> worker_key None tf cf = Ok key -> cf_key_uid cf <> contract ->
  ce_sign v = tf_sign tf -> asks_to_sign de_key ev contract a key ->
  handle acc b58 de_key a (MultisigSigner contract) v ev = Err SignError \/
  handle acc b58 de_key a (MultisigSigner contract) v ev = Err DeserializeEvent.
Proof. exact cf_errs. Qed.
Print Assumptions C92_default_key_id_errs.
(** ... and the signer never gets past the first one, however often the daemon
    is started. *)
Theorem C92_default_key_id_stuck : forall acc b58 de_key pub sig ms tf worker decode json B estimate broadcast limit cf key contract
    s (xs : list (drun B)) s' log r k,
  derived_keys pub sig ms tf -> ids_apart pub -> worker_key None tf cf = Ok key -> cf_key_uid cf <> contract ->
  run_daemons acc b58 de_key worker decode json estimate broadcast limit s xs = (s', log) ->
  s !! "multisig-signer" = Some r -> r < k ->
  (forall s0 x y, (s0, x, y) ∈ log -> "multisig-signer" ∉ label <$> (rn_handlers x).*1 \/
     exists t, fair_daemon decode json acc b58 de_key worker s0 x (MultisigSigner contract) t /\
       forall given, ce_sign (te_calls t given) = tf_sign tf) ->
  (forall s0 x y evs, (s0, x, y) ∈ log -> answered decode json (rn_inputs x) k evs ->
     exists ev, ev ∈ evs /\ asks_to_sign de_key ev contract worker key) ->
  exists r', s' !! "multisig-signer" = Some r' /\ r' < k.
Proof. exact (fun acc b58 de_key pub sig ms tf worker decode json B => @cf_stuck acc b58 de_key pub sig ms tf worker decode json B). Qed.
Print Assumptions C92_default_key_id_stuck.
(** A key daemon with two mnemonics, a worker with the default key id, its
    registration, and two runs. *)
Example C92_ex_keys : derived_keys dx_pub dx_sig ["new"; "old"] dx_tofnd /\ ids_apart dx_pub /\
  run_command dx_account None dx_tofnd dx_default CmdRegisterKey =
    Ok (dx_account (dx_pub "new" "axelar"),
        {| sb_to := "multisig"; sb_body := BRegisterPublicKey KEcdsa (dx_pub "new" "axelar"); sb_funds := []; sb_reply := false |}) /\
  String.length (dx_pub "new" "axelar") = 33%nat.
Proof. exact (conj dx_derived (conj dx_ids_apart (conj eq_refl eq_refl))). Qed.
Example C92_ex_stuck : length dx_signed.2 = 2%nat /\ dx_signed.1 !! "multisig-signer" = Some 6 /\
  forall s0 x y, (s0, x, y) ∈ dx_signed.2 ->
    (exists t, fair_daemon sx_decode (dx_json dx_sign_event) hx_acc hs_b58 hm_key "w1" s0 x (MultisigSigner "multisig") t /\
       forall given, ce_sign (te_calls t given) = tf_sign dx_tofnd) /\
    (forall evs, answered sx_decode (dx_json dx_sign_event) (rn_inputs x) 7 evs ->
       exists ev, ev ∈ evs /\ asks_to_sign hm_key ev "multisig" "w1" (dx_pub "new" "axelar")) /\
    delivered (lb_calls y) = [].
Proof. exact dx_stuck. Qed.
