(** C111: no open poll is left out. Vocabulary: MonitorSpec.v, MonitorSpec2.v. *)
From Verif Require Import Base Text StdModel RouterTypes RegistryTypes OperatorsModel EncodingModel VerifierModel VerifierSpec
  VerifierExamples EventsModel HandlersModel HandlersSpec HandlersProofs2 HandlersProofs3 WorkersSpec HandlersExamples
  MonitorModel MonitorSpec MonitorSpec2 MonitorProofs MonitorProofs2 MonitorExamples.

(** The height shown to handlers is the node's last answer before the first
    query that failed, or before the task was told to stop. *)
Theorem C111_shown : forall a l h0, connect a = Ok h0 ->
  exists l1 l2, Tick a :: l = l1 ++ Tick (Some (monitor h0 l).1) :: l2 /\ at_work l1 /\ forall h, head l2 <> Some (Tick (Some h)).
Proof. exact c111_shown. Qed.
Print Assumptions C111_shown.

(** The task ends with an error only because of a query that failed, and
    without one only because it was told to; it never panics. *)
Theorem C111_ends : forall l h0,
  match (monitor h0 l).2 with
  | None => at_work l
  | Some (Err _) => exists l1 l2, l = l1 ++ Tick None :: l2 /\ at_work l1
  | Some (Ok _) => exists l1 l2, l = l1 ++ TokenCancelled :: l2 /\ at_work l1
  | Some Panic => False
  end.
Proof. exact c111_ends. Qed.
Print Assumptions C111_ends.

(** If the node never claims a height the chain has not reached, neither does
    the monitor. *)
Theorem C111_true : forall now l a tl h0,
  l.*2 = Tick a :: tl -> truthful now l -> connect a = Ok h0 -> (monitor h0 tl).1 <= now.
Proof. exact c111_true. Qed.
Print Assumptions C111_true.

(** So a poll that lists this worker and that their handler leaves out is over:
    the verifier takes no vote in it from then on, whatever happens. *)
Theorem C111_passed_over : forall k c ops op s' out ops' id expires workers subj acc b58 cfg ev ty now l a tl h0 H w vs r,
  verifier_step k (vrun k c ops) op = Ok (s', out) -> opens c (op, out) id expires workers subj ->
  listed cfg ev ty id expires ->
  l.*2 = Tick a :: tl -> truthful now l -> connect a = Ok h0 -> passes acc b58 cfg (monitor h0 tl).1 ev ty ->
  now <= H -> verifier_step k (vrun k c (ops ++ op :: ops')) (Vote H w id vs) <> Ok r.
Proof. exact c111_passed_over. Qed.
Print Assumptions C111_passed_over.

(** And in a poll about messages in EVM form that is still open, every
    participant votes whose node knows what is final. *)
Theorem C111_open_voted : forall acc cfg rpc json es meta gw h now l a tl h0,
  acc (hc_contract cfg) = true -> Forall (fun a => acc a = true) (pm_participants meta) ->
  json (hc_contract cfg) = None -> json (pm_chain meta) = None -> json (pm_gateway meta) = None ->
  wf_chain (pm_chain meta) -> hex_bytes 20 (pm_gateway meta) gw ->
  pm_poll_id meta < 2 ^ 64 -> pm_confirmations meta < 2 ^ 64 -> pm_expires_at meta < 2 ^ 64 ->
  Forall evm_form es ->
  lower (evm_chain_str (hc_chain cfg)) = pm_chain meta -> hc_worker cfg ∈ pm_participants meta ->
  l.*2 = Tick a :: tl -> truthful now l -> connect a = Ok h0 -> now < pm_expires_at meta ->
  finalized_height (hc_chain cfg) (pm_confirmations meta) rpc = Ok h ->
  exists votes,
    evm_msg_handler acc cfg (monitor h0 tl).1 true rpc (messages_poll_event json (hc_contract cfg) es meta) =
    Ok (Some {| wt_sender := hc_worker cfg; wt_contract := hc_contract cfg;
                wt_body := BodyVote (pm_poll_id meta) votes |}) /\ length votes = length es.
Proof. exact c111_open_voted. Qed.
Print Assumptions C111_open_voted.

(** No vote is taken once its poll has expired. *)
Theorem C111_late_refused : forall k c ops op s' out ops' id expires workers subj H a vs r,
  verifier_step k (vrun k c ops) op = Ok (s', out) -> opens c (op, out) id expires workers subj -> expires <= H ->
  verifier_step k (vrun k c (ops ++ op :: ops')) (Vote H a id vs) <> Ok r.
Proof. exact late_refused. Qed.
Print Assumptions C111_late_refused.

(** What is shown is not the highest answer so far: it can fall. *)
Theorem C111_falls_refuted : exists now l a tl h0,
  l.*2 = Tick a :: tl /\ truthful now l /\ connect a = Ok h0 /\ (monitor h0 tl).1 < h0.
Proof. exact c111_falls. Qed.
Print Assumptions C111_falls_refuted.

Example C111_ex_poll : (exists s', verifier_step mx_k (vrun mx_k hx_vcfg []) mx_op = Ok (s', mx_out)) /\
  opens hx_vcfg (mx_op, mx_out) 1 50 [ex_worker "w1"; ex_worker "w2"; ex_worker "w3"] (OnMessages [hx_m1]) /\
  listed (hx_cfg "w1") mx_event "wasm-messages_poll_started" 1 50.
Proof. exact (conj mx_step (conj mx_opens mx_listed)). Qed.
Example C111_ex_truthful : forall h h' now, 44 <= h -> h' <= h -> h <= now -> truthful now (mx_line h h').
Proof. exact mx_truthful. Qed.
(** at 51 the monitor shows 50 and the poll is left out; at 50 it shows 49 and
    a vote is sent, which comes too late *)
Example C111_ex_handler :
  (monitor 43 [Tick (Some 50)]).1 = 50 /\
  passes hx_acc (fun _ => None) (hx_cfg "w1") (monitor 43 [Tick (Some 50)]).1 mx_event "wasm-messages_poll_started" /\
  evm_msg_handler hx_acc (hx_cfg "w1") (monitor 43 [Tick (Some 49)]).1 true hx_node mx_event =
    Ok (Some {| wt_sender := "w1"; wt_contract := "verifier"; wt_body := BodyVote 1 [SucceededOnChain] |}).
Proof. exact mx_handler. Qed.
