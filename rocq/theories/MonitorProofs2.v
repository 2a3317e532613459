(** No open poll is left out. *)
From Verif Require Import Base BaseLemmas Text TextLemmas StdModel RouterTypes OperatorsModel EncodingModel VerifierModel VerifierSpec
  EventsModel HandlersModel HandlersSpec HandlersProofs2 WorkersSpec HandlersProofs3
  MonitorModel MonitorSpec MonitorSpec2 MonitorProofs.

Lemma passes_expired acc b58 cfg height ev ty poll e :
  passes acc b58 cfg height ev ty -> listed cfg ev ty poll e -> e <= height.
Proof.
  intros Hp (H1 & H2 & H3 & H4). apply N.nlt_ge. intros Hlt.
  assert (Hf : poll_for cfg height ev ty poll).
  { split; [done|]. split; [done|]. split; [done|]. exists e. done. }
  destruct Hp as [open rpc H Hc|open rpc H Hc|open rpc H|open rpc H].
  - apply evm_msg_ignored in H as [H _]. exact (H _ Hf Hc).
  - apply evm_ws_ignored in H as [H _]. exact (H _ Hf Hc).
  - apply sui_msg_ignored in H as [H _]. exact (H _ Hf).
  - apply sui_ws_ignored in H as [H _]. exact (H _ Hf).
Qed.
Lemma c111_passed_over k c ops op s' out ops' id expires workers subj acc b58 cfg ev ty now l a tl h0 H w vs r :
  verifier_step k (vrun k c ops) op = Ok (s', out) -> opens c (op, out) id expires workers subj ->
  listed cfg ev ty id expires ->
  l.*2 = Tick a :: tl -> truthful now l -> connect a = Ok h0 -> passes acc b58 cfg (monitor h0 tl).1 ev ty ->
  now <= H -> verifier_step k (vrun k c (ops ++ op :: ops')) (Vote H w id vs) <> Ok r.
Proof.
  intros Hs Ho Hli Hl Ht Hc Hp HH. eapply late_refused; [exact Hs|exact Ho|].
  pose proof (passes_expired _ _ _ _ _ _ _ _ Hp Hli). pose proof (c111_true _ _ _ _ _ Hl Ht Hc). lia.
Qed.
Lemma c111_open_voted acc cfg rpc json es meta gw h now l a tl h0 :
  acc (hc_contract cfg) = true -> Forall (fun a => acc a = true) (pm_participants meta) ->
  json (hc_contract cfg) = None -> json (pm_chain meta) = None -> json (pm_gateway meta) = None ->
  wf_chain (pm_chain meta) -> hex_bytes 20 (pm_gateway meta) gw ->
  pm_poll_id meta < 2 ^ 64 -> pm_confirmations meta < 2 ^ 64 -> pm_expires_at meta < 2 ^ 64 ->
  Forall evm_form es ->
  lower (evm_chain_str (hc_chain cfg)) = pm_chain meta -> hc_worker cfg ∈ pm_participants meta ->
  l.*2 = Tick a :: tl -> truthful now l -> connect a = Ok h0 -> now < pm_expires_at meta ->
  finalized_height (hc_chain cfg) (pm_confirmations meta) rpc = Ok h ->
  exists votes,
    evm_msg_handler acc cfg (monitor h0 tl).1 true rpc (messages_poll_event json (hc_contract cfg) es meta) =
    Ok (Some {| wt_sender := hc_worker cfg; wt_contract := hc_contract cfg;
                wt_body := BodyVote (pm_poll_id meta) votes |}) /\ length votes = length es.
Proof.
  intros H1 H2 H3 H4 H5 H6 H7 H8 H9 H10 H11 H12 H13 Hl Ht Hc Hn Hf.
  pose proof (c111_true _ _ _ _ _ Hl Ht Hc). eapply messages_handled; try done. lia.
Qed.

(** ** A node that lags behind *)

(** The height shown can fall, and a handler can vote in a poll that is over. *)
Lemma c111_falls : exists now l a tl h0, l.*2 = Tick a :: tl /\ truthful now l /\ connect a = Ok h0 /\ (monitor h0 tl).1 < h0.
Proof.
  exists 12, [(10, Tick (Some 10)); (12, Tick (Some 9))], (Some 10), [Tick (Some 9)], 10.
  split; [done|]. split; [|split; [done|vm_compute; reflexivity]]. split; [|split].
  - intros i j H t H' t' Hij Hi Hj. destruct i as [|[|i]]; destruct j as [|[|j]]; cbn in Hi, Hj; try done; try lia; simplify_eq; lia.
  - intros H t Hin. rewrite !elem_of_cons in Hin. destruct Hin as [[= -> _]|[[= -> _]|Hin]]; [lia|lia|by apply elem_of_nil in Hin].
  - intros H h' Hin. rewrite !elem_of_cons in Hin. destruct Hin as [[= -> ->]|[[= -> ->]|Hin]]; [lia|lia|by apply elem_of_nil in Hin].
Qed.
