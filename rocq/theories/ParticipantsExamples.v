(** Cases meeting the hypotheses of ParticipantsProps.v. *)
From Verif Require Import Base Text TextLemmas StdModel RouterTypes OperatorsModel EncodingModel VerifierModel EventsModel HandlersModel
  HandlersSpec HandlersExamples ParticipantsSpec ParticipantsProofs.

Lemma px_plain : plain_poll hx_acc hx_json (hx_cfg "w1") hx_meta /\ plain_poll hx_acc hx_json (hs_cfg "w1") hs_meta.
Proof.
  split; (do 2 (split; [first [done|by repeat constructor]|]); do 3 (split; [done|]); split; [by vm_compute|]; by repeat split).
Qed.
Lemma px_gateways : hex_bytes 20 (pm_gateway hx_meta) hx_gw /\ hex_bytes 32 (pm_gateway hs_meta) hs_gw.
Proof. split; (split; [done|]; right; eexists; split; [reflexivity|apply of_to_hex]). Qed.
Lemma px_operators : evm_operators_form hx_operators /\ sui_operators_form hx_operators.
Proof.
  split.
  - split; [|by vm_compute]. by repeat constructor.
  - split; [by repeat constructor|]. split; by vm_compute.
Qed.
Definition px_event : tx_event :=
  {| te_tx_id := "digest1"; te_index := 3; te_daddr := "0xdest"; te_dchain := "avax"; te_src := to_hex hs_src; te_hash := hx_hash |}.
Lemma px_sui_form : Forall (sui_form hs_b58) [px_event].
Proof.
  constructor; [|constructor]. split; [by eexists|]. split; [done|]. split; [by vm_compute|].
  split; [|done]. exists hs_src. split; [done|]. left. apply of_to_hex.
Qed.
Lemma px_worker_set :
  exists vote, evm_ws_handler hx_acc (hx_cfg "w1") 49 true hx_node hx_ws_poll =
    Ok (Some {| wt_sender := "w1"; wt_contract := "verifier"; wt_body := BodyVote 7 [vote] |}).
Proof.
  destruct (finalized_height (OtherChain "Eth") 5 hx_node) as [h| |] eqn:E; [|by vm_compute in E|by vm_compute in E].
  destruct (er_receipt hx_node hx_tx1) as [r|] eqn:Er; [|by vm_compute in Er].
  apply (worker_set_handled hx_acc (hx_cfg "w1") 49 hx_node hx_json (to_hex hx_tx1) hx_tx1 2 hx_operators hx_meta hx_gw h r).
  - apply px_plain.
  - apply px_gateways.
  - split; [done|]. left. apply of_to_hex.
  - done.
  - apply px_operators.
  - by vm_compute.
  - apply elem_of_list_here.
  - done.
  - exact E.
  - exact Er.
Qed.
Lemma px_sui :
  (exists votes, sui_msg_handler hx_acc hs_b58 (hs_cfg "w1") 49 true hs_node hs_poll =
    Ok (Some {| wt_sender := "w1"; wt_contract := "sui verifier"; wt_body := BodyVote 8 votes |}) /\ length votes = 1%nat) /\
  exists vote, sui_ws_handler hx_acc hs_b58 (hs_cfg "w1") 49 true hs_node hs_ws_poll =
    Ok (Some {| wt_sender := "w1"; wt_contract := "sui verifier"; wt_body := BodyVote 8 [vote] |}).
Proof.
  split.
  - apply (sui_messages_handled hx_acc hs_b58 (hs_cfg "w1") 49 hs_node hx_json [px_event] hs_meta hs_gw).
    + apply px_plain.
    + apply px_gateways.
    + apply px_sui_form.
    + apply elem_of_list_here.
    + done.
    + intros ids. by eexists.
  - apply (sui_worker_set_handled hx_acc hs_b58 (hs_cfg "w1") 49 hs_node hx_json "digest1" hx_tx1 4 hx_operators hs_meta hs_gw).
    + apply px_plain.
    + apply px_gateways.
    + done.
    + done.
    + apply px_operators.
    + apply elem_of_list_here.
    + done.
    + by eexists.
Qed.
Lemma px_signs : multisig_handler hx_acc hm_key (hm_cfg "w2") true hm_sign hm_event =
  Ok (Some {| wt_sender := "w2"; wt_contract := "multisig"; wt_body := BodySignature 5 (hx_hash +:+ "key2") |}).
Proof.
  apply (signing_handled hx_acc hm_key (hm_cfg "w2") hm_sign hx_json 5 [("w1", JStr "key1"); ("w2", JStr "key2")] hx_hash (JStr "key2") "key2"); try done.
  - repeat constructor; by eexists.
  - cbn. apply NoDup_cons. split; [|apply NoDup_singleton]. rewrite elem_of_list_singleton. done.
  - apply elem_of_list_further, elem_of_list_here.
Qed.
