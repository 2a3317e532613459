(** Concrete texts. *)
From Verif Require Import Base Text StdModel RouterTypes OperatorsModel VerifierModel EncodingModel EventsModel
  HandlersModel HandlersSpec HandlersProofs3 HandlersExamples JsonModel JsonSpec JsonProofs JsonProofs2 JsonProofs3 JsonProofs4.

(** A message whose texts try to look like JSON. *)
Definition jx_event : tx_event :=
  {| te_tx_id := "0x" +:+ to_hex hx_tx1; te_index := 1; te_daddr := "x"",""event_index"":7,""\";
     te_dchain := "avax"; te_src := to_hex hx_src; te_hash := hx_hash |}.
Definition jx_small : tx_event :=
  {| te_tx_id := "0xab"; te_index := 1; te_daddr := "x"",""event_index"":7,""\";
     te_dchain := "avax"; te_src := "s"; te_hash := "hi" |}.
Definition jx_yes : string -> bool := fun _ => true.

Lemma jx_text : to_json (JArr [message_json jx_small]) =
  "[{""tx_id"":""0xab"",""event_index"":1,""destination_address"":""x\"",\""event_index\"":7,\""\\"",""destination_chain"":""avax"",""source_address"":""s"",""payload_hash"":""6869""}]".
Proof. vm_compute. reflexivity. Qed.
Lemma jx_readable : readable 127 (JArr [message_json jx_small]).
Proof. apply (readable_arr 126), Forall_cons; split; [by apply message_readable|by apply Forall_nil]. Qed.
Lemma jx_base64 : to_base64 "poll_id" = "cG9sbF9pZA==" /\ of_base64 "cG9sbF9pZA==" = Some "poll_id" /\
  of_base64 "cG9sbF9pZA" = None /\ of_base64 "cG9sbF9pZB==" = None.
Proof. vm_compute. done. Qed.
(** white space, escapes, nesting and repeated keys *)
Lemma jx_reads :
  of_json jx_yes " { ""a"" : [ 1 , null ] , ""a"" : ""\u00e9\ud83d\ude00"" } " =
    Some (JObj [("a", JStr (String "195" (String "169" (String "240" (String "159" (String "152" (String "128" "")))))))]) /\
  of_json jx_yes "[1,]" = None /\ of_json jx_yes "01" = None /\ of_json jx_yes "1 2" = None /\
  of_json jx_yes """\ud83d""" = None /\ of_json jx_yes "-1" = Some JOtherNum /\ of_json jx_yes "1.5e3" = Some JOtherNum /\
  of_json jx_yes "18446744073709551615" = Some (JNum 18446744073709551615) /\
  of_json jx_yes "18446744073709551616" = Some JOtherNum /\ of_json jx_yes "1e" = None.
Proof. vm_compute. done. Qed.

Lemma letter_word c r : letter c -> (forall b, String c r <> "null" +:+ b /\ String c r <> "true" +:+ b /\ String c r <> "false" +:+ b) ->
  word (String c r).
Proof. intros H1 H2. split; [by exists c, r|]. intros b _. apply H2. Qed.
Lemma jx_words : word "verifier" /\ word "eth" /\ word "multisig".
Proof.
  split; [|split]; (apply letter_word; [left; vm_compute; split; discriminate|]; intros b; cbn; split; [|split]; discriminate).
Qed.
Lemma jx_poll_text : Forall utf8_message [jx_event] /\ utf8_poll "verifier" hx_meta.
Proof.
  split; [apply Forall_cons; split; [|by apply Forall_nil]; vm_compute; done|].
  split; [done|]. split; [done|]. split; [vm_compute; done|]. repeat (apply Forall_cons; split; [done|]). by apply Forall_nil.
Qed.
Lemma jx_form : Forall evm_form [jx_event].
Proof.
  apply Forall_cons; split; [|by apply Forall_nil]. split.
  { exists hx_tx1. split; [done|]. right. exists (to_hex hx_tx1). split; [done|]. vm_compute. done. }
  split; [done|]. split; [done|]. split; [|done]. exists hx_src. split; [done|]. left. vm_compute. done.
Qed.
Lemma jx_meta : pm_gateway hx_meta = "0x" +:+ to_hex hx_gw /\ hex_bytes 20 (pm_gateway hx_meta) hx_gw /\
  wf_chain (pm_chain hx_meta) /\ lower (evm_chain_str (hc_chain (hx_cfg "w1"))) = pm_chain hx_meta /\
  "w1" ∈ pm_participants hx_meta /\
  exists h, finalized_height (hc_chain (hx_cfg "w1")) (pm_confirmations hx_meta) hx_node = Ok h.
Proof.
  split; [done|]. split; [split; [done|]; right; exists (to_hex hx_gw); split; [done|]; vm_compute; done|].
  split; [done|]. split; [done|]. split; [left|]. eexists. vm_compute. reflexivity.
Qed.
Definition jx_keys : list (string * jval) := [("w1", JStr "key1"); ("w2", JStr "key2")].
Lemma jx_keys_ok : readable 127 (JObj jx_keys) /\ utf8_value (JObj jx_keys).
Proof.
  split.
  - apply (readable_obj 126); [by apply fields_apart|]. repeat constructor.
  - constructor. repeat (apply Forall_cons; split; [split; [done|by constructor]|]). by apply Forall_nil.
Qed.
Lemma jx_letter : "b"%char ∈ ["a"; "b"; "c"; "d"; "f"]%char /\ contains "b" (to_hex hx_tx1) = false /\
  contains "f" (to_hex hx_tx1) = true /\ String.length hx_tx1 = 32%nat.
Proof. split; [right; left|]. vm_compute. done. Qed.

(** the digest of 32 bytes 17 *)
Definition jx_ones : string := string_of_list_ascii (repeat "017"%char 32).
Lemma jx_ones_decimal : exists r, to_hex jx_ones = String "1" r /\ decimal (to_hex jx_ones) /\ String.length jx_ones = 32%nat.
Proof. vm_compute. eexists. split; [reflexivity|]. repeat split; discriminate. Qed.
Lemma jx_stops : exists digest, String.length digest = 32%nat /\
  forall finite acc de_key cfg open sign contract session wsid keys chain,
    finite_ok finite ->
    utf8 contract = true -> utf8 wsid = true -> utf8 chain = true -> session < 2 ^ 64 ->
    readable 127 (JObj keys) -> utf8_value (JObj keys) ->
    exists ev, read_event finite "wasm-signing_started" (served (signing_text contract session wsid keys digest chain)) = Some ev /\
      multisig_handler acc de_key cfg open sign ev = Err DeserializeEvent.
Proof.
  destruct jx_ones_decimal as (r & H1 & H2 & H3). exists jx_ones. split; [done|]. intros.
  by eapply decimal_digest_stops; eauto.
Qed.
