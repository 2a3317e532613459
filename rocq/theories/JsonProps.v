(** Properties C99 and C100: the texts of events. *)
From Verif Require Import Base Text StdModel RouterTypes OperatorsModel VerifierModel EncodingModel EventsModel
  HandlersModel HandlersSpec HandlersProofs3 HandlersExamples DaemonModel DaemonSpec
  JsonModel JsonSpec JsonProofs JsonProofs2 JsonProofs3 JsonProofs4 JsonExamples.

(** ** C99 *)

(** Whatever the contracts write as JSON is read back as exactly that, with
    any white space around it. *)
Theorem C99_json_read_back : forall finite v b b', readable 127 v -> blank b -> blank b' ->
  of_json finite (b +:+ to_json v +:+ b') = Some v.
Proof. exact of_json_to_json. Qed.
Print Assumptions C99_json_read_back.
(** So different things have different texts: no text inside a message can
    pass for another field or another message. *)
Theorem C99_texts_apart : forall v w, readable 127 v -> readable 127 w -> to_json v = to_json w -> v = w.
Proof. exact to_json_inj. Qed.
Print Assumptions C99_texts_apart.
(** Base64 is read back, and there is one text in base64 for each text. *)
Theorem C99_base64_exact : forall s t, base64_to_utf8 s = Some t <-> s = to_base64 t /\ utf8 t = true.
Proof. exact base64_to_utf8_exact. Qed.
Print Assumptions C99_base64_exact.
(** The poll and worker-set events of the verifier, as text the way the node
    hands it out, are the events the handlers were proved right about. *)
Theorem C99_messages_poll : forall finite contract es m,
  Forall (fun e => utf8_message e /\ te_index e < 2 ^ 64) es -> utf8_poll contract m ->
  pm_confirmations m < 2 ^ 64 -> pm_expires_at m < 2 ^ 64 ->
  read_event finite "wasm-messages_poll_started" (served (messages_text contract es m)) =
  Some (messages_poll_event (of_json finite) contract es m).
Proof. exact messages_read. Qed.
Print Assumptions C99_messages_poll.
Theorem C99_worker_set_poll : forall finite contract tx idx o m,
  utf8 tx = true -> idx < 2 ^ 64 -> utf8_poll contract m ->
  pm_confirmations m < 2 ^ 64 -> pm_expires_at m < 2 ^ 64 ->
  read_event finite "wasm-worker_set_poll_started" (served (worker_set_text contract tx idx o m)) =
  Some (worker_set_poll_event (of_json finite) contract tx idx o m).
Proof. exact worker_set_read. Qed.
Print Assumptions C99_worker_set_poll.
(** A request to sign carries more attributes than the signer reads, to no
    effect. *)
Theorem C99_signing : forall finite contract session wsid keys digest chain,
  utf8 contract = true -> utf8 wsid = true -> utf8 chain = true -> session < 2 ^ 64 ->
  readable 127 (JObj keys) -> utf8_value (JObj keys) ->
  exists ev, read_event finite "wasm-signing_started" (served (signing_text contract session wsid keys digest chain)) = Some ev /\
  forall acc de_key cfg open sign,
    multisig_handler acc de_key cfg open sign ev =
    multisig_handler acc de_key cfg open sign (signing_event (of_json finite) contract session keys digest).
Proof. exact signing_read. Qed.
Print Assumptions C99_signing.
(** Attributes written without quotes: names that start with a letter, and
    addresses that start with 0x, are read as the text they are, ... *)
Theorem C99_plain_words : forall finite s, word s -> attr_value (of_json finite) s = JStr s.
Proof. exact attr_word. Qed.
Print Assumptions C99_plain_words.
Theorem C99_plain_0x : forall finite s, attr_value (of_json finite) ("0x" +:+ s) = JStr ("0x" +:+ s).
Proof. exact attr_0x. Qed.
Print Assumptions C99_plain_0x.
(** ... and so is hexadecimal with one of the letters a, b, c, d, f, ... *)
Theorem C99_plain_hex : forall finite s c,
  c ∈ ["a"; "b"; "c"; "d"; "f"]%char -> contains c (to_hex s) = true -> of_json finite (to_hex s) = None.
Proof. exact (fun finite s c => hex_not_json finite (to_hex s) c (TextLemmas.to_hex_chars s)). Qed.
Print Assumptions C99_plain_hex.
(** ... but digits alone, the first not a zero, are read as a number. *)
Theorem C99_digits_are_numbers : forall finite s c r, finite_ok finite -> s = String c r -> decimal s -> c <> "0"%char ->
  (String.length s <= 308)%nat -> of_json finite s = Some JOtherNum \/ exists n, of_json finite s = Some (JNum n).
Proof. exact decimal_json. Qed.
Print Assumptions C99_digits_are_numbers.

Example C99_ex_text : to_json (JArr [message_json jx_small]) =
  "[{""tx_id"":""0xab"",""event_index"":1,""destination_address"":""x\"",\""event_index\"":7,\""\\"",""destination_chain"":""avax"",""source_address"":""s"",""payload_hash"":""6869""}]".
Proof. exact jx_text. Qed.
Example C99_ex_readable : readable 127 (JArr [message_json jx_small]).
Proof. exact jx_readable. Qed.
Example C99_ex_base64 : to_base64 "poll_id" = "cG9sbF9pZA==" /\ of_base64 "cG9sbF9pZA==" = Some "poll_id" /\
  of_base64 "cG9sbF9pZA" = None /\ of_base64 "cG9sbF9pZB==" = None.
Proof. exact jx_base64. Qed.
Example C99_ex_reads :
  of_json jx_yes " { ""a"" : [ 1 , null ] , ""a"" : ""\u00e9\ud83d\ude00"" } " =
    Some (JObj [("a", JStr (String "195" (String "169" (String "240" (String "159" (String "152" (String "128" "")))))))]) /\
  of_json jx_yes "[1,]" = None /\ of_json jx_yes "01" = None /\ of_json jx_yes "1 2" = None /\
  of_json jx_yes """\ud83d""" = None /\ of_json jx_yes "-1" = Some JOtherNum /\ of_json jx_yes "1.5e3" = Some JOtherNum /\
  of_json jx_yes "18446744073709551615" = Some (JNum 18446744073709551615) /\
  of_json jx_yes "18446744073709551616" = Some JOtherNum /\ of_json jx_yes "1e" = None.
Proof. exact jx_reads. Qed.

(** ** C100 *)

(** From the bytes the node hands out to the vote: a participant whose node
    knows what is final votes, whatever the messages' texts are. *)
Theorem C100_participants_vote : forall finite acc cfg height open rpc es meta gw h,
  acc (hc_contract cfg) = true -> Forall (fun a => acc a = true) (pm_participants meta) ->
  word (hc_contract cfg) -> word (pm_chain meta) -> (exists x, pm_gateway meta = "0x" +:+ x) ->
  wf_chain (pm_chain meta) -> hex_bytes 20 (pm_gateway meta) gw ->
  pm_poll_id meta < 2 ^ 64 -> pm_confirmations meta < 2 ^ 64 -> pm_expires_at meta < 2 ^ 64 ->
  Forall evm_form es -> Forall utf8_message es -> utf8_poll (hc_contract cfg) meta ->
  lower (evm_chain_str (hc_chain cfg)) = pm_chain meta -> hc_worker cfg ∈ pm_participants meta ->
  height < pm_expires_at meta ->
  finalized_height (hc_chain cfg) (pm_confirmations meta) rpc = Ok h -> open = true ->
  exists ev votes,
    read_event finite "wasm-messages_poll_started" (served (messages_text (hc_contract cfg) es meta)) = Some ev /\
    evm_msg_handler acc cfg height open rpc ev =
    Ok (Some {| wt_sender := hc_worker cfg; wt_contract := hc_contract cfg;
                wt_body := BodyVote (pm_poll_id meta) votes |}) /\ length votes = length es.
Proof. exact text_messages_voted. Qed.
Print Assumptions C100_participants_vote.
(** ... and to the signature, for every digest with one of the letters a, b,
    c, d, f in hexadecimal. *)
Theorem C100_signs : forall finite acc b58 de_key pub sig ms tf cf key contract a v session wsid keys digest chain w c,
  derived_keys pub sig ms tf -> worker_key None tf cf = Ok key -> cf_key_uid cf = contract ->
  ce_sign v = tf_sign tf -> ce_open v = true ->
  acc contract = true -> word contract ->
  c ∈ ["a"; "b"; "c"; "d"; "f"]%char -> contains c (to_hex digest) = true ->
  Forall (fun x => acc x.1 = true /\ is_Some (de_key x.2)) keys -> NoDup keys.*1 -> (a, w) ∈ keys -> de_key w = Some key ->
  session < 2 ^ 64 -> String.length digest = 32%nat ->
  utf8 contract = true -> utf8 wsid = true -> utf8 chain = true ->
  readable 127 (JObj keys) -> utf8_value (JObj keys) ->
  exists ev m, m ∈ ms /\ pub m contract = key /\
  read_event finite "wasm-signing_started" (served (signing_text contract session wsid keys digest chain)) = Some ev /\
  handle acc b58 de_key a (MultisigSigner contract) v ev =
    Ok (Some {| wt_sender := a; wt_contract := contract; wt_body := BodySignature session (sig m contract digest) |}).
Proof. exact text_signs. Qed.
Print Assumptions C100_signs.
(** The condition is needed: a digest that is all decimal digits is one no
    signer can be asked to sign. *)
Theorem C100_decimal_digest_refuted : exists digest, String.length digest = 32%nat /\
  forall finite acc de_key cfg open sign contract session wsid keys chain,
    finite_ok finite ->
    utf8 contract = true -> utf8 wsid = true -> utf8 chain = true -> session < 2 ^ 64 ->
    readable 127 (JObj keys) -> utf8_value (JObj keys) ->
    exists ev, read_event finite "wasm-signing_started" (served (signing_text contract session wsid keys digest chain)) = Some ev /\
      multisig_handler acc de_key cfg open sign ev = Err DeserializeEvent.
Proof. exact jx_stops. Qed.
Print Assumptions C100_decimal_digest_refuted.
Theorem C100_decimal_digest : forall finite acc de_key cfg open sign contract session wsid keys digest chain c r,
  finite_ok finite ->
  utf8 contract = true -> utf8 wsid = true -> utf8 chain = true -> session < 2 ^ 64 ->
  readable 127 (JObj keys) -> utf8_value (JObj keys) ->
  to_hex digest = String c r -> decimal (to_hex digest) -> c <> "0"%char -> String.length digest = 32%nat ->
  exists ev, read_event finite "wasm-signing_started" (served (signing_text contract session wsid keys digest chain)) = Some ev /\
    multisig_handler acc de_key cfg open sign ev = Err DeserializeEvent.
Proof. exact decimal_digest_stops. Qed.
Print Assumptions C100_decimal_digest.

Example C100_ex_poll : word "verifier" /\ word "eth" /\ word "multisig" .
Proof. exact jx_words. Qed.
Example C100_ex_texts : Forall utf8_message [jx_event] /\ utf8_poll "verifier" hx_meta.
Proof. exact jx_poll_text. Qed.
Example C100_ex_form : Forall evm_form [jx_event].
Proof. exact jx_form. Qed.
Example C100_ex_meta : pm_gateway hx_meta = "0x" +:+ to_hex hx_gw /\ hex_bytes 20 (pm_gateway hx_meta) hx_gw /\
  wf_chain (pm_chain hx_meta) /\ lower (evm_chain_str (hc_chain (hx_cfg "w1"))) = pm_chain hx_meta /\
  "w1" ∈ pm_participants hx_meta /\
  exists h, finalized_height (hc_chain (hx_cfg "w1")) (pm_confirmations hx_meta) hx_node = Ok h.
Proof. exact jx_meta. Qed.
Example C100_ex_keys : readable 127 (JObj jx_keys) /\ utf8_value (JObj jx_keys).
Proof. exact jx_keys_ok. Qed.
Example C100_ex_letter : "b"%char ∈ ["a"; "b"; "c"; "d"; "f"]%char /\ contains "b" (to_hex hx_tx1) = false /\
  contains "f" (to_hex hx_tx1) = true /\ String.length hx_tx1 = 32%nat.
Proof. exact jx_letter. Qed.
