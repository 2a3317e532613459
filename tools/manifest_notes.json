{
 "C01": {
  "note": "C01_inverse_refuted records that Fraction::inv leaves the interval."
 },
 "C12": {
  "status": "partial",
  "note": "The property is false of the code: C12_distinct_keys_refuted gives two well-formed messages where polling one blocks the other forever. C12_keys_equal_lengths is the part that holds. For messages between EVM chains see C69."
 },
 "C13": {
  "status": "partial",
  "note": "The first half is false of the code: C13_keeps_votes_refuted and C13_repeated_request_restarts. The second half (once verified, stays verified) is proved."
 },
 "C63": {
  "status": "partial",
  "note": "The property is false of the code: C63_one_id_per_event_refuted, and from end to end C63_delivered_twice_refuted (one event, honest votes, two commands in a completed proof). What holds: C63_canonical_ids, and for ids written in the usual way C63_canonical_places and, in the whole system, C63_different_events."
 },
 "C16": {
  "status": "partial",
  "note": "The property is false of the code: C16_idempotent_refuted. C16_without_repeats is the part that holds."
 },
 "C20": {
  "status": "partial",
  "note": "The property is false of the code at epoch_count = 0 and for very large epoch_count: C20_limit_zero_refuted, C20_large_limit_refuted. Bounded work, the exact acceptance condition and absence of aborts are proved for the rest."
 },
 "C22": {
  "status": "partial",
  "note": "False of the code for threshold 0 before the first signature (C22_zero_threshold_refuted). Proved for every positive threshold (C22_positive_threshold) and, with the extra condition that somebody signed, for all (C22_completes_at_threshold). Worker-set identifiers are assumed not to collide within the history."
 },
 "C23": {
  "note": "Assumes that worker-set identifiers (keccak hashes) do not collide within the history."
 },
 "C24": {
  "note": "Assumes that worker-set identifiers (keccak hashes) do not collide within the history."
 },
 "C25": {
  "note": "Assumes that worker-set identifiers (keccak hashes) do not collide within the history."
 },
 "C26": {
  "note": "Assumes that worker-set identifiers (keccak hashes) do not collide within the history."
 },
 "C33": {
  "status": "partial",
  "note": "The property is false of the code: unfreezing emits the same event as freezing (C33_events_distinguish_refuted, C33_same_event)."
 },
 "C37": {
  "note": "C37_overwrites records that a later message with the same id replaces the stored one."
 },
 "C38": {
  "status": "partial",
  "note": "False of the code when a single call repeats an id (C38_once_refuted). Proved for histories whose calls do not repeat an id, and across calls for all histories."
 },
 "C39": {
  "status": "partial",
  "note": "The second half is false of the code (C39_different_ids_refuted, C39_fallback_refuted); it is proved for canonical ids. The round trip from nexus is proved."
 },
 "C45": {
  "status": "partial",
  "note": "False of the code: GetWorker passes its two arguments in the wrong order (C45_lookup_refuted, C45_wrong_record_refuted). C45_swapped states what it returns instead."
 },
 "C42": {
  "note": "C42_zero_bond records that a first bond without funds leaves the worker bonded with amount zero."
 },
 "C41": {
  "note": "C41_balance also accounts for coins of other denominations attached to a bond: they are kept and never paid out."
 },
 "C49": {
  "status": "partial",
  "note": "False of the code for ids that contain a comma: a request for one such message is answered with the batch of two others (C49_comma_refuted). Proved for ids without commas and for ids naming an event (C49_distinct), up to hash collisions; independence of the order is proved for all ids."
 },
 "C47": {
  "note": "The difference counts worker entries (address, weight and key): a worker whose key changed counts twice (example ex_rotated). A batch announced before is signed again without looking at the active workers."
 },
 "C48": {
  "note": "For destination encodings shorter than 2^32 bytes (ABI) the bytes of the proof are decoded; a signature that cannot be made recoverable is dropped from the proof (convert_sig), as in the code."
 },
 "C62": {
  "status": "partial",
  "note": "C62_backed, C62_carries_threshold and C62_plain prove the claim whenever no other batch is stored under the signed batch's id after the session starts, which C62_plain shows for every batch that does not carry a worker-set transfer. Refuted in general (C62_overwritten_refuted): two requests in one block for the same messages in different order, while a new worker set is proposed, share a batch id, and the second overwrites the batch the first session signs."
 },
 "C53": {
  "note": "Proved for a host that accepts the events the contract adds to its responses. The contract re-emits the events of every successful optional call; C53_refused_events and C53_success_aborts_refuted show that a host that reserves attribute keys starting with an underscore (as wasmd does) then aborts the whole batch because an optional call succeeded."
 },
 "C54": {
  "status": "partial",
  "note": "Requests and answers are relayed unchanged whenever the verifier's answer has the expected shape (C54_verify, C54_query), but refuted for the voting verifier of this repository: its reply is an object and its query answer an array, so every request and query through the aggregate verifier fails (C54_voting_verify_fails, C54_voting_query_fails, C54_relay_refuted). Payloads are modelled as the JSON values they spell."
 },
 "C55": {
  "status": "partial",
  "note": "Order, completeness and what is broadcast at each point are proved for every interleaving and every broadcaster. The last clause is false and refuted: a broadcast that fails while a message is being handled loses that message too, and a failed fee estimate stops the task and loses the whole queue although no broadcast failed. C55_lost states exactly what is lost."
 },
 "C56": {
  "status": "proved",
  "note": "C56_single_message_above_limit shows why the statement is about batches of two or more; C56_crash: the task panics only if the estimates overflow a u64."
 },
 "C58": {
  "note": "Log decoding, JSON, base58 and account parsing are parameters. C58_spelling_decides_finality records that the spelling of the configured chain name selects the finality rule. For messages, the exact characterisation assumes that the node answers with the receipts asked for; that a success is shown by some receipt needs no assumption."
 },
 "C67": {
  "status": "partial",
  "note": "The property is false of the code: C67_message_id_stops_handler_refuted (one call anyone can make), and C67_evm_poll_stops_sui, C67_sui_poll_stops_evm, C67_numeric_chain_stops_handler, C67_numeric_digest_stops_handler, C67_young_chain_panics describe the events that stop a handler. C60_participants_vote is the part that holds."
 },
 "C59": {
  "status": "partial",
  "note": "False of the code in four ways: if the node's latest height goes back blocks are published again (C59_once_refuted); a lag while skipping loses blocks unnoticed (C59_lag_refuted); a handler without a recorded height skips blocks after a restart (C59_new_handler_refuted); of two handlers of one name only one counts (C59_same_name_refuted). Everything else is proved; see C68."
 },
 "C68": {
  "theorems": [
   "C59_published",
   "C59_published_all",
   "C59_unreadable_block",
   "C59_run",
   "C59_not_configured",
   "C59_restarts",
   "C59_all_recorded",
   "C59_poisoned_block",
   "C59_bad_id_stuck_forever"
  ],
  "note": "What holds of C59."
 },
 "C70": {
  "theorems": [
   "C13_verified_stays",
   "C13_verified_means_quorum"
  ],
  "note": "What holds of C13."
 },
 "C71": {
  "theorems": [
   "C16_without_repeats"
  ],
  "note": "What holds of C16."
 },
 "C72": {
  "theorems": [
   "C20_bounded_work",
   "C20_accepted_iff",
   "C20_no_abort"
  ],
  "note": "What holds of C20."
 },
 "C73": {
  "theorems": [
   "C22_completes_at_threshold",
   "C22_positive_threshold"
  ],
  "note": "What holds of C22. Worker-set identifiers are assumed not to collide within the history."
 },
 "C74": {
  "theorems": [
   "C38_once_without_repeats",
   "C38_first_of_each_id",
   "C38_never_again"
  ],
  "note": "What holds of C38."
 },
 "C75": {
  "theorems": [
   "C39_there_and_back",
   "C39_from_nexus_ids",
   "C39_from_nexus_content",
   "C39_to_nexus_content",
   "C39_canonical_ids",
   "C63_canonical_ids"
  ],
  "note": "What holds of C39 and C63."
 },
 "C76": {
  "theorems": [
   "C49_order",
   "C49_again",
   "C49_distinct"
  ],
  "note": "What holds of C49."
 },
 "C77": {
  "theorems": [
   "C54_verify",
   "C54_query",
   "C54_direct",
   "C54_reading"
  ],
  "note": "What holds of C54."
 },
 "C78": {
  "theorems": [
   "C55_running",
   "C55_finished",
   "C55_next",
   "C55_prefix",
   "C55_lost"
  ],
  "note": "What holds of C55."
 },
 "C79": {
  "theorems": [
   "C62_backed",
   "C62_carries_threshold",
   "C62_plain"
  ],
  "note": "What holds of C62."
 },
 "C88": {
  "note": "Holds without repeated messages in one request; C88_duplicate_refuted shows that votes on an earlier repetition do not count. For worker sets as long as nobody asks again (see C13)."
 },
 "C91": {
  "note": "With the conditions stated: C91_recorded_refuted and C91_names_refuted show that they are needed; C91_once_per_chain_refuted: a chain written in two ways."
 },
 "C92": {
  "note": "tofnd is assumed to behave as its protocol file says (derived_keys): the default key id never works."
 },
 "C93": {
  "note": "Worker sets as long as nobody asks about them again (C13). Hypotheses on the router (may_send) exclude frozen and unknown chains, see C81_one_stops_all. Verified exactly if vouched: C93_message_verified and C93_only_vouched_verified, C93_operators_verified."
 },
 "C94": {
  "note": "Worker-set identifiers are assumed not to collide within the history (hashes_apart), total weights to fit in 256 bits; rewards parameters valid, fewer than 2^63 calls. BCS: sufficient limits only."
 },
 "C95": {
  "note": "f64 as in IEEE 754 (C95_rounding checks the model's rounding). Outside the ranges it is false: C95_limit_covers_refuted, C95_fee_enough_refuted; C95_bad_adjustment: a negative or NaN adjustment is accepted and gives no gas."
 },
 "C96": {
  "note": "Non-ASCII digits and letters are treated as other characters, with the same outcome. cosmrs' check of denominations and the standard library's printing of f64 are parameters. C96_read_back_refuted, C96_negative_refuted: the conditions are needed."
 },
 "C97": {
  "note": "Layouts of all eight contracts. Values are typed (their JSON text is left out); listings are under leading parts shorter than 65535 bytes."
 },
 "C98": {
  "note": "All eight contracts. Values are typed (their JSON text is left out). The prover's transaction is one program: its call, the multisig's answer (an oracle), its reply."
 },
 "C99": {
  "note": "serde_json without optional features; whether a long decimal stays below the largest double is a parameter. JSON objects are modelled as key lists in the order written."
 },
 "C100": {
  "note": "C100_decimal_digest_refuted: the condition on the digest is needed; C100_decimal_digest says it for all such digests. About one digest in 2^43 is of that kind, so one can be searched for by choosing message texts."
 },
 "C101": {
  "note": "The last sentence is C101_late_signature_refuted: the sum over all paid epochs, true of polls, is false of signing sessions, because late signatures count for an epoch that is paid already. For sessions C101_session_distribution says what each distribution pays."
 },
 "C102": {
  "note": "The last sentence is C102_zero_rewards_refuted. serde-json-wasm is taken to read the grammar of serde_json; addresses in messages are plain texts, as in the code."
 },
 "C103": {
  "note": "Questions contracts ask each other are not texts here, see C106; heights are 64-bit numbers and keys answered by contracts outside the system are proper (proper_tx; for the system of C106 the latter is proved)."
 },
 "C106": {
  "note": "Heights and times of blocks are 64-bit, amounts of coins 128-bit, chain ids 256-bit numbers (typed_tx, typed_deployment). serde-json-wasm is taken to read the grammar of serde_json."
 },
 "C107": {
  "note": "cosmrs' JSON of keys is taken to be read back (keys_read_back); heights are 64-bit numbers. That every block up to the recorded height was dealt with is refuted for a file that cannot be read (C107_unreadable_refuted), as the property says. Within one run the key in use is the one loaded or generated; what the key daemon does is outside."
 },
 "C108": {
  "note": "error-stack is modelled by the order of its frames, as the comment in loggable.rs describes it; Rust's debug form of strings is arbitrary. The exceptions in the property's last sentence are C108_merged, C108_merged_refuted and C108_text_refuted."
 },
 "C109": {
  "note": "The exception in the property's last sentence is C109_spelling_refuted, which holds under all the hypotheses of C109_commands."
 },
 "C114": {
  "status": "partial",
  "note": "As titled the property is false of the code: C114_in_time_refuted gives a vote that would be accepted alone at every height concerned and is lost because it was sent together with a vote on a poll that had expired meanwhile. C114_batch_iff and C114_all_or_none say exactly which batches count."
 }
}
