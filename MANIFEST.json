{"claims": [
{"property": "C01", "status": "proved", "theorems": ["C01_threshold_interval", "C01_threshold_majority", "C01_threshold_order", "C01_inverse_refuted"], "note": "C01_inverse_refuted records that Fraction::inv leaves the interval."},
{"property": "C02", "status": "proved", "theorems": ["C02_snapshot_exists", "C02_quorum", "C02_participants", "C02_majorities_intersect"], "note": ""},
{"property": "C03", "status": "proved", "theorems": ["C03_tallies"], "note": ""},
{"property": "C04", "status": "proved", "theorems": ["C04_consensus_iff_quorum", "C04_consensus_unique_and_final"], "note": ""},
{"property": "C05", "status": "proved", "theorems": ["C05_vote_iff", "C05_vote_errors", "C05_vote_never_aborts", "C05_finish_iff", "C05_no_vote_after_finish"], "note": ""},
{"property": "C06", "status": "proved", "theorems": ["C06_consensus_participants"], "note": ""},
{"property": "C07", "status": "proved", "theorems": ["C07_verified_stays"], "note": ""},
{"property": "C08", "status": "proved", "theorems": ["C08_verified_means_quorum"], "note": ""},
{"property": "C09", "status": "proved", "theorems": ["C09_settled_unchanged", "C09_opens_one_poll", "C09_request_accepted"], "note": ""},
{"property": "C10", "status": "proved", "theorems": ["C10_ids_increase", "C10_polls_fixed", "C10_other_polls_untouched", "C10_votes_touch_one_poll"], "note": ""},
{"property": "C11", "status": "proved", "theorems": ["C11_end_reports", "C11_ended_once", "C11_never_reported_twice"], "note": ""},
{"property": "C12", "status": "partial", "theorems": ["C12_distinct_keys_refuted", "C12_keys_equal_lengths"], "note": "The property is false of the code: C12_distinct_keys_refuted gives two well-formed messages where polling one blocks the other forever. C12_keys_equal_lengths is the part that holds. For messages between EVM chains see C69."},
{"property": "C13", "status": "partial", "theorems": ["C13_verified_stays", "C13_verified_means_quorum", "C13_repeated_request_restarts", "C13_keeps_votes_refuted"], "note": "The first half is false of the code: C13_keeps_votes_refuted and C13_repeated_request_restarts. The second half (once verified, stays verified) is proved."},
{"property": "C14", "status": "proved", "theorems": ["C14_epoch_of_height", "C14_monotone_in_height", "C14_update", "C14_monotone_in_history"], "note": ""},
{"property": "C15", "status": "proved", "theorems": ["C15_counts", "C15_one_epoch"], "note": ""},
{"property": "C16", "status": "partial", "theorems": ["C16_idempotent_refuted", "C16_without_repeats"], "note": "The property is false of the code: C16_idempotent_refuted. C16_without_repeats is the part that holds."},
{"property": "C17", "status": "proved", "theorems": ["C17_shares", "C17_qualifies_by_attendance"], "note": ""},
{"property": "C18", "status": "proved", "theorems": ["C18_one_distribution", "C18_epochs_in_order", "C18_paid_once"], "note": ""},
{"property": "C19", "status": "proved", "theorems": ["C19_conservation", "C19_uncovered_fails"], "note": ""},
{"property": "C20", "status": "partial", "theorems": ["C20_limit_zero_refuted", "C20_large_limit_refuted", "C20_bounded_work", "C20_accepted_iff", "C20_no_abort"], "note": "The property is false of the code at epoch_count = 0 and for very large epoch_count: C20_limit_zero_refuted, C20_large_limit_refuted. Bounded work, the exact acceptance condition and absence of aborts are proved for the rest."},
{"property": "C21", "status": "proved", "theorems": ["C21_first_event_fixes_params", "C21_params_never_change", "C21_only_governance"], "note": ""},
{"property": "C22", "status": "partial", "theorems": ["C22_completes_at_threshold", "C22_positive_threshold", "C22_zero_threshold_refuted"], "note": "False of the code for threshold 0 before the first signature (C22_zero_threshold_refuted). Proved for every positive threshold (C22_positive_threshold) and, with the extra condition that somebody signed, for all (C22_completes_at_threshold). Worker-set identifiers are assumed not to collide within the history."},
{"property": "C23", "status": "proved", "theorems": ["C23_completed_forever", "C23_one_event", "C23_event_at_threshold"], "note": "Assumes that worker-set identifiers (keccak hashes) do not collide within the history."},
{"property": "C24", "status": "proved", "theorems": ["C24_accepted_is_valid", "C24_stored_is_submitted", "C24_never_replaced", "C24_second_rejected"], "note": "Assumes that worker-set identifiers (keccak hashes) do not collide within the history."},
{"property": "C25", "status": "proved", "theorems": ["C25_closed_iff", "C25_accepted_iff", "C25_overflow_aborts"], "note": "Assumes that worker-set identifiers (keccak hashes) do not collide within the history."},
{"property": "C26", "status": "proved", "theorems": ["C26_start_accepted_iff", "C26_start_response", "C26_ids", "C26_session_immutable", "C26_only_governance"], "note": "Assumes that worker-set identifiers (keccak hashes) do not collide within the history."},
{"property": "C27", "status": "proved", "theorems": ["C27_key_query", "C27_key_length", "C27_signature_length"], "note": ""},
{"property": "C28", "status": "proved", "theorems": ["C28_one_to_one", "C28_lookup_unambiguous", "C28_current_gateway"], "note": ""},
{"property": "C29", "status": "proved", "theorems": ["C29_frozen_iff", "C29_accepted_iff"], "note": ""},
{"property": "C30", "status": "proved", "theorems": ["C30_sent", "C30_per_gateway"], "note": ""},
{"property": "C31", "status": "proved", "theorems": ["C31_accepted_iff"], "note": ""},
{"property": "C32", "status": "proved", "theorems": ["C32_roles", "C32_accepted_iff"], "note": ""},
{"property": "C33", "status": "partial", "theorems": ["C33_events_distinguish_refuted", "C33_same_event"], "note": "The property is false of the code: unfreezing emits the same event as freezing (C33_events_distinguish_refuted, C33_same_event)."},
{"property": "C34", "status": "proved", "theorems": ["C34_round_trip", "C34_injective", "C34_parsed", "C34_chain_name", "C34_chain_name_accepted"], "note": ""},
{"property": "C35", "status": "proved", "theorems": ["C35_forwards_verified"], "note": ""},
{"property": "C36", "status": "proved", "theorems": ["C36_asks_unverified"], "note": ""},
{"property": "C37", "status": "proved", "theorems": ["C37_read_back", "C37_own_id", "C37_only_router", "C37_router_call", "C37_overwrites"], "note": "C37_overwrites records that a later message with the same id replaces the stored one."},
{"property": "C38", "status": "partial", "theorems": ["C38_once_refuted", "C38_once_without_repeats", "C38_first_of_each_id", "C38_never_again"], "note": "False of the code when a single call repeats an id (C38_once_refuted). Proved for histories whose calls do not repeat an id, and across calls for all histories."},
{"property": "C39", "status": "partial", "theorems": ["C39_there_and_back", "C39_from_nexus_ids", "C39_from_nexus_content", "C39_to_nexus_content", "C39_canonical_ids", "C39_different_ids_refuted", "C39_fallback_refuted"], "note": "The second half is false of the code (C39_different_ids_refuted, C39_fallback_refuted); it is proved for canonical ids. The round trip from nexus is proved."},
{"property": "C40", "status": "proved", "theorems": ["C40_to_router", "C40_to_nexus", "C40_to_nexus_accepted"], "note": ""},
{"property": "C41", "status": "proved", "theorems": ["C41_owed", "C41_claim_pays", "C41_only_claims_pay", "C41_paid_once", "C41_balance"], "note": "C41_balance also accounts for coins of other denominations attached to a bond: they are kept and never paid out."},
{"property": "C42", "status": "proved", "theorems": ["C42_claim_iff", "C42_unbond_iff", "C42_bond_iff", "C42_rebond", "C42_zero_bond"], "note": "C42_zero_bond records that a first bond without funds leaves the worker bonded with amount zero."},
{"property": "C43", "status": "proved", "theorems": ["C43_active_workers", "C43_unknown_service"], "note": ""},
{"property": "C44", "status": "proved", "theorems": ["C44_governance_calls", "C44_authorization", "C44_own_calls", "C44_service_immutable", "C44_declared_forever"], "note": ""},
{"property": "C45", "status": "partial", "theorems": ["C45_lookup_refuted", "C45_wrong_record_refuted", "C45_swapped"], "note": "False of the code: GetWorker passes its two arguments in the wrong order (C45_lookup_refuted, C45_wrong_record_refuted). C45_swapped states what it returns instead."},
{"property": "C46", "status": "proved", "theorems": ["C46_history", "C46_functional", "C46_current_changes", "C46_confirm", "C46_adopted_was_proposed"], "note": ""},
{"property": "C47", "status": "proved", "theorems": ["C47_update", "C47_construct", "C47_waits", "C47_same_zero", "C47_members"], "note": "The difference counts worker entries (address, weight and key): a worker whose key changed counts twice (example ex_rotated). A batch announced before is signed again without looking at the active workers."},
{"property": "C48", "status": "proved", "theorems": ["C48_selection", "C48_selection_exists", "C48_get_proof"], "note": "For destination encodings shorter than 2^32 bytes (ABI) the bytes of the proof are decoded; a signature that cannot be made recoverable is dropped from the proof (convert_sig), as in the code."},
{"property": "C49", "status": "partial", "theorems": ["C49_order", "C49_again", "C49_distinct", "C49_comma_refuted"], "note": "False of the code for ids that contain a comma: a request for one such message is answered with the batch of two others (C49_comma_refuted). Proved for ids without commas and for ids naming an event (C49_distinct), up to hash collisions; independence of the order is proved for all ids."},
{"property": "C50", "status": "proved", "theorems": ["C50_data", "C50_data_injective", "C50_data_encodes", "C50_large_chain_id_panics", "C50_command", "C50_address", "C50_transfer", "C50_proof", "C50_execute_data", "C50_same_digest_same_messages"], "note": ""},
{"property": "C51", "status": "proved", "theorems": ["C51_data", "C51_data_injective", "C51_command", "C51_address", "C51_transfer", "C51_proof", "C51_execute_data", "C51_same_digest_same_messages", "C51_signatures", "C51_six_fields"], "note": ""},
{"property": "C52", "status": "proved", "theorems": ["C52_operators", "C52_strict", "C52_proof_strict", "C52_shared_key_not_strict", "C52_operators_order", "C52_digest_order", "C52_worker_set_order", "C52_proof_order"], "note": ""},
{"property": "C53", "status": "proved", "theorems": ["C53_batch", "C53_optional_cannot_abort", "C53_mandatory_aborts", "C53_reported", "C53_refused_events", "C53_success_aborts_refuted"], "note": "Proved for a host that accepts the events the contract adds to its responses. The contract re-emits the events of every successful optional call; C53_refused_events and C53_success_aborts_refuted show that a host that reserves attribute keys starting with an underscore (as wasmd does) then aborts the whole batch because an optional call succeeded."},
{"property": "C54", "status": "partial", "theorems": ["C54_verify", "C54_query", "C54_voting_verify_fails", "C54_voting_query_fails", "C54_relay_refuted", "C54_direct", "C54_reading"], "note": "Requests and answers are relayed unchanged whenever the verifier's answer has the expected shape (C54_verify, C54_query), but refuted for the voting verifier of this repository: its reply is an object and its query answer an array, so every request and query through the aggregate verifier fails (C54_voting_verify_fails, C54_voting_query_fails, C54_relay_refuted). Payloads are modelled as the JSON values they spell."},
{"property": "C55", "status": "partial", "theorems": ["C55_running", "C55_finished", "C55_next", "C55_prefix", "C55_lost", "C55_lost_only_batch_refuted", "C55_lost_without_failure_refuted"], "note": "Order, completeness and what is broadcast at each point are proved for every interleaving and every broadcaster. The last clause is false and refuted: a broadcast that fails while a message is being handled loses that message too, and a failed fee estimate stops the task and loses the whole queue although no broadcast failed. C55_lost states exactly what is lost."},
{"property": "C56", "status": "proved", "theorems": ["C56_gas", "C56_all_batches", "C56_no_early_broadcast", "C56_crash", "C56_single_message_above_limit"], "note": "C56_single_message_above_limit shows why the statement is about batches of two or more; C56_crash: the task panics only if the estimates overflow a u64."},
{"property": "C57", "status": "proved", "theorems": ["C57_broadcast", "C57_sequence", "C57_queue", "C57_queue_finished", "C57_number_used_again_after_failure"], "note": ""},
{"property": "C58", "status": "proved", "theorems": ["C58_evm_messages", "C58_evm_worker_set", "C58_sui_messages", "C58_sui_worker_set", "C58_spelling_decides_finality"], "note": "Log decoding, JSON, base58 and account parsing are parameters. C58_spelling_decides_finality records that the spelling of the configured chain name selects the finality rule. For messages, the exact characterisation assumes that the node answers with the receipts asked for; that a success is shown by some receipt needs no assumption."},
{"property": "C59", "status": "partial", "theorems": ["C59_events_read", "C59_published", "C59_published_all", "C59_unreadable_block", "C59_once_refuted", "C59_run", "C59_not_configured", "C59_restarts", "C59_all_recorded", "C59_poisoned_block", "C59_bad_id_stuck_forever", "C59_lag_refuted", "C59_new_handler_refuted", "C59_same_name_refuted"], "note": "False of the code in four ways: if the node's latest height goes back blocks are published again (C59_once_refuted); a lag while skipping loses blocks unnoticed (C59_lag_refuted); a handler without a recorded height skips blocks after a restart (C59_new_handler_refuted); of two handlers of one name only one counts (C59_same_name_refuted). Everything else is proved; see C68."},
{"property": "C60", "status": "proved", "theorems": ["C60_signing", "C60_evm_messages_ignored", "C60_evm_worker_set_ignored", "C60_sui_messages_ignored", "C60_sui_worker_set_ignored", "C60_signing_ignored", "C60_participants_vote", "C60_participants_vote_worker_set", "C60_participants_vote_sui", "C60_participants_vote_sui_worker_set", "C60_participants_sign"], "note": ""},
{"property": "C61", "status": "proved", "theorems": ["C61_served_messages_arrived"], "note": ""},
{"property": "C62", "status": "partial", "theorems": ["C62_backed", "C62_carries_threshold", "C62_plain", "C62_overwritten_refuted"], "note": "C62_backed, C62_carries_threshold and C62_plain prove the claim whenever no other batch is stored under the signed batch's id after the session starts, which C62_plain shows for every batch that does not carry a worker-set transfer. Refuted in general (C62_overwritten_refuted): two requests in one block for the same messages in different order, while a new worker set is proposed, share a batch id, and the second overwrites the batch the first session signs."},
{"property": "C63", "status": "partial", "theorems": ["C63_canonical_places", "C63_different_events", "C63_delivered_twice_refuted", "C63_one_id_per_event_refuted", "C63_canonical_ids"], "note": "The property is false of the code: C63_one_id_per_event_refuted, and from end to end C63_delivered_twice_refuted (one event, honest votes, two commands in a completed proof). What holds: C63_canonical_ids, and for ids written in the usual way C63_canonical_places and, in the whole system, C63_different_events."},
{"property": "C64", "status": "proved", "theorems": ["C64_verified_message_was_seen"], "note": ""},
{"property": "C65", "status": "proved", "theorems": ["C65_verified_worker_set_was_seen"], "note": ""},
{"property": "C66", "status": "proved", "theorems": ["C66_transfer_data", "C66_transfer_seen"], "note": ""},
{"property": "C67", "status": "partial", "theorems": ["C67_message_id_stops_handler_refuted", "C67_message_id_stops_handler", "C67_evm_poll_stops_sui", "C67_sui_poll_stops_evm", "C67_numeric_chain_stops_handler", "C67_numeric_digest_stops_handler", "C67_young_chain_panics"], "note": "The property is false of the code: C67_message_id_stops_handler_refuted (one call anyone can make), and C67_evm_poll_stops_sui, C67_sui_poll_stops_evm, C67_numeric_chain_stops_handler, C67_numeric_digest_stops_handler, C67_young_chain_panics describe the events that stop a handler. C60_participants_vote is the part that holds."},
{"property": "C68", "status": "proved", "theorems": ["C59_published", "C59_published_all", "C59_unreadable_block", "C59_run", "C59_not_configured", "C59_restarts", "C59_all_recorded", "C59_poisoned_block", "C59_bad_id_stuck_forever"], "note": "What holds of C59."},
{"property": "C69", "status": "proved", "theorems": ["C69_separate", "C69_has_status", "C69_accepted"], "note": ""},
{"property": "C70", "status": "proved", "theorems": ["C13_verified_stays", "C13_verified_means_quorum"], "note": "What holds of C13."},
{"property": "C71", "status": "proved", "theorems": ["C16_without_repeats"], "note": "What holds of C16."},
{"property": "C72", "status": "proved", "theorems": ["C20_bounded_work", "C20_accepted_iff", "C20_no_abort"], "note": "What holds of C20."},
{"property": "C73", "status": "proved", "theorems": ["C22_completes_at_threshold", "C22_positive_threshold"], "note": "What holds of C22. Worker-set identifiers are assumed not to collide within the history."},
{"property": "C74", "status": "proved", "theorems": ["C38_once_without_repeats", "C38_first_of_each_id", "C38_never_again"], "note": "What holds of C38."},
{"property": "C75", "status": "proved", "theorems": ["C39_there_and_back", "C39_from_nexus_ids", "C39_from_nexus_content", "C39_to_nexus_content", "C39_canonical_ids", "C63_canonical_ids"], "note": "What holds of C39 and C63."},
{"property": "C76", "status": "proved", "theorems": ["C49_order", "C49_again", "C49_distinct"], "note": "What holds of C49."},
{"property": "C77", "status": "proved", "theorems": ["C54_verify", "C54_query", "C54_direct", "C54_reading"], "note": "What holds of C54."},
{"property": "C78", "status": "proved", "theorems": ["C55_running", "C55_finished", "C55_next", "C55_prefix", "C55_lost"], "note": "What holds of C55."},
{"property": "C79", "status": "proved", "theorems": ["C62_backed", "C62_carries_threshold", "C62_plain"], "note": "What holds of C62."},
{"property": "C80", "status": "proved", "theorems": ["C80_contracts_as_alone", "C80_during_calls", "C80_prover_with_multisig"], "note": ""},
{"property": "C81", "status": "proved", "theorems": ["C81_verified_messages_delivered", "C81_one_stops_all"], "note": ""},
{"property": "C82", "status": "proved", "theorems": ["C82_polls_attended", "C82_sessions_attended"], "note": ""},
{"property": "C83", "status": "proved", "theorems": ["C83_proof_contents"], "note": ""},
{"property": "C84", "status": "proved", "theorems": ["C84_current_worker_set"], "note": ""},
{"property": "C85", "status": "proved", "theorems": ["C85_proof_signers"], "note": ""},
{"property": "C86", "status": "proved", "theorems": ["C86_served_messages_were_sent", "C86_proved_messages_were_sent"], "note": ""},
{"property": "C87", "status": "proved", "theorems": ["C87_current_worker_set_took_over"], "note": ""},
{"property": "C88", "status": "proved", "theorems": ["C88_vote_accepted_iff", "C88_end_accepted_iff", "C88_votes_verify", "C88_duplicate_refuted", "C88_votes_verify_set"], "note": "Holds without repeated messages in one request; C88_duplicate_refuted shows that votes on an earlier repetition do not count. For worker sets as long as nobody asks again (see C13)."},
{"property": "C89", "status": "proved", "theorems": ["C89_pending_answers", "C89_abi_proof_iff", "C89_bcs_proof", "C89_bad_key_stops", "C89_no_key_stops"], "note": ""},
{"property": "C90", "status": "proved", "theorems": ["C90_histories", "C90_rewards_solvent", "C90_registry_solvent", "C90_only_outsiders_lack", "C90_zero", "C90_free", "C90_supply", "C90_moves", "C90_claim", "C90_distribute"], "note": ""},
{"property": "C91", "status": "proved", "theorems": ["C91_names", "C91_names_refuted", "C91_once_per_chain_refuted", "C91_all_sent", "C91_recorded", "C91_restarts", "C91_votes", "C91_handlers", "C91_exit", "C91_recorded_refuted"], "note": "With the conditions stated: C91_recorded_refuted and C91_names_refuted show that they are needed; C91_once_per_chain_refuted: a chain written in two ways."},
{"property": "C92", "status": "proved", "theorems": ["C92_onboarding", "C92_signs", "C92_default_key_id_errs", "C92_default_key_id_stuck"], "note": "tofnd is assumed to behave as its protocol file says (derived_keys): the default key id never works."},
{"property": "C93", "status": "proved", "theorems": ["C93_message_verified", "C93_only_vouched_verified", "C93_operators_verified", "C93_delivered", "C93_worker_set_confirmed"], "note": "Worker sets as long as nobody asks about them again (C13). Hypotheses on the router (may_send) exclude frozen and unknown chains, see C81_one_stops_all. Verified exactly if vouched: C93_message_verified and C93_only_vouched_verified, C93_operators_verified."},
{"property": "C94", "status": "proved", "theorems": ["C94_prover_call_iff", "C94_session_begins", "C94_signature_iff", "C94_proof_pending", "C94_abi_proof_iff", "C94_bcs_proof", "C94_vote_iff", "C94_end_iff"], "note": "Worker-set identifiers are assumed not to collide within the history (hashes_apart), total weights to fit in 256 bits; rewards parameters valid, fewer than 2^63 calls. BCS: sufficient limits only."},
{"property": "C95", "status": "proved", "theorems": ["C95_rounding", "C95_limit_covers", "C95_limit_lower", "C95_limit_upper", "C95_limit_covers_refuted", "C95_bad_adjustment", "C95_fee", "C95_fee_enough", "C95_fee_enough_refuted", "C95_default", "C95_transactions"], "note": "f64 as in IEEE 754 (C95_rounding checks the model's rounding). Outside the ranges it is false: C95_limit_covers_refuted, C95_fee_enough_refuted; C95_bad_adjustment: a negative or NaN adjustment is accepted and gives no gas."},
{"property": "C96", "status": "proved", "theorems": ["C96_reads", "C96_read", "C96_read_back", "C96_read_back_refuted", "C96_negative_refuted"], "note": "Non-ASCII digits and letters are treated as other characters, with the same outcome. cosmrs' check of denominations and the standard library's printing of f64 are parameters. C96_read_back_refuted, C96_negative_refuted: the conditions are needed."},
{"property": "C97", "status": "proved", "theorems": ["C97_entries_apart", "C97_bytes_as_map", "C97_keys_read_back", "C97_long_parts_panic"], "note": "Layouts of all eight contracts. Values are typed (their JSON text is left out); listings are under leading parts shorter than 65535 bytes."},
{"property": "C98", "status": "proved", "theorems": ["C98_gateway", "C98_nexus", "C98_rewards", "C98_verifier", "C98_prover", "C98_router", "C98_registry", "C98_multisig"], "note": "All eight contracts. Values are typed (their JSON text is left out). The prover's transaction is one program: its call, the multisig's answer (an oracle), its reply."},
{"property": "C99", "status": "proved", "theorems": ["C99_json_read_back", "C99_texts_apart", "C99_base64_exact", "C99_messages_poll", "C99_worker_set_poll", "C99_signing", "C99_plain_words", "C99_plain_0x", "C99_plain_hex", "C99_digits_are_numbers"], "note": "serde_json without optional features; whether a long decimal stays below the largest double is a parameter. JSON objects are modelled as key lists in the order written."},
{"property": "C100", "status": "proved", "theorems": ["C100_participants_vote", "C100_signs", "C100_decimal_digest_refuted", "C100_decimal_digest"], "note": "C100_decimal_digest_refuted: the condition on the digest is needed; C100_decimal_digest says it for all such digests. About one digest in 2^43 is of that kind, so one can be searched for by choosing message texts."},
{"property": "C101", "status": "proved", "theorems": ["C101_polls", "C101_wage_unique", "C101_poll_distribution", "C101_session_distribution", "C101_total", "C101_late_signature_refuted"], "note": "The last sentence is C101_late_signature_refuted: the sum over all paid epochs, true of polls, is false of signing sessions, because late signatures count for an epoch that is paid already. For sessions C101_session_distribution says what each distribution pays."},
{"property": "C102", "status": "proved", "theorems": ["C102_verifier", "C102_multisig", "C102_rewards", "C102_gateway", "C102_aggregate", "C102_nexus", "C102_router", "C102_prover", "C102_registry", "C102_shape", "C102_system", "C102_valid_rewards", "C102_messages", "C102_zero_rewards_refuted"], "note": "The last sentence is C102_zero_rewards_refuted. serde-json-wasm is taken to read the grammar of serde_json; addresses in messages are plain texts, as in the code."},
{"property": "C103", "status": "proved", "theorems": ["C103_verifier", "C103_multisig", "C103_rewards", "C103_gateway", "C103_aggregate", "C103_nexus", "C103_router", "C103_prover", "C103_registry", "C103_texts", "C103_order", "C103_apart", "C103_one_meaning", "C103_system", "C103_transfer", "C103_daemon", "C103_commands", "C103_to_nexus"], "note": "Questions contracts ask each other are not texts here, see C106; heights are 64-bit numbers and keys answered by contracts outside the system are proper (proper_tx; for the system of C106 the latter is proved)."},
{"property": "C104", "status": "proved", "theorems": ["C104_router", "C104_registry", "C104_multisig", "C104_gateway", "C104_nexus", "C104_rewards", "C104_verifier", "C104_prover", "C104_texts"], "note": ""},
{"property": "C105", "status": "proved", "theorems": ["C105_router", "C105_unfrozen", "C105_handed", "C105_message", "C105_gateway", "C105_multisig", "C105_verifier", "C105_prover", "C105_nexus_refuted", "C105_frozen_refuted", "C105_gateway_refuted", "C105_votes_refuted"], "note": ""},
{"property": "C106", "status": "proved", "theorems": ["C106_texts", "C106_answered", "C106_any_text", "C106_system", "C106_transfer", "C106_polls_unanswered"], "note": "Heights and times of blocks are 64-bit, amounts of coins 128-bit, chain ids 256-bit numbers (typed_tx, typed_deployment). serde-json-wasm is taken to read the grammar of serde_json."},
{"property": "C107", "status": "proved", "theorems": ["C107_read_back", "C107_says", "C107_cut_short", "C107_refused", "C107_starts", "C107_served", "C107_key", "C107_unreadable_refuted"], "note": "cosmrs' JSON of keys is taken to be read back (keys_read_back); heights are 64-bit numbers. That every block up to the recorded height was dealt with is refuted for a file that cannot be read (C107_unreadable_refuted), as the property says. Within one run the key in use is the one loaded or generated; what the key daemon does is outside."},
{"property": "C108", "status": "proved", "theorems": ["C108_whole", "C108_backtrace", "C108_text", "C108_total", "C108_merged", "C108_merged_refuted", "C108_text_refuted"], "note": "error-stack is modelled by the order of its frames, as the comment in loggable.rs describes it; Rust's debug form of strings is arbitrary. The exceptions in the property's last sentence are C108_merged, C108_merged_refuted and C108_text_refuted."},
{"property": "C109", "status": "proved", "theorems": ["C109_served", "C109_commands", "C109_spelling_refuted"], "note": "The exception in the property's last sentence is C109_spelling_refuted, which holds under all the hypotheses of C109_commands."},
{"property": "C110", "status": "proved", "theorems": ["C110_reads", "C110_one", "C110_submitted", "C110_told", "C110_refused", "C110_keygen"], "note": ""},
{"property": "C111", "status": "proved", "theorems": ["C111_shown", "C111_ends", "C111_true", "C111_passed_over", "C111_open_voted", "C111_late_refused", "C111_falls_refuted"], "note": ""},
{"property": "C112", "status": "proved", "theorems": ["C112_message_was_seen", "C112_worker_set_was_seen", "C112_transfer_data", "C112_transfer_seen"], "note": ""},
{"property": "C113", "status": "proved", "theorems": ["C113_message_gets_verified", "C113_worker_set_gets_verified", "C113_sui_message_gets_verified", "C113_sui_worker_set_gets_verified"], "note": ""},
{"property": "C114", "status": "partial", "theorems": ["C114_batch_iff", "C114_all_or_none", "C114_confirmed_counts", "C114_late_loses_all", "C114_arrival_stops", "C114_in_time_refuted"], "note": "As titled the property is false of the code: C114_in_time_refuted gives a vote that would be accepted alone at every height concerned and is lost because it was sent together with a vote on a poll that had expired meanwhile. C114_batch_iff and C114_all_or_none say exactly which batches count."}
]}
