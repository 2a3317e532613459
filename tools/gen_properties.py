#!/usr/bin/env python3
"""Writes /verif/properties.jsonl. The list below is the source of truth."""
import json, os
P = []
def p(title, statement, quantifier, why, anchors):
    P.append(dict(id="C%02d" % (len(P)+1), title=title, statement=statement,
                  quantifier=quantifier, why_tests_cant=why, anchors=anchors))

STD="packages/axelar-wasm-std/src/"
VV="contracts/voting-verifier/src/"
RW="contracts/rewards/src/"
MS="contracts/multisig/src/"
RT="contracts/connection-router/src/"
GW="contracts/gateway/src/"
NX="contracts/nexus-gateway/src/"
SR="contracts/service-registry/src/"
PR="contracts/multisig-prover/src/"
AG="contracts/aggregate-verifier/src/"
BA="contracts/batching/src/"
AM="ampd/src/"

# --- axelar-wasm-std -------------------------------------------------------
p("Thresholds are exact fractions in (0,1] and majority thresholds exceed one half",
  "A Threshold can be built from (numerator, denominator) exactly when 0 < numerator <= denominator; comparing two thresholds gives the order of the exact rational numbers, with no rounding or overflow; every threshold accepted as a MajorityThreshold is strictly greater than 1/2, and every threshold strictly greater than 1/2 is accepted.",
  "all pairs of u64 numerators and denominators, all pairs of thresholds",
  "the boundary num = den/2 behaves differently for odd and even denominators and cross multiplication exceeds 64 bits; tests sample a few fractions",
  [STD+"threshold.rs: Threshold, MajorityThreshold, TryFrom, PartialOrd"])
p("Snapshot quorum is the exact ceiling of the threshold share of the total weight",
  "A snapshot of a non-empty participant list has total weight equal to the sum of the listed weights and quorum equal to the least integer q with q*den >= total*num; hence 1 <= quorum <= total, and with a majority threshold two disjoint groups cannot both reach the quorum.",
  "all participant lists with non-zero weights, all thresholds, up to 256-bit overflow (which aborts)",
  "rounding direction and overflow only matter at sizes tests do not enumerate",
  [STD+"snapshot.rs: Snapshot::new", STD+"threshold.rs: MajorityThreshold"])
p("Poll tallies equal the weight of the recorded voters",
  "After any history of cast_vote and finish calls on a weighted poll, for every message index and every vote option the tally equals the sum of the snapshot weights of exactly those participants whose single accepted ballot chose that option; only snapshot participants are counted and nobody is counted twice.",
  "all histories of vote and finish calls by arbitrary senders at arbitrary block heights",
  "it is an invariant over unbounded histories",
  [STD+"voting.rs: WeightedPoll::cast_vote, Tallies"])
p("A poll never reports two conflicting outcomes and never takes back a reported one",
  "With a majority threshold, at most one vote option per message can reach the quorum, so the reported consensus does not depend on the order in which options are examined; once a message has consensus on an option, it has the same consensus after any further votes and after the poll ends.",
  "all polls whose quorum comes from a majority-threshold snapshot and all vote histories",
  "conflict would need adversarial weight distributions and orders of votes",
  [STD+"voting.rs: WeightedPoll::consensus, Tallies::consensus", STD+"snapshot.rs"])
p("Ballots are accepted exactly in the voting window, finishing only after it",
  "cast_vote succeeds if and only if the sender is a participant of the snapshot, the block height is below the expiry, the ballot has one vote per message and the sender has not voted before; finish succeeds if and only if the poll is unfinished and the height is at or past the expiry; a rejected call changes nothing; therefore no vote is ever accepted after a poll has been finished when heights do not decrease.",
  "all poll states, senders, ballots and block heights",
  "off-by-one at expiry and partial updates on the error path need every boundary",
  [STD+"voting.rs: WeightedPoll::cast_vote, WeightedPoll::finish"])
p("Consensus participants are exactly the voters that agreed with every reached consensus",
  "The participants returned for a poll are exactly those who voted and whose ballot agrees with the consensus for every message that reached one; messages without consensus exclude nobody; non-voters are never included and each name appears once.",
  "all reachable poll states",
  "the set depends on every combination of per-message outcomes",
  [STD+"voting.rs: WeightedPoll::state"])
# --- voting verifier --------------------------------------------------------
p("A verified message stays verified",
  "Once the voting verifier answers Verified for a message it answers Verified for that message after every later sequence of calls (verify requests, votes, poll endings, worker set polls) by anyone at non-decreasing heights.",
  "all contract histories from instantiation, all callers, all service-registry answers, all non-decreasing block heights",
  "requires an invariant linking stored polls and message records over all histories",
  [VV+"execute.rs: verify_messages, vote, end_poll", VV+"query.rs: verification_status"])
p("Verified means a quorum of the polled workers vouched for exactly that message",
  "If the voting verifier answers Verified for a message then it opened a poll containing exactly that message, and participants of that poll's snapshot holding at least the quorum weight voted SucceededOnChain for it before the poll expired.",
  "all contract histories from instantiation",
  "the link between a message, its poll slot and its votes must hold on every path, including re-polls and batches",
  [VV+"execute.rs: verify_messages, vote", VV+"query.rs: verification_status"])
p("Verification requests are idempotent for settled or pending messages",
  "Calling verify_messages with messages that are all already verified or in progress changes no state and opens no poll; otherwise it opens exactly one poll, holding exactly the requested messages that were neither verified nor in progress, in request order; a failed or unknown message can be polled again.",
  "all reachable states and request batches",
  "batches mix statuses in arbitrary ways",
  [VV+"execute.rs: verify_messages"])
p("Poll identifiers are unique and polls are immutable except for votes and ending",
  "Every poll opened by the voting verifier gets an id strictly greater than all earlier ids; once opened, its expiry, snapshot, quorum and messages never change; vote and end_poll on one poll never affect another poll.",
  "all contract histories",
  "overwriting would need a particular interleaving of message and worker-set polls",
  [VV+"execute.rs: create_messages_poll, create_worker_set_poll", STD+"counter.rs"])
p("Ending a poll reports each consensus voter to the rewards contract once",
  "end_poll emits exactly one participation record per consensus participant, all with the poll id as event id; over any history a poll is ended at most once, so no (poll, worker) pair is ever reported twice.",
  "all contract histories",
  "double reporting depends on history, not on one call",
  [VV+"execute.rs: end_poll", STD+"voting.rs: WeightedPoll::finish"])
p("Message digests used as storage keys separate distinct messages",
  "Two different messages accepted by the verifier are recorded under different keys, so that the status of one message can never be confused with, or blocked by, another.",
  "all pairs of messages",
  "needs a universally quantified injectivity statement about the key derivation",
  [RT+"state.rs: Message::hash", VV+"query.rs: verification_status", VV+"state.rs: POLL_MESSAGES"])
p("A worker-set verification in progress keeps its votes",
  "While a worker-set poll is in progress, another verify_worker_set request for the same operators does not discard the votes already collected; once verified a worker set stays verified.",
  "all contract histories",
  "needs adversarial interleavings of requests and votes",
  [VV+"execute.rs: verify_worker_set, create_worker_set_poll", VV+"query.rs: worker_set_status"])
# --- rewards -----------------------------------------------------------------
p("Epochs advance contiguously with block height",
  "With constant parameters the epoch number at height h is start_epoch + (h - start_height)/duration, the epoch contains h, and the epoch number never decreases with height; an update of the parameters keeps the epoch number monotone, moving to a fresh epoch starting now only if the new duration already elapsed.",
  "all stored parameters, all non-decreasing heights, all parameter updates",
  "boundary heights and parameter changes interact over unbounded histories",
  [RW+"contract/execute.rs: current_epoch, update_params"])
p("An event belongs to one epoch and is counted once",
  "Recording participation for an event for the first time increments the event count of exactly the current epoch of exactly that contract's pool; recording it again by other workers, even in later epochs, increments no event count and credits the worker to the epoch in which the event was first seen.",
  "all histories of participation records",
  "events straddle epoch boundaries in many ways",
  [RW+"contract/execute.rs: record_participation, load_or_store_event"])
p("Recording the same participation twice has no effect",
  "Recording the same worker for the same event of the same contract again leaves the worker's entitlement unchanged.",
  "all reachable tallies, events and workers",
  "idempotence is a universally quantified two-call property",
  [RW+"contract/execute.rs: record_participation", RW+"state.rs: EpochTally::record_participation"])
p("Each epoch pays a qualifying worker an equal share of at most the epoch's reward",
  "For an epoch tally, the workers paid are exactly those whose participation divided by the event count reaches the threshold fixed when the epoch's first event was recorded; all get the same integer share floor(reward/number of qualifying workers), so the total paid for the epoch never exceeds the epoch reward.",
  "all epoch tallies",
  "integer division and thresholds over arbitrary tallies",
  [RW+"state.rs: EpochTally::rewards_by_worker"])
p("Rewards for an epoch are paid at most once and only after the payout delay",
  "Over any history, the epochs processed by successive successful DistributeRewards calls for one pool are disjoint increasing intervals that together form a contiguous prefix 0..watermark, and an epoch is processed only when the current epoch is at least two later.",
  "all histories of calls for any number of pools, all heights",
  "double payment depends on the sequence of watermarks",
  [RW+"contract/execute.rs: distribute_rewards, process_rewards_for_epochs"])
p("Pools conserve money",
  "For every pool and every history, the sum of deposits equals the current balance plus the sum of all payouts; a distribution the balance cannot cover fails and leaves balance and watermark unchanged; payouts of one pool never touch another pool.",
  "all histories of deposits and distributions",
  "conservation is an unbounded-history invariant",
  [RW+"contract/execute.rs: add_rewards, distribute_rewards", RW+"state.rs: RewardsPool::sub_reward", RW+"contract.rs"])
p("The caller's epoch limit bounds the work of one distribution",
  "DistributeRewards with epoch_count = n processes at most n epochs and never aborts for large n.",
  "all values of epoch_count, watermarks and current epochs",
  "extreme arguments are not sampled by tests",
  [RW+"contract/execute.rs: distribute_rewards"])
p("Reward parameters of an epoch are fixed by its first event",
  "A parameter update never changes the reward, threshold or event data of an epoch whose first event was already recorded; only governance can update parameters.",
  "all histories with parameter updates between events",
  "needs interleavings of updates, events and distributions",
  [RW+"contract/execute.rs: update_params, record_participation", RW+"contract.rs"])
# --- multisig ------------------------------------------------------------------
p("A signing session completes exactly when signatures reach the threshold weight",
  "In every reachable state, a session is Completed if and only if the total weight of the distinct signers of its worker set that have submitted a signature is at least the worker set's threshold; before that it is Pending.",
  "all histories of registrations, sessions and signatures",
  "relates stored signatures and session state over every history",
  [MS+"contract.rs: submit_signature", MS+"signing.rs: SigningSession::recalculate_session_state"])
p("Completion happens once and its height never changes",
  "Once a session is Completed at height h it stays Completed at h forever, and the completion event is emitted by exactly one submission: the one that first reached the threshold.",
  "all histories",
  "later signatures within the grace period re-run the completion logic",
  [MS+"signing.rs: recalculate_session_state", MS+"contract.rs: signing_response"])
p("Only valid signatures of session signers are stored, at most one each",
  "Every stored signature was submitted by a signer listed in the session's worker set, verifies for the session's message under the key recorded in that worker set, and is never replaced; a second submission by the same signer is rejected.",
  "all histories, all submitted byte strings",
  "the stored set must satisfy it after any sequence of submissions",
  [MS+"contract.rs: submit_signature", MS+"state.rs: save_signature", MS+"signing.rs: validate_session_signature"])
p("Late signatures are accepted exactly up to the end of the grace period",
  "A submission at height h to a session completed at c is rejected as closed if and only if h > c + grace period; a pending session never closes.",
  "all sessions, heights and grace periods",
  "off-by-one and overflow at the boundary",
  [MS+"signing.rs: validate_session_signature"])
p("Only authorized callers start sessions; ids are unique and sessions immutable",
  "start_signing_session succeeds only for a caller currently authorized by governance and a registered worker set; every session gets a fresh id greater than all earlier ones; the message, key set and chain of a session never change; authorizations change only by governance.",
  "all histories of calls by arbitrary senders",
  "authorization depends on the whole history of authorize and unauthorize calls",
  [MS+"contract.rs: execute, start_signing_session, authorize_caller, unauthorize_caller"])
p("Registered keys belong to their sender",
  "The public key returned for (worker, key type) is the last key of that type that this very worker registered; nobody else can change it; keys and signatures of the wrong length or type are rejected.",
  "all histories of registrations, all byte strings",
  "needs all histories and all lengths",
  [MS+"contract.rs: register_pub_key", MS+"key.rs"])
# --- router --------------------------------------------------------------------
p("Chains and gateways are in one-to-one correspondence",
  "In every reachable router state no two chains share a gateway address and no chain is registered twice, so looking up a chain by gateway never meets an ambiguous index.",
  "all histories of registrations, upgrades, freezes",
  "uniqueness is an invariant over every history",
  [RT+"contract/execute.rs: register_chain, upgrade_gateway", RT+"state.rs: load_chain_by_gateway"])
p("Freezing blocks exactly the frozen direction and unfreezing restores it",
  "After any sequence of freeze and unfreeze calls for a chain, a direction is frozen if and only if the last call mentioning that direction was a freeze; calls for one chain never affect another; gateway upgrades keep the frozen state.",
  "all histories of freeze, unfreeze, register and upgrade calls, all direction masks",
  "bit-mask algebra over unbounded histories",
  [RT+"contract/execute.rs: freeze_chain, unfreeze_chain", STD+"flagset.rs", RT+"state.rs: GatewayDirection"])
p("Routing delivers every message unchanged and in order to its destination gateway, or fails as a whole",
  "A successful route_messages emits messages whose concatenation per destination gateway is exactly the input restricted to that destination, in order, unchanged, each sent to the gateway registered for the destination chain (or to the nexus gateway when the destination is not registered and the sender is not nexus); otherwise the whole call fails and nothing is sent.",
  "all router states and message batches",
  "grouping of interleaved destinations needs induction over arbitrary batches",
  [RT+"contract/execute.rs: route_messages, validate_msgs"])
p("Only a registered, unfrozen gateway can inject messages, and only for its own chain",
  "If route_messages succeeds then the sender is the nexus gateway or the gateway currently registered for some chain that is not frozen for incoming traffic and every message names that chain as its source; destinations frozen for outgoing traffic always make the call fail.",
  "all router states, senders and batches",
  "authorization must hold for every combination of frozen flags and batches",
  [RT+"contract/execute.rs: validate_msgs, route_messages"])
p("Router administration is restricted to its roles",
  "Only governance changes the set of chains and their gateways, only the admin changes frozen states, and any rejected call leaves the state unchanged.",
  "all histories and senders",
  "must hold for every entry point and sender",
  [RT+"contract.rs: execute", RT+"contract/execute.rs: require_admin, require_governance"])
p("Freeze and unfreeze announce what happened",
  "The event emitted by unfreezing a chain differs from the one emitted by freezing it, so observers can reconstruct the frozen state from events.",
  "all router states and directions",
  "reconstructibility quantifies over histories of events",
  [RT+"contract/execute.rs: freeze_chain, unfreeze_chain", RT+"events.rs"])
p("Cross-chain identifiers and chain names round-trip through text",
  "Parsing the printed form of a cross-chain id gives back the same id; two ids with the same printed form are equal; chain names are case-normalised, never empty and never contain the separator, and parsing a printed name is the identity.",
  "all strings",
  "separator handling over arbitrary strings",
  [RT+"state.rs: CrossChainId, ChainName"])
# --- gateway ----------------------------------------------------------------------
p("The gateway forwards to the router only messages its verifier reports verified",
  "Whenever the gateway routes messages for a caller other than the router, the messages it sends to the router are exactly those of the request that the verifier reports as verified, in order and unchanged; the rest is not forwarded; requests with a repeated message id are rejected.",
  "all requests and all verifier answers",
  "answers and requests combine arbitrarily",
  [GW+"contract/execute.rs: route_messages, partition_by_verified, ensure_unique_ids"])
p("The gateway asks its verifier only about unverified messages",
  "verify_messages sends to the verifier exactly the messages of the request not yet verified, in order, and sends nothing if there are none.",
  "all requests and verifier answers",
  "arbitrary mixtures of statuses",
  [GW+"contract/execute.rs: verify_messages"])
p("Outgoing messages at a gateway come only from the router and can be read back by id",
  "Only the router can add messages to the outgoing store; after any history reading the ids of stored messages returns, in the requested order, the last message the router stored under each id; a missing id is an error.",
  "all histories of routing calls and reads",
  "read-after-write over histories",
  [GW+"contract/execute.rs: route_messages", GW+"contract/query.rs: get_messages"])
# --- nexus gateway ------------------------------------------------------------------
p("A message reaches nexus at most once",
  "Over any history of calls, the messages handed to the nexus module never contain the same cross-chain id twice.",
  "all histories and batches, including batches with repeated ids",
  "duplicates may occur within one batch or across batches",
  [NX+"contract/execute.rs: route_to_nexus", NX+"state.rs"])
p("Nexus messages keep their identity across the bridge",
  "Converting a nexus message to a router message and back gives the original message; different router messages get different nexus transaction ids and indices.",
  "all messages",
  "injectivity of the id conversion over all strings",
  [NX+"nexus.rs: parse_message_id, TryFrom"])
p("Only nexus and the router can use the nexus gateway",
  "Messages are passed to the router only when the caller is the nexus module and to nexus only when the caller is the router; content and order are preserved; an empty batch sends nothing.",
  "all callers and batches",
  "must hold for every caller",
  [NX+"contract/execute.rs: route_to_router, route_to_nexus", NX+"contract.rs"])
# --- service registry -----------------------------------------------------------------
p("Bonded stake is conserved",
  "For every worker and history the amount the contract owes (bonded or unbonding) equals the funds bonded in the service denomination minus the claimed amounts; claiming pays exactly the owed amount once and then nothing.",
  "all histories of bond, unbond, claim calls",
  "conservation over unbounded histories",
  [SR+"contract.rs: bond_worker, unbond_worker, claim_stake", SR+"state.rs: BondingState"])
p("Stake is claimable only after the unbonding period",
  "claim_stake succeeds if and only if the worker is unbonding and at least the unbonding period has passed since the unbond call; bonded stake cannot be claimed; bonding again while unbonding returns the whole amount to the bonded state.",
  "all states and block times",
  "time boundary and state transitions",
  [SR+"state.rs: BondingState::claim_stake, BondingState::unbond"])
p("Active workers are exactly the authorized, sufficiently bonded workers that declared the chain",
  "GetActiveWorkers(service, chain) returns exactly the workers of the service that declared support for the chain, are authorized by governance and hold a bond of at least the service minimum; each worker once.",
  "all registry histories",
  "the answer depends on the joint history of three kinds of calls",
  [SR+"contract/query.rs: get_active_workers"])
p("Service registry roles",
  "Only governance registers services and changes authorizations; a worker's bond and chain declarations change only through the worker's own calls; a service's parameters never change once registered.",
  "all histories and senders",
  "must hold for all callers and histories",
  [SR+"contract.rs: execute"])
p("Looking up a worker returns that worker",
  "GetWorker(service, worker) returns the stored record of that worker for that service.",
  "all registry states, service names and addresses",
  "argument order is only visible when the two names differ and both exist",
  [SR+"contract.rs: query", SR+"contract/query.rs: get_worker"])
# --- prover ------------------------------------------------------------------------------
p("The prover's active worker set changes only when the verifier confirmed the next one",
  "After the first worker set, the stored current worker set is replaced only by ConfirmWorkerSet, only by the pending next worker set, and only if the voting verifier reports that set's operators as verified; the pending set is then cleared.",
  "all prover histories and verifier answers",
  "interleavings of updates and confirmations",
  [PR+"execute.rs: confirm_worker_set, update_worker_set, construct_proof"])
p("A worker-set update is proposed exactly when membership changed enough",
  "A new worker set is proposed if and only if the number of worker entries (address, weight and key) that are in exactly one of the two sets exceeds the configured difference threshold; while a different set awaits confirmation, no other set is proposed.",
  "all pairs of worker sets, all thresholds",
  "symmetric-difference counting over arbitrary sets",
  [PR+"execute.rs: should_update_worker_set, different_set_in_progress, get_next_worker_set"])
p("The proof contains enough signing weight and no superfluous signature",
  "For a completed session, the signers selected for the proof carry at least the quorum, are selected by non-increasing weight, no selected signer could be dropped from the end without losing the quorum, and every signature in the proof was submitted to the session.",
  "all signer lists with signatures and quorums",
  "minimality over arbitrary weights",
  [PR+"query.rs: get_proof, optimize_signers"])
p("Batch ids identify the set of messages independently of request order",
  "Two ConstructProof requests naming the same messages in different order get the same batch id; requests naming different sets of messages get different batch ids (up to hash collisions).",
  "all lists of message ids",
  "needs permutation invariance and injectivity over all id strings",
  [PR+"types.rs: BatchId::new"])
p("BCS encoding of batches, proofs and parameters is unambiguous",
  "Decoding the BCS encoding of command data, command parameters, operator sets and proofs returns the encoded values; hence two different batches never produce the same bytes to sign.",
  "all values within the type bounds",
  "round-trip over all lengths, including multi-byte length prefixes",
  [PR+"encoding/bcs.rs: encode, command_params, transfer_operatorship_params, encode_proof, msg_digest"])
p("ABI encoding of batches, proofs and parameters is unambiguous",
  "Decoding the ABI encoding of command data, command parameters, operator sets and proofs returns the encoded values; hence two different batches never produce the same bytes to sign.",
  "all values within the type bounds",
  "offsets and padding over all lengths",
  [PR+"encoding/abi.rs: encode, command_params, transfer_operatorship_params, encode_proof, msg_digest"])
p("Proof operators are strictly ordered and match the worker set",
  "The operators encoded in a proof and in an operatorship transfer are sorted by address, are a permutation of the worker set's members with their weights, and their digest does not depend on the order in which members are listed.",
  "all worker sets",
  "sorting and permutation over arbitrary sets",
  [PR+"encoding/abi.rs: make_operators", PR+"encoding/bcs.rs: make_operators", STD+"operators.rs"])
# --- small contracts -------------------------------------------------------------------
p("Batched optional calls cannot abort the batch",
  "In the batching contract, failure of a call marked as allowed to fail never aborts the transaction and is reported with the index of that very call, while failure of a mandatory call aborts everything; calls are dispatched in order.",
  "all batches and all outcomes of the calls",
  "combinations of outcomes",
  [BA+"contract.rs: execute, reply"])
p("The aggregate verifier relays its voting verifier faithfully",
  "The aggregate verifier's answers to verify and status requests are the answers of the configured voting verifier for the same messages.",
  "all requests and verifier answers",
  "quantifies over every answer of the downstream contract, and the repository only tests it against a mock with a different reply shape",
  [AG+"contract.rs: execute, reply, query"])
# --- ampd ----------------------------------------------------------------------------------
p("The broadcast queue neither loses, duplicates nor reorders messages",
  "For every interleaving of incoming messages, timer ticks and forced broadcasts, the concatenation of all broadcast batches followed by the queued messages is exactly the sequence of received messages; when the input closes, everything is broadcast; if a broadcast fails, the lost messages are exactly the failed batch and the task stops.",
  "all interleavings, all gas estimates, all failure points",
  "schedules and failure points are unbounded",
  [AM+"queue/queued_broadcaster.rs: QueuedBroadcaster::run, broadcast_all", AM+"queue/msg_queue.rs"])
p("Broadcast batches respect the gas limit",
  "Every batch with more than one message has estimated gas below the batch gas limit, and no empty batch is broadcast.",
  "all interleavings and gas estimates",
  "depends on the order of estimates",
  [AM+"queue/queued_broadcaster.rs: run", AM+"queue/msg_queue.rs"])
p("The account sequence advances once per confirmed transaction",
  "The broadcaster uses consecutive account sequence numbers: the number is incremented exactly when a transaction was confirmed with code 0, and confirmation makes at most max_retries+1 queries, stopping at the first definitive answer.",
  "all sequences of node responses",
  "unbounded response sequences",
  [AM+"broadcaster.rs: broadcast, confirm_tx, evaluate_response"])
p("A worker votes SucceededOnChain only for finalized matching gateway events",
  "The EVM verifier votes SucceededOnChain for a message if and only if the receipt of its transaction is in a block at or below the finalized height, and the log at the message's index was emitted by the configured gateway and carries exactly the message's fields; it casts exactly one vote per message of the poll, in order.",
  "all receipts, logs, messages and heights",
  "adversarial receipts and duplicate log indices",
  [AM+"evm/verifier.rs: verify_message, get_event", AM+"handlers/evm_verify_msg.rs: handle, finalized_tx_receipts", AM+"evm/finalizer.rs"])
p("Event handlers see every block's events in order, and a restart skips no block",
  "The event subscription publishes every block from its starting height exactly once, in height order, each framed by begin and end markers; a handler's recorded height never exceeds a block it has completely handled, so after a crash and restart from the recorded heights each handler is given every block it had not completed.",
  "all sequences of latest-block answers, all crash points, all handler progress",
  "crash points and interleavings are unbounded",
  [AM+"event_sub.rs: run, process_blocks_from, skip_to_block", AM+"event_processor.rs: consume_events", AM+"handlers/end_block.rs", AM+"state.rs", AM+"lib.rs: App::new, configure_handler"])
p("A worker votes only in polls addressed to it and still open",
  "The vote and signing handlers submit something only for events of the configured contract and chain that list this worker as participant and, for polls, only while the latest known height is below the expiry; other events produce no transaction. Conversely, for a well-formed event that does meet these conditions the worker does submit: one vote per item of the poll once the chain's node answers, or one signature with its listed key once the key daemon signs.",
  "all events and configurations",
  "all combinations of mismatching fields",
  [AM+"handlers/evm_verify_msg.rs", AM+"handlers/sui_verify_msg.rs", AM+"handlers/multisig.rs"])
# --- composition ----------------------------------------------------------------------------
p("End to end: a message offered to the destination prover was verified at its source",
  "In the composed system of router, gateways and voting verifiers, every message stored as outgoing at a destination gateway, other than those injected by nexus, was reported verified by the verifier of the gateway registered for its source chain at the time it was routed, with identical content.",
  "all histories of the composed system, all callers",
  "spans several contracts and unbounded histories",
  [GW+"contract/execute.rs", RT+"contract/execute.rs", VV+"execute.rs"])
p("End to end: a completed proof is backed by threshold weight of valid signatures over that batch",
  "In the composition of prover and multisig, a proof reported as completed consists of signatures over the digest of exactly the stored batch, made by members of the worker set the session was started with, whose weights reach that set's threshold.",
  "all histories of the composed system",
  "spans two contracts, replies and unbounded histories",
  [PR+"query.rs: get_proof", PR+"reply.rs", MS+"contract.rs"])
# --- found while modelling --------------------------------------------------------------------
p("One source-chain event is verifiable under one cross-chain id only",
  "Two messages of the same chain that the voting verifier asks its workers to confirm against the same transaction id and event index (with equal remaining fields) have the same cross-chain id.",
  "all pairs of well-formed messages",
  "the set of textual encodings of an index is unbounded",
  [VV+"events.rs: parse_message_id, TryFrom<Message> for TxEventConfirmation", RT+"state.rs: CrossChainId"])

p("A message reported verified was seen on the source chain by an honest worker",
  "If, in every poll, the workers that do not run ampd are too few to reach the threshold alone, then every message an EVM voting verifier reports as verified was shown by the node of some worker running ampd: a log of the configured gateway, at the transaction and index of the message id, in a final block, carrying the message's sender, destination and payload hash.",
  "all histories of the verifier, all messages, all sets of trusted workers, all nodes",
  "spans contract, event encoding and worker over unbounded histories",
  [VV+"execute.rs", VV+"events.rs", AM+"handlers/evm_verify_msg.rs", AM+"evm/verifier.rs"])
p("A worker set reported verified was seen on the source chain by an honest worker",
  "Under the same condition, a worker set an EVM voting verifier reports as verified was shown by the node of a worker running ampd as a handover of operatorship at the configured gateway to exactly these operators, weights and threshold.",
  "all histories of the verifier, all operators, all sets of trusted workers, all nodes",
  "spans contract, event encoding, ABI and worker over unbounded histories",
  [VV+"execute.rs: verify_worker_set", AM+"handlers/evm_verify_worker_set.rs", AM+"evm/verifier.rs"])
p("The handover the prover signs is the one the workers look for",
  "The parameters of the transfer-operatorship command the prover builds for a worker set are byte for byte the operators data which workers compare with the gateway's event when that set is put to a poll.",
  "all worker sets with valid keys",
  "two independent encoders in different crates must agree on all inputs",
  [PR+"encoding/abi.rs: transfer_operatorship_params, make_operators", AM+"evm/verifier.rs"])
p("No event can stop a worker's handler",
  "Whatever events contracts emit, in particular as a result of calls anyone may make, a worker's handler for a chain either ignores the event or acts on it; it does not end with an error.",
  "all events emitted by the verifiers and multisig, all handlers",
  "the space of attribute texts is unbounded and involves two encoders",
  [AM+"handlers/evm_verify_msg.rs: handle", AM+"handlers/sui_verify_msg.rs: handle", AM+"handlers/multisig.rs: handle", AM+"event_processor.rs: consume_events", "packages/events/src/event.rs"])

# --- restricted forms of the properties that turned out false -----------------------------------
p("A handler with a recorded height is given every later block, across any number of restarts",
  "If a handler's name is configured once and it does not lag behind the publisher before it reaches the block after its recorded height, then in every run it starts with exactly that block; and over any sequence of runs, ends and crashes, every block above the first recorded height and up to the last one was handed to it completely, with the events the node gave, and handled without error in one of the runs. Blocks are published whole and without gaps; once and in order if the node's latest height never goes back.",
  "all runs, crash points, node answers, handlers and cancellations",
  "crash points and interleavings are unbounded",
  [AM+"event_sub.rs: run, process_blocks_from, skip_to_block", AM+"event_processor.rs: consume_events", AM+"handlers/end_block.rs", AM+"state.rs", AM+"lib.rs: configure_handler"])
p("Messages between EVM chains never block each other",
  "If all messages a voting verifier was ever asked for are between EVM chains (transaction hash and decimal index as id, 42-character addresses) and the hash does not collide on them, then every such message has a status, and further requests for such messages are accepted.",
  "all histories of such requests, votes and endings",
  "the keys of all pairs of messages must differ",
  [VV+"state.rs", VV+"query.rs: verification_status", RT+"state.rs: Message::hash"])
p("A verified worker set stays verified and was vouched for",
  "Once the voting verifier reports a worker set as verified it does so forever, and it does so only if enough of the workers named by the registry when a poll about exactly that set was opened voted for it before the poll expired.",
  "all histories and callers",
  "unbounded histories",
  [VV+"execute.rs: verify_worker_set", VV+"query.rs: worker_set_verification_status"])
p("Participation is counted once per event that is reported once",
  "If no participation is reported twice, a worker's count in an epoch is the number of distinct events first seen in that epoch in which its participation was reported, and never exceeds the epoch's event count.",
  "all histories without repeated reports",
  "unbounded histories",
  [RW+"contract/execute.rs: record_participation"])
p("A distribution pays a bounded number of epochs and is accepted exactly when it can be paid",
  "With a limit of at least one, a distribution advances by at most that many epochs; it is accepted if and only if an epoch two or more behind the current one is unpaid, the arithmetic fits and the pool covers what is owed for the epochs due.",
  "all histories, pools, limits and heights",
  "unbounded histories and arithmetic boundaries",
  [RW+"contract/execute.rs: distribute_rewards"])
p("A session with a positive threshold completes exactly at the threshold",
  "A signing session whose worker set has a positive threshold is reported completed if and only if the members that signed, each counted once, have at least the threshold weight.",
  "all histories of sessions and signatures",
  "unbounded interleavings",
  [MS+"contract/execute.rs: submit_signature", MS+"signing.rs"])
p("Messages are handed to nexus once if no call repeats an id",
  "Over any history in which no single call repeats an id, the messages handed to nexus are the first offered under each id, each once, in order; and across calls an id already handed over is never handed over again, whatever later calls contain.",
  "all histories of calls",
  "unbounded histories",
  ["contracts/nexus-gateway/src/contract/execute.rs"])
p("Canonical ids survive the conversion to and from nexus",
  "A message that came from nexus converts back to itself, different nexus ids give different cross-chain ids, and two messages with canonical ids that nexus sees under the same id have the same cross-chain id; content is carried over unchanged. For one source-chain event there is one canonical id.",
  "all messages",
  "the space of ids is unbounded",
  ["contracts/nexus-gateway/src/nexus.rs", VV+"events.rs: parse_message_id"])
p("Ids without commas name their batch",
  "Requests for the same messages in any order are answered with the same batch, a repeated request signs the batch last built under that id for the current worker set without rebuilding it, and requests for different messages whose ids contain no comma get different batches unless the hash collides.",
  "all histories of requests",
  "unbounded histories, permutations",
  [PR+"types.rs: BatchId", PR+"execute.rs: construct_proof"])
p("The aggregate verifier relays exactly the answers of the expected shape",
  "A verification request or query through the aggregate verifier succeeds if and only if the configured verifier answers, and its answer has the expected shape; then that answer is what is returned. Asked directly, the voting verifier's answer reads as its statuses.",
  "all verifiers, states and messages",
  "all answer shapes",
  ["contracts/aggregate-verifier/src/contract.rs"])
p("The broadcast queue sends a prefix of what it received, in order, and exactly so much is lost when it stops",
  "While the task runs, everything received is either broadcast or queued; when it ends normally everything was broadcast; what was broadcast is always a prefix of what was received; when it stops with an error exactly the failed batch or the queue, and the message being handled, are lost.",
  "all interleavings of messages, ticks and outcomes",
  "unbounded interleavings",
  [AM+"queue/queued_broadcaster.rs"])
p("A proof of a batch that was not overwritten is backed by threshold weight",
  "A proof reported as completed carries valid signatures, over the digest of exactly the batch being signed, of distinct members of the worker set current when the session began, reaching its threshold and no more than needed, provided no other batch was stored under the same id since; a batch without a worker-set transfer is never overwritten.",
  "all histories of the composed system",
  "spans two contracts, replies and unbounded histories",
  [PR+"query.rs: get_proof", PR+"reply.rs", MS+"contract.rs"])

p("On one chain, each contract behaves as it does alone",
  "When all contracts are deployed together and call each other, the state of each at any moment is the one it reaches alone by the calls it received, all of which it accepts alone; failed transactions leave no trace; no call changes another contract's storage.",
  "all deployments, transactions, other contracts and nestings of calls",
  "unbounded interleavings of all contracts, with arbitrary further contracts",
  ["contracts/*/src/contract.rs: execute", PR+"reply.rs"])
p("Routing through a gateway delivers exactly the verified messages",
  "Whoever asks a gateway to route messages with different ids: those its verifier reports verified, and no others, are served by the gateways of their destination chains afterwards, and nothing else changes; provided the gateway is registered for the chain and no chain involved is frozen. One verified message with a frozen destination makes the whole call fail.",
  "all states reachable in the composed system, all lists of messages",
  "spans four contracts in all their states",
  [GW+"contract/execute.rs: route_messages", RT+"contract/execute.rs: route_messages", VV+"query.rs"])
p("Participation is what workers did, end to end",
  "In the rewards contract, a worker's participation in a verifier's pool is recorded once for each ended poll in which the worker's vote agreed with every result, and in a multisig's pool once for each session the worker signed; the count per epoch is the number of those first seen in that epoch.",
  "all histories of the composed system",
  "spans three contracts and unbounded histories",
  [VV+"execute.rs: end_poll", MS+"contract/execute.rs: submit_signature", RW+"contract/execute.rs: record_participation"])
p("A proof is about messages that really arrived",
  "Every message in a proof was asked for, is for the prover's chain, and had arrived at the prover's gateway: sent on by the router, from the source chain's gateway whose verifier had a quorum for it, or from nexus. A worker set in a proof was the active one when it was asked for.",
  "all histories of the composed system",
  "spans six contracts and unbounded histories",
  [PR+"execute.rs: construct_proof", GW+"contract/query.rs", RT+"contract/execute.rs"])
p("The prover's worker set was active and took effect",
  "The worker set whose signatures a prover asks for is the one active when the prover was first set up, or one that was the active one when proposed, was confirmed while no other had been confirmed in between, and that a quorum of workers attested on the destination chain.",
  "all histories of the composed system",
  "spans four contracts and unbounded histories",
  [PR+"execute.rs: confirm_worker_set, update_worker_set", VV+"execute.rs: verify_worker_set"])
p("The signatures in a proof were submitted by members of the current worker set",
  "Every signature in a completed proof was submitted by its signer in a call to the multisig, is good under the key of a member of the worker set that was the prover's when the session was started, belongs to a different member each, and together they reach the threshold.",
  "all histories of the composed system in which registered worker sets have different hashes",
  "spans two contracts, accounts and unbounded histories",
  [PR+"query.rs: get_proof", MS+"contract/execute.rs: submit_signature"])

p("What is served and proved at the destination was sent at the source",
  "Workers that run the off-chain daemon vote only as their node of the source chain shows. If, whenever a poll is opened, the other active workers are too few to decide it, then a message is served by the destination chain's gateway, or contained in a proof, only if a node of such a worker shows the message sent from the source chain's gateway contract in a final block (or a checkpoint), with the same content; or it came from the nexus module. Whatever anybody else sends to any contract.",
  "all histories of all contracts, with any other contracts and any votes of the other workers",
  "spans worker daemons, events and six contracts, with unbounded histories and adversarial callers",
  [AM+"handlers/evm_verify_msg.rs", AM+"handlers/sui_verify_msg.rs", VV+"execute.rs", GW+"contract/execute.rs: route_messages", RT+"contract/execute.rs", PR+"execute.rs: construct_proof"])
p("A confirmed worker set really took over at the destination gateway",
  "Under the same assumption about workers, the worker set whose signatures a prover asks for is the first one set, or one for which a node of a worker that runs the daemon shows the destination chain's gateway changing to exactly those operators, weights and threshold, before the set was confirmed.",
  "all histories of all contracts, with any other contracts and any votes of the other workers",
  "spans worker daemons, events and contracts, with unbounded histories and adversarial callers",
  [AM+"handlers/evm_verify_worker_set.rs", AM+"handlers/sui_verify_worker_set.rs", VV+"execute.rs: verify_worker_set", PR+"execute.rs: confirm_worker_set"])

p("Votes are accepted and verify",
  "On an open poll the vote of a worker it was opened for is accepted exactly if it is the worker's first one, has one answer per item and comes before the expiry, whatever else happened since; anybody can end the poll once from its expiry on. Once active workers with the threshold share voted that a message happened, it is reported Verified from then on, whatever else is called. With the same message several times in one request only the votes on the last one count (refuted for the others); a worker set may be asked about again, which starts over.",
  "all histories before and after the poll is opened, all voters",
  "unbounded histories and interleavings",
  [VV+"execute.rs: vote, end_poll", VV+"query.rs: msg_status", "packages/axelar-wasm-std/src/voting.rs"])
p("Completed signing gives a proof, and what stops it",
  "Every announced session is answered while pending. A completed session of an ABI prover gives a proof exactly if the keys of all members of its worker set are points of the curve; of a BCS prover if numbers fit in 128 bits and nothing is too long. While one active worker has no registered key, every request for a new batch and every update of the worker set is refused; while one active worker's key is no point of the curve (registration checks the length only) and the sets differ enough, an ABI prover refuses them too.",
  "all histories of the prover, all worker sets and sessions",
  "unbounded sets and histories; adversarial worker",
  [PR+"query.rs: get_proof", PR+"execute.rs: make_worker_set, construct_proof", PR+"encoding/abi", MS+"contract/execute.rs: register_pub_key"])

p("The contracts can always pay",
  "On a chain with coins: a rewards contract always holds the coins of all its pools, and a service registry, in every denomination, all bonds it owes, whatever else happens in any contract. So a transaction fails for lack of coins only if an account or another contract lacks them; a worker whose unbonding period has passed gets exactly their bond, and a distribution that can be computed is paid, share by share. Only the claim of a bond of zero coins can be refused by a chain that lets nobody pay zero coins. Coins neither appear nor vanish.",
  "all histories of the composed system, all initial balances, any payments among accounts and other contracts",
  "sums over unbounded histories, spanning the contracts and the bank",
  [RW+"contract.rs: execute (DistributeRewards)", "contracts/service-registry/src/contract.rs: bond_worker, claim_stake"])

p("What the worker daemon records as handled was handled and sent",
  "For a configuration that is accepted (and has no EVM chain called \"sui\" beside a Sui handler), all handlers have different names; and over any number of runs in which the queue of transactions did not end with an error, every block up to the height recorded for a handler was given to it, handled without error event by event, and what it made of it was broadcast successfully; in particular the worker's vote in every poll for it. If a broadcast fails the heights are written all the same, the votes are lost for good, and after a signal to stop the daemon even reports success (refuted without the condition). One chain written in two ways is accepted and voted on twice.",
  "all configurations, blocks, node answers, schedules, numbers of restarts",
  "unbounded runs and restarts, interleaving of five tasks",
  [AM+"lib.rs", AM+"handlers/config.rs", AM+"commands/daemon.rs", AM+"event_processor.rs", AM+"queue/queued_broadcaster.rs"])
p("Setting up a worker makes it active; whether it can sign depends on the key's name",
  "An authorised worker that bonds, declares its chains and registers its key with the daemon's commands is then listed as active on each of these chains with the bond, and the multisig knows the key of its daemon, whatever happened before. Its daemon answers every request to sign with a signature under this key if the key was generated under the multisig's address; under any other name, as the default one, every request to sign ends the signer with an error, and it never gets past the block of the first one, however often it is started.",
  "all histories of the composed system before, all configurations, all key daemons that derive keys from mnemonic and key id, any number of runs",
  "spans commands, contracts, events, the key daemon and restarts",
  [AM+"commands/bond_worker.rs", AM+"commands/declare_chain_support.rs", AM+"commands/register_public_key.rs", AM+"handlers/multisig.rs", AM+"tofnd/mod.rs"])

p("What was voted for can be delivered by anybody",
  "In the whole system: once workers that were active when a message was asked about, with the threshold share of the weight, voted in time that it happened, it is Verified from then on, and nothing else ever is; and unless the router refuses it, anybody can then bring it, with others, to the gateways of the destinations in one transaction, which changes nothing else, after which it is served there. In the same way a worker set that waits at a prover, once voted for and not asked about again, can be confirmed by anybody; then it is the prover's and the multisig's, and no earlier proof changes.",
  "all histories of the composed system in the order of their blocks, all callers that are no contracts of it",
  "spans registry, verifier, gateways, router, prover and multisig, with unbounded histories",
  [VV+"execute.rs", GW+"contract/execute.rs: route_messages", RT+"contract/execute.rs", PR+"execute.rs: confirm_worker_set"])
p("Who can do what in the whole system, and when proofs are there",
  "In the whole system, whatever was called before: a vote is accepted exactly from a worker active when the poll was opened, before its expiry, complete and the worker's first; anybody can end a poll once from its expiry on; a prover's call succeeds exactly if the prover accepts it and, if it needs signatures, is authorized at the multisig; it then begins the next session for its worker set, whose proof is pending; a signature is accepted exactly from a member who did not sign before, if it verifies for the session's digest and does not come after the grace period; the proof stays pending until the members that signed reach the threshold, and is available from then on (for EVM chains exactly if all members' keys are points of the curve, for BCS within the encoding's limits).",
  "all histories of the composed system in the order of their blocks, all callers that are no contracts of it",
  "equivalences over unbounded histories spanning the contracts",
  [VV+"execute.rs: vote, end_poll", PR+"execute.rs", PR+"query.rs: get_proof", MS+"contract/execute.rs: submit_signature, start_signing_session"])

p("A worker's transactions have enough gas and pay the configured price",
  "Every transaction a worker's daemon hands to the node was simulated just before, and if the configured gas adjustment is at least 1 its gas limit is at least the gas used then (below 2^53); in general it is the exact product rounded up or down. Its fee is the configured price of the gas limit, rounded up to whole coins, or at most one coin more, whenever gas limit times the digits of the price is below 2^51. With the default configuration limit and fee are exactly the gas used and its price rounded up.",
  "all configured adjustments and decimal prices, all gas numbers in the ranges given, all sequences of requests and answers of the node",
  "binary floating point: correctness for all inputs is a statement about rounding errors; tests only sample",
  [AM+"broadcaster.rs: estimate_fee", AM+"broadcaster/dec_coin.rs"])
p("A configured price is read as written",
  "A gas price is accepted exactly if it is a decimal number followed by a valid denomination that starts with a letter; it is read as the nearest representable number, never negative, infinite or not a number. A price written by the daemon is read back as the same price if its denomination starts with a letter and it is not negative.",
  "all texts, all prices",
  "all texts",
  [AM+"broadcaster/dec_coin.rs"])

p("What the contracts store never gets mixed up",
  "No two things a contract stores, whatever their names, addresses and numbers, lie under the same bytes of its store, for each of the eight contracts; reading, writing, removing and listing entries over the bytes gives the same as over a map of what was stored, and a listing gives exactly the entries asked for, in order. Identifiers read from keys are those written. A name or address in front of another key part fails from 65536 bytes on, and only then.",
  "all names, addresses and identifiers of any length, all programs over the store, all contents",
  "the key encodings have to be injective over all texts; listing bounds carry over bytes of value 255",
  [RT+"state.rs", "contracts/service-registry/src/state.rs", MS+"state.rs", GW+"state.rs", VV+"state.rs", RW+"state.rs", PR+"state.rs"])
p("The contracts behave over the bytes of their stores as their tables say",
  "Over any history of calls, each of the eight contracts, run over a store of bytes one access after the other, gives the answers and errors of the model with tables, and after every history its store holds the entries of the tables under the bytes of their keys and nothing else: of the router, an index entry exists exactly for the current gateway of each chain; the verifier's poll counter is absent until the first poll; the prover's next worker set is gone once confirmed. The queries for active workers, signing sessions, outgoing messages, verification statuses, proofs and the current worker set give the model's answers and change nothing.",
  "all histories of calls with names shorter than 65535 bytes and 64-bit poll and session numbers, every hash function",
  "refinement over unbounded histories, including the secondary index that the code updates by hand-written keys",
  [RT+"state.rs", RT+"contract/execute.rs", "contracts/service-registry/src/contract.rs", MS+"contract.rs", MS+"state.rs",
   GW+"state.rs", NX+"state.rs", RW+"state.rs", VV+"state.rs", VV+"execute.rs", PR+"execute.rs", PR+"reply.rs"])

p("The text of an event is read back as what the contract wrote",
  "The poll, worker-set and signing events of the contracts, written as JSON and plain text into attributes and handed out by the node in base64, are read by the daemon as exactly the values written: every JSON value the contracts write (nesting at most 127 deep) is read back, so no text a user puts into a message can pass for another field or message; base64 is accepted exactly if it is the encoding of a UTF-8 text; attributes written without quotes are read as the text they are if they start with a letter and are none of null, true, false, start with 0x, or are hexadecimal with one of the letters a, b, c, d, f; digits alone are read as a number.",
  "all values, texts, messages, polls, worker sets and keys",
  "round trips over all texts, including quotes, control characters and non-ASCII text chosen by users",
  ["packages/events/src/event.rs", VV+"events.rs", MS+"events.rs"])
p("From the bytes of an event to the vote and the signature",
  "A worker who takes part in an EVM poll and whose node knows what is final votes on the poll read from the bytes the node hands out, whatever texts the messages contain; a worker whose key is asked for signs, provided the digest in hexadecimal contains one of the letters a, b, c, d, f. Without the latter it fails: a digest of decimal digits alone, the first not a zero, cannot be decoded by any signer.",
  "all polls, messages and signing requests, all node answers",
  "combines reading arbitrary text with the handlers; the failing digests are too rare for random tests",
  ["packages/events/src/event.rs", AM+"handlers/evm_verify_msg.rs: handle", AM+"handlers/multisig.rs: handle", MS+"events.rs"])

p("Workers are paid exactly what their votes and signatures are worth",
  "In the whole system with its coins: what a rewards contract has sent to anybody for a verifier's polls, over any history in block order, is the sum over the paid epochs of their wage: the rewards of the epoch, divided evenly (rounded down) among those who voted as the poll ended in at least the threshold fraction of the polls that ended in it, under the parameters at its first one; nobody else gets anything, and later events change nothing about a paid epoch. Every distribution the rewards contract accepts pays at least one epoch and adds to everybody's coins exactly their wages of the epochs paid, for polls and signing sessions alike. A signature submitted after the epoch of its session was paid is never paid for.",
  "all histories of the composed system in block order, all parameters and their changes, all callers",
  "sums over unbounded histories across verifier, multisig, rewards contract and bank, with changing epoch lengths",
  [RW+"contract/execute.rs", RW+"state.rs: Epoch, EpochTally", VV+"execute.rs: end_poll", MS+"contract/execute.rs: submit_signature"])

p("A contract only ever runs with values its message types promise",
  "Whatever text is sent to a contract, by an account or by another contract: it fails, or it is read as a message whose chain names are not empty, in lower case and without the separator, whose ids and addresses are not empty, hashes have 32 bytes, thresholds are fractions above 0 and at most 1, keys have a length that fits their type, epochs last at least one block and numbers fit their sizes. In any history of the composed system run on texts, every call served was such a message, so the validity of calls that other properties ask for always holds. A text is refused if at any depth it has a member that does not belong there, has one twice, or lacks one that is not optional; the tables of signers and the messages of the nexus module are the exceptions. The rewards per epoch are the exception: their type promises a number above zero, but a text can set them to zero.",
  "all texts, all histories of texts sent to the composed system",
  "all byte strings are possible inputs, with blanks, reordered, repeated and unknown fields and escapes",
  [VV+"msg.rs", MS+"msg.rs", RW+"msg.rs", GW+"msg.rs", RT+"msg.rs", PR+"msg.rs", NX+"msg.rs", "contracts/service-registry/src/msg.rs", "packages/axelar-wasm-std/src/nonempty"])
p("What is sent is what is received",
  "Every message of valid values written as text by a contract, a daemon or a command is read by the contract it is sent to as the same message, although sender and receiver use types of different packages (the router's messages are read by gateways, the gateway's by verifiers). The text of every message is fixed letter by letter. Different messages have different texts, and no text means different things to different contracts. The order in which the members of objects are given never matters. Hence any history of texts sent to the composed system has the same states, calls and failures as the history of the messages, and everything proved of histories of messages holds of histories of texts. The vote or signature a daemon's handler decides on is the one the contract runs.",
  "all messages of all contracts, all histories of texts, all events a daemon handles",
  "agreement of separately declared message types over unbounded values, nesting and histories",
  [VV+"msg.rs", MS+"msg.rs", RW+"msg.rs", GW+"msg.rs", RT+"contract/execute.rs: route_messages", NX+"nexus.rs", AM+"handlers"])

p("What a contract stores is what it finds again",
  "The contracts keep their data as JSON texts and read them back at every access. Over any history of calls, each of the eight contracts run on such a store of texts gives the answers and errors of the model with tables; after every history each entry is the text of the value in the table and is read back, by the type its place is read with, as that value, so no access ever fails because of a text that cannot be read. The queries give the model's answers from the texts. The text of every stored value is fixed letter by letter.",
  "all histories of calls with values of their types and names shorter than 65535 bytes, every hash function and signature check",
  "unbounded histories and values; a stored text that could not be read would block every later call",
  [RT+"state.rs", "contracts/service-registry/src/state.rs", MS+"state.rs", MS+"types.rs", GW+"state.rs", NX+"state.rs", RW+"state.rs",
   VV+"state.rs", "packages/axelar-wasm-std/src/voting.rs", PR+"state.rs", PR+"types.rs"])

p("Whoever sees only the events knows what the contracts did",
  "From the texts of the events a contract has emitted, and nothing else, an observer gets its current state: of the router, the gateway of every chain and where each message went, except for messages to unregistered chains, whose recipient no event names; of a gateway, the messages that wait to be delivered, provided its verifier vouches for messages of its own chain only (otherwise incoming and outgoing messages look alike); of the multisig, who may ask for signatures, all keys, what each session signs for which worker set, every signature and the height of completion; of the voting verifier, every poll with exactly its participants and its expiry, who voted and the results once it ended, if blocks come in order; of a prover, the batch of every session. Not told are the frozen directions of a chain and, while a poll is open, what was voted.",
  "all histories of calls of each contract, all texts, every reader of JSON that gives back what was written",
  "a statement about all histories: one missing or wrong event, or one text that can be taken for another, makes relayers and workers lose track for good",
  [RT+"events.rs", GW+"events.rs", MS+"events.rs", VV+"events.rs", PR+"events.rs"])

p("What a contract asks is what is answered",
  "Contracts ask each other in JSON texts and are answered in JSON texts. In every reachable state of the composed system the text of a question to any of the modelled contracts is answered with the text of exactly what that contract's tables say, or not at all if it has no such question or nothing to say, and the asker reads back that value, also for a proof, for which the prover asks the multisig in turn. Whatever text gets an answer, it spells a question with values of its types and gets the answer of that question's own text. Hence a history in which all messages, questions and answers are texts has the same states, calls and failures as the one without texts, and everything proved of the latter holds of the former; of contracts outside the system nothing is assumed, their answers may be any texts. The text of every question and answer is fixed letter by letter. The verifier's question for a poll is never answered.",
  "all histories of texts sent to the composed system, all texts sent as questions, all answers of other contracts, every hash function and signature check",
  "agreement of separately declared query and response types over unbounded values and histories; a stored value that could not be written or read would block every asker",
  [RT+"contract.rs: query", GW+"contract.rs: query", VV+"contract.rs: query", MS+"contract.rs: query", PR+"contract.rs: query", PR+"execute.rs", SR+"contract.rs: query"])

p("The daemon goes on from what its file says, and from nothing else",
  "The worker daemon keeps in a file the last block each handler dealt with and the key it signs with. In whatever order the handlers are written, reading the file gives the state that was written. If writing stops anywhere before the end, what is left is refused at every later start, never taken for another state, and not touched again. However often the daemon is started over one file and however the runs end (by themselves, killed before or while they write, unable to connect), the runs that took place did exactly what they would do one after the other with the heights handed on directly; so the blocks up to the height in the file were dealt with, under the conditions known for the runs themselves, and the key once in the file is the key of every later run and command. A file that cannot be read at all counts as a first start, and blocks are skipped silently.",
  "all states, handler names and orders of writing, all places where writing stops, all sequences of starts",
  "every prefix of every text, and any number of restarts; a crash while writing cannot be provoked at each byte in a test",
  [AM+"state.rs", AM+"commands/daemon.rs", AM+"lib.rs", AM+"commands/mod.rs: worker_pub_key"])

p("An error is told with its causes, in order and with all that was attached",
  "The error a contract's caller is told and the entry ampd logs name every error of a report, the outermost first and each as the cause of the one before, with its message, all attachments in the order they were attached, the place it was raised at and its backtrace; the text is exactly these messages, attachments quoted in brackets, joined by colons. No report stops the program. Two reports that are merged cannot be told from one where the second error caused the first, and the text does not show where one message ends.",
  "all reports, however they were put together, all messages and attachments",
  "all sequences of attaching and re-raising; tests look at single reports",
  ["packages/report/src/loggable.rs", "packages/axelar-wasm-std/src/error.rs", AM+"commands/daemon.rs"])

p("One id stands for one call, for ever",
  "If the workers that watch a source chain are honest enough to decide no poll wrongly, messages of this chain come neither from nexus nor through a gateway that nobody watches, and the chain's past does not change, then whatever two gateways serve under one cross-chain id, at whatever times, is the same call: same destination, same payload hash, same sender. Two commands with the same id in any two proofs of a prover are for the same call, and equal if the sender is spelled the same. The spelling is not fixed: any relayer can have a call approved with the sender's address in another letter case, and since the destination takes a command id once, the spelling approved first is the one that counts (refuted without this condition).",
  "all deployments, all histories and all pairs of moments in them, all message ids",
  "two requests at different times, with everything that can happen in between; tests use one spelling",
  [VV+"execute.rs: verify_messages", GW+"contract/execute.rs", PR+"execute.rs: construct_proof", PR+"encoding/mod.rs: make_command", AM+"evm/verifier.rs", AM+"handlers/evm_verify_msg.rs"])

p("The signature submitted is the one the key daemon made",
  "What the daemon submits for a signing session is, number for number, the signature with which its key daemon answered the request for this session's digest under the key the session lists for this worker, in the 64 bytes that the multisig contract takes for an ECDSA signature. Of all byte strings the key daemon may answer with, exactly the DER encodings of two numbers from 1 to the order of the curve, not included, are taken, and no two of them for the same signature. A failed call, an empty answer, a refusal and an answer that is no signature are told apart; then nothing is submitted. The worker's key is the one on disk, or else the one the key daemon answers with.",
  "all answers of the key daemon (all byte strings), all numbers, all events and keys",
  "leading zeros and sign bytes depend on the values of the numbers; tests use one signature",
  [AM+"tofnd/grpc.rs: keygen, sign", AM+"tofnd/mod.rs", AM+"handlers/multisig.rs: handle, broadcast_signature", MS+"key.rs: Signature"])

p("A worker leaves out no poll that is still open",
  "The height that the worker daemon shows its handlers is its node's last answer. If the node never claims a height the chain has not reached, then a poll that lists the worker and that their handler leaves out as expired is over on the chain as well: the verifier takes no vote in it any more, from anybody, whatever happens. Conversely, in a poll about messages in EVM form that is still open, every participant votes whose node knows what is final. The task that asks for the height ends with an error exactly at the first query that fails, and never panics. The height shown can fall, and a vote that is sent can come too late: with a node that lags behind, a handler votes in a poll that is over.",
  "all sequences of answers of the node, all histories of the verifier, all events and polls",
  "the answers of the node, the growth of the chain and the handlers are interleaved; tests use one height",
  [AM+"block_height_monitor.rs: connect, run, latest_block_height", AM+"handlers/evm_verify_msg.rs: handle", AM+"handlers/sui_verify_msg.rs: handle", VV+"execute.rs: vote"])

p("On a Sui chain, what is reported verified was seen by an honest worker",
  "If, in every poll, the workers that do not run ampd are too few to reach the threshold alone, then every message a voting verifier for a Sui chain reports as verified was shown by the node of some worker running ampd: an event of the configured gateway package, in a checkpointed transaction, at the digest and sequence number of the message id, carrying the message's sender, destination and payload hash. The same holds of a worker set, and the operators data that worker saw is byte for byte what the prover put into the command handing over to that set.",
  "all histories of the verifier, all messages and worker sets, all sets of trusted workers, all nodes",
  "spans contract, event encoding, worker and prover over unbounded histories",
  [VV + "execute.rs", VV + "events.rs", "ampd/src/handlers/sui_verify_msg.rs", "ampd/src/handlers/sui_verify_worker_set.rs", "ampd/src/sui/verifier.rs", PR + "encoding/bcs.rs"])

p("What happened on the source chain gets verified",
  "When a poll is opened for a message of an EVM or Sui chain (well-formed, as are the other messages of the poll; on Sui the nodes also know every transaction of the poll), and workers making up the threshold run ampd, handle the poll's event before it expires, have nodes that answer honestly and show the call at the gateway in a final block, and have what they submit accepted by the verifier before the poll expires, then the message is reported verified from then on, whatever the other workers vote and whatever else is called. The same holds of a worker set, unless it is asked about again.",
  "all histories of the verifier before and after, all other votes, all nodes",
  "liveness across event encoding, worker and contract over unbounded histories with arbitrary other callers",
  [VV + "execute.rs", VV + "events.rs", "ampd/src/handlers/evm_verify_msg.rs", "ampd/src/handlers/evm_verify_worker_set.rs", "ampd/src/evm/verifier.rs", "ampd/src/handlers/sui_verify_msg.rs", "ampd/src/handlers/sui_verify_worker_set.rs", "ampd/src/sui/verifier.rs"])

p("A vote that a worker sends in time counts",
  "Votes a worker sends in one transaction are accepted exactly if no poll is voted on twice and each would be accepted alone, and then count as if sent one by one. When the worker's queue broadcasts, either all waiting votes count and the queue goes on, or none does and the queue stops. Over any run of the queue every vote whose transaction was confirmed counts, and every vote handed over if the queue ends without error. (That each vote sent before its own poll expires counts is refuted: one poll that expired while its vote waited takes all other waiting votes with it and stops the worker's queue. So does a vote that reaches the queue after its poll expired or after the worker's earlier vote on that poll was taken.)",
  "all states of the verifier, all batches, all calls by others and all heights between requests",
  "depends on when polls expire relative to the broadcast interval, across queue, transaction and contract",
  ["ampd/src/queue/queued_broadcaster.rs", "ampd/src/broadcaster.rs", VV + "execute.rs"])

out = os.path.join(os.path.dirname(os.path.abspath(__file__)), "..", "properties.jsonl")
with open(out, "w") as f:
    for x in P: f.write(json.dumps(x) + "\n")
print(len(P))
