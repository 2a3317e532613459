{"id": "C01", "title": "Thresholds are exact fractions in (0,1] and majority thresholds exceed one half", "statement": "A Threshold can be built from (numerator, denominator) exactly when 0 < numerator <= denominator; comparing two thresholds gives the order of the exact rational numbers, with no rounding or overflow; every threshold accepted as a MajorityThreshold is strictly greater than 1/2, and every threshold strictly greater than 1/2 is accepted.", "quantifier": "all pairs of u64 numerators and denominators, all pairs of thresholds", "why_tests_cant": "the boundary num = den/2 behaves differently for odd and even denominators and cross multiplication exceeds 64 bits; tests sample a few fractions", "anchors": ["packages/axelar-wasm-std/src/threshold.rs: Threshold, MajorityThreshold, TryFrom, PartialOrd"]}
{"id": "C02", "title": "Snapshot quorum is the exact ceiling of the threshold share of the total weight", "statement": "A snapshot of a non-empty participant list has total weight equal to the sum of the listed weights and quorum equal to the least integer q with q*den >= total*num; hence 1 <= quorum <= total, and with a majority threshold two disjoint groups cannot both reach the quorum.", "quantifier": "all participant lists with non-zero weights, all thresholds, up to 256-bit overflow (which aborts)", "why_tests_cant": "rounding direction and overflow only matter at sizes tests do not enumerate", "anchors": ["packages/axelar-wasm-std/src/snapshot.rs: Snapshot::new", "packages/axelar-wasm-std/src/threshold.rs: MajorityThreshold"]}
{"id": "C03", "title": "Poll tallies equal the weight of the recorded voters", "statement": "After any history of cast_vote and finish calls on a weighted poll, for every message index and every vote option the tally equals the sum of the snapshot weights of exactly those participants whose single accepted ballot chose that option; only snapshot participants are counted and nobody is counted twice.", "quantifier": "all histories of vote and finish calls by arbitrary senders at arbitrary block heights", "why_tests_cant": "it is an invariant over unbounded histories", "anchors": ["packages/axelar-wasm-std/src/voting.rs: WeightedPoll::cast_vote, Tallies"]}
{"id": "C04", "title": "A poll never reports two conflicting outcomes and never takes back a reported one", "statement": "With a majority threshold, at most one vote option per message can reach the quorum, so the reported consensus does not depend on the order in which options are examined; once a message has consensus on an option, it has the same consensus after any further votes and after the poll ends.", "quantifier": "all polls whose quorum comes from a majority-threshold snapshot and all vote histories", "why_tests_cant": "conflict would need adversarial weight distributions and orders of votes", "anchors": ["packages/axelar-wasm-std/src/voting.rs: WeightedPoll::consensus, Tallies::consensus", "packages/axelar-wasm-std/src/snapshot.rs"]}
{"id": "C05", "title": "Ballots are accepted exactly in the voting window, finishing only after it", "statement": "cast_vote succeeds if and only if the sender is a participant of the snapshot, the block height is below the expiry, the ballot has one vote per message and the sender has not voted before; finish succeeds if and only if the poll is unfinished and the height is at or past the expiry; a rejected call changes nothing; therefore no vote is ever accepted after a poll has been finished when heights do not decrease.", "quantifier": "all poll states, senders, ballots and block heights", "why_tests_cant": "off-by-one at expiry and partial updates on the error path need every boundary", "anchors": ["packages/axelar-wasm-std/src/voting.rs: WeightedPoll::cast_vote, WeightedPoll::finish"]}
{"id": "C06", "title": "Consensus participants are exactly the voters that agreed with every reached consensus", "statement": "The participants returned for a poll are exactly those who voted and whose ballot agrees with the consensus for every message that reached one; messages without consensus exclude nobody; non-voters are never included and each name appears once.", "quantifier": "all reachable poll states", "why_tests_cant": "the set depends on every combination of per-message outcomes", "anchors": ["packages/axelar-wasm-std/src/voting.rs: WeightedPoll::state"]}
{"id": "C07", "title": "A verified message stays verified", "statement": "Once the voting verifier answers Verified for a message it answers Verified for that message after every later sequence of calls (verify requests, votes, poll endings, worker set polls) by anyone at non-decreasing heights.", "quantifier": "all contract histories from instantiation, all callers, all service-registry answers, all non-decreasing block heights", "why_tests_cant": "requires an invariant linking stored polls and message records over all histories", "anchors": ["contracts/voting-verifier/src/execute.rs: verify_messages, vote, end_poll", "contracts/voting-verifier/src/query.rs: verification_status"]}
{"id": "C08", "title": "Verified means a quorum of the polled workers vouched for exactly that message", "statement": "If the voting verifier answers Verified for a message then it opened a poll containing exactly that message, and participants of that poll's snapshot holding at least the quorum weight voted SucceededOnChain for it before the poll expired.", "quantifier": "all contract histories from instantiation", "why_tests_cant": "the link between a message, its poll slot and its votes must hold on every path, including re-polls and batches", "anchors": ["contracts/voting-verifier/src/execute.rs: verify_messages, vote", "contracts/voting-verifier/src/query.rs: verification_status"]}
{"id": "C09", "title": "Verification requests are idempotent for settled or pending messages", "statement": "Calling verify_messages with messages that are all already verified or in progress changes no state and opens no poll; otherwise it opens exactly one poll, holding exactly the requested messages that were neither verified nor in progress, in request order; a failed or unknown message can be polled again.", "quantifier": "all reachable states and request batches", "why_tests_cant": "batches mix statuses in arbitrary ways", "anchors": ["contracts/voting-verifier/src/execute.rs: verify_messages"]}
{"id": "C10", "title": "Poll identifiers are unique and polls are immutable except for votes and ending", "statement": "Every poll opened by the voting verifier gets an id strictly greater than all earlier ids; once opened, its expiry, snapshot, quorum and messages never change; vote and end_poll on one poll never affect another poll.", "quantifier": "all contract histories", "why_tests_cant": "overwriting would need a particular interleaving of message and worker-set polls", "anchors": ["contracts/voting-verifier/src/execute.rs: create_messages_poll, create_worker_set_poll", "packages/axelar-wasm-std/src/counter.rs"]}
{"id": "C11", "title": "Ending a poll reports each consensus voter to the rewards contract once", "statement": "end_poll emits exactly one participation record per consensus participant, all with the poll id as event id; over any history a poll is ended at most once, so no (poll, worker) pair is ever reported twice.", "quantifier": "all contract histories", "why_tests_cant": "double reporting depends on history, not on one call", "anchors": ["contracts/voting-verifier/src/execute.rs: end_poll", "packages/axelar-wasm-std/src/voting.rs: WeightedPoll::finish"]}
{"id": "C12", "title": "Message digests used as storage keys separate distinct messages", "statement": "Two different messages accepted by the verifier are recorded under different keys, so that the status of one message can never be confused with, or blocked by, another.", "quantifier": "all pairs of messages", "why_tests_cant": "needs a universally quantified injectivity statement about the key derivation", "anchors": ["contracts/connection-router/src/state.rs: Message::hash", "contracts/voting-verifier/src/query.rs: verification_status", "contracts/voting-verifier/src/state.rs: POLL_MESSAGES"]}
{"id": "C13", "title": "A worker-set verification in progress keeps its votes", "statement": "While a worker-set poll is in progress, another verify_worker_set request for the same operators does not discard the votes already collected; once verified a worker set stays verified.", "quantifier": "all contract histories", "why_tests_cant": "needs adversarial interleavings of requests and votes", "anchors": ["contracts/voting-verifier/src/execute.rs: verify_worker_set, create_worker_set_poll", "contracts/voting-verifier/src/query.rs: worker_set_status"]}
{"id": "C14", "title": "Epochs advance contiguously with block height", "statement": "With constant parameters the epoch number at height h is start_epoch + (h - start_height)/duration, the epoch contains h, and the epoch number never decreases with height; an update of the parameters keeps the epoch number monotone, moving to a fresh epoch starting now only if the new duration already elapsed.", "quantifier": "all stored parameters, all non-decreasing heights, all parameter updates", "why_tests_cant": "boundary heights and parameter changes interact over unbounded histories", "anchors": ["contracts/rewards/src/contract/execute.rs: current_epoch, update_params"]}
{"id": "C15", "title": "An event belongs to one epoch and is counted once", "statement": "Recording participation for an event for the first time increments the event count of exactly the current epoch of exactly that contract's pool; recording it again by other workers, even in later epochs, increments no event count and credits the worker to the epoch in which the event was first seen.", "quantifier": "all histories of participation records", "why_tests_cant": "events straddle epoch boundaries in many ways", "anchors": ["contracts/rewards/src/contract/execute.rs: record_participation, load_or_store_event"]}
{"id": "C16", "title": "Recording the same participation twice has no effect", "statement": "Recording the same worker for the same event of the same contract again leaves the worker's entitlement unchanged.", "quantifier": "all reachable tallies, events and workers", "why_tests_cant": "idempotence is a universally quantified two-call property", "anchors": ["contracts/rewards/src/contract/execute.rs: record_participation", "contracts/rewards/src/state.rs: EpochTally::record_participation"]}
{"id": "C17", "title": "Each epoch pays a qualifying worker an equal share of at most the epoch's reward", "statement": "For an epoch tally, the workers paid are exactly those whose participation divided by the event count reaches the threshold fixed when the epoch's first event was recorded; all get the same integer share floor(reward/number of qualifying workers), so the total paid for the epoch never exceeds the epoch reward.", "quantifier": "all epoch tallies", "why_tests_cant": "integer division and thresholds over arbitrary tallies", "anchors": ["contracts/rewards/src/state.rs: EpochTally::rewards_by_worker"]}
{"id": "C18", "title": "Rewards for an epoch are paid at most once and only after the payout delay", "statement": "Over any history, the epochs processed by successive successful DistributeRewards calls for one pool are disjoint increasing intervals that together form a contiguous prefix 0..watermark, and an epoch is processed only when the current epoch is at least two later.", "quantifier": "all histories of calls for any number of pools, all heights", "why_tests_cant": "double payment depends on the sequence of watermarks", "anchors": ["contracts/rewards/src/contract/execute.rs: distribute_rewards, process_rewards_for_epochs"]}
{"id": "C19", "title": "Pools conserve money", "statement": "For every pool and every history, the sum of deposits equals the current balance plus the sum of all payouts; a distribution the balance cannot cover fails and leaves balance and watermark unchanged; payouts of one pool never touch another pool.", "quantifier": "all histories of deposits and distributions", "why_tests_cant": "conservation is an unbounded-history invariant", "anchors": ["contracts/rewards/src/contract/execute.rs: add_rewards, distribute_rewards", "contracts/rewards/src/state.rs: RewardsPool::sub_reward", "contracts/rewards/src/contract.rs"]}
{"id": "C20", "title": "The caller's epoch limit bounds the work of one distribution", "statement": "DistributeRewards with epoch_count = n processes at most n epochs and never aborts for large n.", "quantifier": "all values of epoch_count, watermarks and current epochs", "why_tests_cant": "extreme arguments are not sampled by tests", "anchors": ["contracts/rewards/src/contract/execute.rs: distribute_rewards"]}
{"id": "C21", "title": "Reward parameters of an epoch are fixed by its first event", "statement": "A parameter update never changes the reward, threshold or event data of an epoch whose first event was already recorded; only governance can update parameters.", "quantifier": "all histories with parameter updates between events", "why_tests_cant": "needs interleavings of updates, events and distributions", "anchors": ["contracts/rewards/src/contract/execute.rs: update_params, record_participation", "contracts/rewards/src/contract.rs"]}
{"id": "C22", "title": "A signing session completes exactly when signatures reach the threshold weight", "statement": "In every reachable state, a session is Completed if and only if the total weight of the distinct signers of its worker set that have submitted a signature is at least the worker set's threshold; before that it is Pending.", "quantifier": "all histories of registrations, sessions and signatures", "why_tests_cant": "relates stored signatures and session state over every history", "anchors": ["contracts/multisig/src/contract.rs: submit_signature", "contracts/multisig/src/signing.rs: SigningSession::recalculate_session_state"]}
{"id": "C23", "title": "Completion happens once and its height never changes", "statement": "Once a session is Completed at height h it stays Completed at h forever, and the completion event is emitted by exactly one submission: the one that first reached the threshold.", "quantifier": "all histories", "why_tests_cant": "later signatures within the grace period re-run the completion logic", "anchors": ["contracts/multisig/src/signing.rs: recalculate_session_state", "contracts/multisig/src/contract.rs: signing_response"]}
{"id": "C24", "title": "Only valid signatures of session signers are stored, at most one each", "statement": "Every stored signature was submitted by a signer listed in the session's worker set, verifies for the session's message under the key recorded in that worker set, and is never replaced; a second submission by the same signer is rejected.", "quantifier": "all histories, all submitted byte strings", "why_tests_cant": "the stored set must satisfy it after any sequence of submissions", "anchors": ["contracts/multisig/src/contract.rs: submit_signature", "contracts/multisig/src/state.rs: save_signature", "contracts/multisig/src/signing.rs: validate_session_signature"]}
{"id": "C25", "title": "Late signatures are accepted exactly up to the end of the grace period", "statement": "A submission at height h to a session completed at c is rejected as closed if and only if h > c + grace period; a pending session never closes.", "quantifier": "all sessions, heights and grace periods", "why_tests_cant": "off-by-one and overflow at the boundary", "anchors": ["contracts/multisig/src/signing.rs: validate_session_signature"]}
{"id": "C26", "title": "Only authorized callers start sessions; ids are unique and sessions immutable", "statement": "start_signing_session succeeds only for a caller currently authorized by governance and a registered worker set; every session gets a fresh id greater than all earlier ones; the message, key set and chain of a session never change; authorizations change only by governance.", "quantifier": "all histories of calls by arbitrary senders", "why_tests_cant": "authorization depends on the whole history of authorize and unauthorize calls", "anchors": ["contracts/multisig/src/contract.rs: execute, start_signing_session, authorize_caller, unauthorize_caller"]}
{"id": "C27", "title": "Registered keys belong to their sender", "statement": "The public key returned for (worker, key type) is the last key of that type that this very worker registered; nobody else can change it; keys and signatures of the wrong length or type are rejected.", "quantifier": "all histories of registrations, all byte strings", "why_tests_cant": "needs all histories and all lengths", "anchors": ["contracts/multisig/src/contract.rs: register_pub_key", "contracts/multisig/src/key.rs"]}
{"id": "C28", "title": "Chains and gateways are in one-to-one correspondence", "statement": "In every reachable router state no two chains share a gateway address and no chain is registered twice, so looking up a chain by gateway never meets an ambiguous index.", "quantifier": "all histories of registrations, upgrades, freezes", "why_tests_cant": "uniqueness is an invariant over every history", "anchors": ["contracts/connection-router/src/contract/execute.rs: register_chain, upgrade_gateway", "contracts/connection-router/src/state.rs: load_chain_by_gateway"]}
{"id": "C29", "title": "Freezing blocks exactly the frozen direction and unfreezing restores it", "statement": "After any sequence of freeze and unfreeze calls for a chain, a direction is frozen if and only if the last call mentioning that direction was a freeze; calls for one chain never affect another; gateway upgrades keep the frozen state.", "quantifier": "all histories of freeze, unfreeze, register and upgrade calls, all direction masks", "why_tests_cant": "bit-mask algebra over unbounded histories", "anchors": ["contracts/connection-router/src/contract/execute.rs: freeze_chain, unfreeze_chain", "packages/axelar-wasm-std/src/flagset.rs", "contracts/connection-router/src/state.rs: GatewayDirection"]}
{"id": "C30", "title": "Routing delivers every message unchanged and in order to its destination gateway, or fails as a whole", "statement": "A successful route_messages emits messages whose concatenation per destination gateway is exactly the input restricted to that destination, in order, unchanged, each sent to the gateway registered for the destination chain (or to the nexus gateway when the destination is not registered and the sender is not nexus); otherwise the whole call fails and nothing is sent.", "quantifier": "all router states and message batches", "why_tests_cant": "grouping of interleaved destinations needs induction over arbitrary batches", "anchors": ["contracts/connection-router/src/contract/execute.rs: route_messages, validate_msgs"]}
{"id": "C31", "title": "Only a registered, unfrozen gateway can inject messages, and only for its own chain", "statement": "If route_messages succeeds then the sender is the nexus gateway or the gateway currently registered for some chain that is not frozen for incoming traffic and every message names that chain as its source; destinations frozen for outgoing traffic always make the call fail.", "quantifier": "all router states, senders and batches", "why_tests_cant": "authorization must hold for every combination of frozen flags and batches", "anchors": ["contracts/connection-router/src/contract/execute.rs: validate_msgs, route_messages"]}
{"id": "C32", "title": "Router administration is restricted to its roles", "statement": "Only governance changes the set of chains and their gateways, only the admin changes frozen states, and any rejected call leaves the state unchanged.", "quantifier": "all histories and senders", "why_tests_cant": "must hold for every entry point and sender", "anchors": ["contracts/connection-router/src/contract.rs: execute", "contracts/connection-router/src/contract/execute.rs: require_admin, require_governance"]}
{"id": "C33", "title": "Freeze and unfreeze announce what happened", "statement": "The event emitted by unfreezing a chain differs from the one emitted by freezing it, so observers can reconstruct the frozen state from events.", "quantifier": "all router states and directions", "why_tests_cant": "reconstructibility quantifies over histories of events", "anchors": ["contracts/connection-router/src/contract/execute.rs: freeze_chain, unfreeze_chain", "contracts/connection-router/src/events.rs"]}
{"id": "C34", "title": "Cross-chain identifiers and chain names round-trip through text", "statement": "Parsing the printed form of a cross-chain id gives back the same id; two ids with the same printed form are equal; chain names are case-normalised, never empty and never contain the separator, and parsing a printed name is the identity.", "quantifier": "all strings", "why_tests_cant": "separator handling over arbitrary strings", "anchors": ["contracts/connection-router/src/state.rs: CrossChainId, ChainName"]}
{"id": "C35", "title": "The gateway forwards to the router only messages its verifier reports verified", "statement": "Whenever the gateway routes messages for a caller other than the router, the messages it sends to the router are exactly those of the request that the verifier reports as verified, in order and unchanged; the rest is not forwarded; requests with a repeated message id are rejected.", "quantifier": "all requests and all verifier answers", "why_tests_cant": "answers and requests combine arbitrarily", "anchors": ["contracts/gateway/src/contract/execute.rs: route_messages, partition_by_verified, ensure_unique_ids"]}
{"id": "C36", "title": "The gateway asks its verifier only about unverified messages", "statement": "verify_messages sends to the verifier exactly the messages of the request not yet verified, in order, and sends nothing if there are none.", "quantifier": "all requests and verifier answers", "why_tests_cant": "arbitrary mixtures of statuses", "anchors": ["contracts/gateway/src/contract/execute.rs: verify_messages"]}
{"id": "C37", "title": "Outgoing messages at a gateway come only from the router and can be read back by id", "statement": "Only the router can add messages to the outgoing store; after any history reading the ids of stored messages returns, in the requested order, the last message the router stored under each id; a missing id is an error.", "quantifier": "all histories of routing calls and reads", "why_tests_cant": "read-after-write over histories", "anchors": ["contracts/gateway/src/contract/execute.rs: route_messages", "contracts/gateway/src/contract/query.rs: get_messages"]}
{"id": "C38", "title": "A message reaches nexus at most once", "statement": "Over any history of calls, the messages handed to the nexus module never contain the same cross-chain id twice.", "quantifier": "all histories and batches, including batches with repeated ids", "why_tests_cant": "duplicates may occur within one batch or across batches", "anchors": ["contracts/nexus-gateway/src/contract/execute.rs: route_to_nexus", "contracts/nexus-gateway/src/state.rs"]}
{"id": "C39", "title": "Nexus messages keep their identity across the bridge", "statement": "Converting a nexus message to a router message and back gives the original message; different router messages get different nexus transaction ids and indices.", "quantifier": "all messages", "why_tests_cant": "injectivity of the id conversion over all strings", "anchors": ["contracts/nexus-gateway/src/nexus.rs: parse_message_id, TryFrom"]}
{"id": "C40", "title": "Only nexus and the router can use the nexus gateway", "statement": "Messages are passed to the router only when the caller is the nexus module and to nexus only when the caller is the router; content and order are preserved; an empty batch sends nothing.", "quantifier": "all callers and batches", "why_tests_cant": "must hold for every caller", "anchors": ["contracts/nexus-gateway/src/contract/execute.rs: route_to_router, route_to_nexus", "contracts/nexus-gateway/src/contract.rs"]}
{"id": "C41", "title": "Bonded stake is conserved", "statement": "For every worker and history the amount the contract owes (bonded or unbonding) equals the funds bonded in the service denomination minus the claimed amounts; claiming pays exactly the owed amount once and then nothing.", "quantifier": "all histories of bond, unbond, claim calls", "why_tests_cant": "conservation over unbounded histories", "anchors": ["contracts/service-registry/src/contract.rs: bond_worker, unbond_worker, claim_stake", "contracts/service-registry/src/state.rs: BondingState"]}
{"id": "C42", "title": "Stake is claimable only after the unbonding period", "statement": "claim_stake succeeds if and only if the worker is unbonding and at least the unbonding period has passed since the unbond call; bonded stake cannot be claimed; bonding again while unbonding returns the whole amount to the bonded state.", "quantifier": "all states and block times", "why_tests_cant": "time boundary and state transitions", "anchors": ["contracts/service-registry/src/state.rs: BondingState::claim_stake, BondingState::unbond"]}
{"id": "C43", "title": "Active workers are exactly the authorized, sufficiently bonded workers that declared the chain", "statement": "GetActiveWorkers(service, chain) returns exactly the workers of the service that declared support for the chain, are authorized by governance and hold a bond of at least the service minimum; each worker once.", "quantifier": "all registry histories", "why_tests_cant": "the answer depends on the joint history of three kinds of calls", "anchors": ["contracts/service-registry/src/contract/query.rs: get_active_workers"]}
{"id": "C44", "title": "Service registry roles", "statement": "Only governance registers services and changes authorizations; a worker's bond and chain declarations change only through the worker's own calls; a service's parameters never change once registered.", "quantifier": "all histories and senders", "why_tests_cant": "must hold for all callers and histories", "anchors": ["contracts/service-registry/src/contract.rs: execute"]}
{"id": "C45", "title": "Looking up a worker returns that worker", "statement": "GetWorker(service, worker) returns the stored record of that worker for that service.", "quantifier": "all registry states, service names and addresses", "why_tests_cant": "argument order is only visible when the two names differ and both exist", "anchors": ["contracts/service-registry/src/contract.rs: query", "contracts/service-registry/src/contract/query.rs: get_worker"]}
{"id": "C46", "title": "The prover's active worker set changes only when the verifier confirmed the next one", "statement": "After the first worker set, the stored current worker set is replaced only by ConfirmWorkerSet, only by the pending next worker set, and only if the voting verifier reports that set's operators as verified; the pending set is then cleared.", "quantifier": "all prover histories and verifier answers", "why_tests_cant": "interleavings of updates and confirmations", "anchors": ["contracts/multisig-prover/src/execute.rs: confirm_worker_set, update_worker_set, construct_proof"]}
{"id": "C47", "title": "A worker-set update is proposed exactly when membership changed enough", "statement": "A new worker set is proposed if and only if the number of worker entries (address, weight and key) that are in exactly one of the two sets exceeds the configured difference threshold; while a different set awaits confirmation, no other set is proposed.", "quantifier": "all pairs of worker sets, all thresholds", "why_tests_cant": "symmetric-difference counting over arbitrary sets", "anchors": ["contracts/multisig-prover/src/execute.rs: should_update_worker_set, different_set_in_progress, get_next_worker_set"]}
{"id": "C48", "title": "The proof contains enough signing weight and no superfluous signature", "statement": "For a completed session, the signers selected for the proof carry at least the quorum, are selected by non-increasing weight, no selected signer could be dropped from the end without losing the quorum, and every signature in the proof was submitted to the session.", "quantifier": "all signer lists with signatures and quorums", "why_tests_cant": "minimality over arbitrary weights", "anchors": ["contracts/multisig-prover/src/query.rs: get_proof, optimize_signers"]}
{"id": "C49", "title": "Batch ids identify the set of messages independently of request order", "statement": "Two ConstructProof requests naming the same messages in different order get the same batch id; requests naming different sets of messages get different batch ids (up to hash collisions).", "quantifier": "all lists of message ids", "why_tests_cant": "needs permutation invariance and injectivity over all id strings", "anchors": ["contracts/multisig-prover/src/types.rs: BatchId::new"]}
{"id": "C50", "title": "BCS encoding of batches, proofs and parameters is unambiguous", "statement": "Decoding the BCS encoding of command data, command parameters, operator sets and proofs returns the encoded values; hence two different batches never produce the same bytes to sign.", "quantifier": "all values within the type bounds", "why_tests_cant": "round-trip over all lengths, including multi-byte length prefixes", "anchors": ["contracts/multisig-prover/src/encoding/bcs.rs: encode, command_params, transfer_operatorship_params, encode_proof, msg_digest"]}
{"id": "C51", "title": "ABI encoding of batches, proofs and parameters is unambiguous", "statement": "Decoding the ABI encoding of command data, command parameters, operator sets and proofs returns the encoded values; hence two different batches never produce the same bytes to sign.", "quantifier": "all values within the type bounds", "why_tests_cant": "offsets and padding over all lengths", "anchors": ["contracts/multisig-prover/src/encoding/abi.rs: encode, command_params, transfer_operatorship_params, encode_proof, msg_digest"]}
{"id": "C52", "title": "Proof operators are strictly ordered and match the worker set", "statement": "The operators encoded in a proof and in an operatorship transfer are sorted by address, are a permutation of the worker set's members with their weights, and their digest does not depend on the order in which members are listed.", "quantifier": "all worker sets", "why_tests_cant": "sorting and permutation over arbitrary sets", "anchors": ["contracts/multisig-prover/src/encoding/abi.rs: make_operators", "contracts/multisig-prover/src/encoding/bcs.rs: make_operators", "packages/axelar-wasm-std/src/operators.rs"]}
{"id": "C53", "title": "Batched optional calls cannot abort the batch", "statement": "In the batching contract, failure of a call marked as allowed to fail never aborts the transaction and is reported with the index of that very call, while failure of a mandatory call aborts everything; calls are dispatched in order.", "quantifier": "all batches and all outcomes of the calls", "why_tests_cant": "combinations of outcomes", "anchors": ["contracts/batching/src/contract.rs: execute, reply"]}
{"id": "C54", "title": "The aggregate verifier relays its voting verifier faithfully", "statement": "The aggregate verifier's answers to verify and status requests are the answers of the configured voting verifier for the same messages.", "quantifier": "all requests and verifier answers", "why_tests_cant": "quantifies over every answer of the downstream contract, and the repository only tests it against a mock with a different reply shape", "anchors": ["contracts/aggregate-verifier/src/contract.rs: execute, reply, query"]}
{"id": "C55", "title": "The broadcast queue neither loses, duplicates nor reorders messages", "statement": "For every interleaving of incoming messages, timer ticks and forced broadcasts, the concatenation of all broadcast batches followed by the queued messages is exactly the sequence of received messages; when the input closes, everything is broadcast; if a broadcast fails, the lost messages are exactly the failed batch and the task stops.", "quantifier": "all interleavings, all gas estimates, all failure points", "why_tests_cant": "schedules and failure points are unbounded", "anchors": ["ampd/src/queue/queued_broadcaster.rs: QueuedBroadcaster::run, broadcast_all", "ampd/src/queue/msg_queue.rs"]}
{"id": "C56", "title": "Broadcast batches respect the gas limit", "statement": "Every batch with more than one message has estimated gas below the batch gas limit, and no empty batch is broadcast.", "quantifier": "all interleavings and gas estimates", "why_tests_cant": "depends on the order of estimates", "anchors": ["ampd/src/queue/queued_broadcaster.rs: run", "ampd/src/queue/msg_queue.rs"]}
{"id": "C57", "title": "The account sequence advances once per confirmed transaction", "statement": "The broadcaster uses consecutive account sequence numbers: the number is incremented exactly when a transaction was confirmed with code 0, and confirmation makes at most max_retries+1 queries, stopping at the first definitive answer.", "quantifier": "all sequences of node responses", "why_tests_cant": "unbounded response sequences", "anchors": ["ampd/src/broadcaster.rs: broadcast, confirm_tx, evaluate_response"]}
{"id": "C58", "title": "A worker votes SucceededOnChain only for finalized matching gateway events", "statement": "The EVM verifier votes SucceededOnChain for a message if and only if the receipt of its transaction is in a block at or below the finalized height, and the log at the message's index was emitted by the configured gateway and carries exactly the message's fields; it casts exactly one vote per message of the poll, in order.", "quantifier": "all receipts, logs, messages and heights", "why_tests_cant": "adversarial receipts and duplicate log indices", "anchors": ["ampd/src/evm/verifier.rs: verify_message, get_event", "ampd/src/handlers/evm_verify_msg.rs: handle, finalized_tx_receipts", "ampd/src/evm/finalizer.rs"]}
{"id": "C59", "title": "Event handlers see every block's events in order, and a restart skips no block", "statement": "The event subscription publishes every block from its starting height exactly once, in height order, each framed by begin and end markers; a handler's recorded height never exceeds a block it has completely handled, so after a crash and restart from the recorded heights each handler is given every block it had not completed.", "quantifier": "all sequences of latest-block answers, all crash points, all handler progress", "why_tests_cant": "crash points and interleavings are unbounded", "anchors": ["ampd/src/event_sub.rs: run, process_blocks_from, skip_to_block", "ampd/src/event_processor.rs: consume_events", "ampd/src/handlers/end_block.rs", "ampd/src/state.rs", "ampd/src/lib.rs: App::new, configure_handler"]}
{"id": "C60", "title": "A worker votes only in polls addressed to it and still open", "statement": "The vote and signing handlers submit something only for events of the configured contract and chain that list this worker as participant and, for polls, only while the latest known height is below the expiry; other events produce no transaction. Conversely, for a well-formed event that does meet these conditions the worker does submit: one vote per item of the poll once the chain's node answers, or one signature with its listed key once the key daemon signs.", "quantifier": "all events and configurations", "why_tests_cant": "all combinations of mismatching fields", "anchors": ["ampd/src/handlers/evm_verify_msg.rs", "ampd/src/handlers/sui_verify_msg.rs", "ampd/src/handlers/multisig.rs"]}
{"id": "C61", "title": "End to end: a message offered to the destination prover was verified at its source", "statement": "In the composed system of router, gateways and voting verifiers, every message stored as outgoing at a destination gateway, other than those injected by nexus, was reported verified by the verifier of the gateway registered for its source chain at the time it was routed, with identical content.", "quantifier": "all histories of the composed system, all callers", "why_tests_cant": "spans several contracts and unbounded histories", "anchors": ["contracts/gateway/src/contract/execute.rs", "contracts/connection-router/src/contract/execute.rs", "contracts/voting-verifier/src/execute.rs"]}
{"id": "C62", "title": "End to end: a completed proof is backed by threshold weight of valid signatures over that batch", "statement": "In the composition of prover and multisig, a proof reported as completed consists of signatures over the digest of exactly the stored batch, made by members of the worker set the session was started with, whose weights reach that set's threshold.", "quantifier": "all histories of the composed system", "why_tests_cant": "spans two contracts, replies and unbounded histories", "anchors": ["contracts/multisig-prover/src/query.rs: get_proof", "contracts/multisig-prover/src/reply.rs", "contracts/multisig/src/contract.rs"]}
{"id": "C63", "title": "One source-chain event is verifiable under one cross-chain id only", "statement": "Two messages of the same chain that the voting verifier asks its workers to confirm against the same transaction id and event index (with equal remaining fields) have the same cross-chain id.", "quantifier": "all pairs of well-formed messages", "why_tests_cant": "the set of textual encodings of an index is unbounded", "anchors": ["contracts/voting-verifier/src/events.rs: parse_message_id, TryFrom<Message> for TxEventConfirmation", "contracts/connection-router/src/state.rs: CrossChainId"]}
{"id": "C64", "title": "A message reported verified was seen on the source chain by an honest worker", "statement": "If, in every poll, the workers that do not run ampd are too few to reach the threshold alone, then every message an EVM voting verifier reports as verified was shown by the node of some worker running ampd: a log of the configured gateway, at the transaction and index of the message id, in a final block, carrying the message's sender, destination and payload hash.", "quantifier": "all histories of the verifier, all messages, all sets of trusted workers, all nodes", "why_tests_cant": "spans contract, event encoding and worker over unbounded histories", "anchors": ["contracts/voting-verifier/src/execute.rs", "contracts/voting-verifier/src/events.rs", "ampd/src/handlers/evm_verify_msg.rs", "ampd/src/evm/verifier.rs"]}
{"id": "C65", "title": "A worker set reported verified was seen on the source chain by an honest worker", "statement": "Under the same condition, a worker set an EVM voting verifier reports as verified was shown by the node of a worker running ampd as a handover of operatorship at the configured gateway to exactly these operators, weights and threshold.", "quantifier": "all histories of the verifier, all operators, all sets of trusted workers, all nodes", "why_tests_cant": "spans contract, event encoding, ABI and worker over unbounded histories", "anchors": ["contracts/voting-verifier/src/execute.rs: verify_worker_set", "ampd/src/handlers/evm_verify_worker_set.rs", "ampd/src/evm/verifier.rs"]}
{"id": "C66", "title": "The handover the prover signs is the one the workers look for", "statement": "The parameters of the transfer-operatorship command the prover builds for a worker set are byte for byte the operators data which workers compare with the gateway's event when that set is put to a poll.", "quantifier": "all worker sets with valid keys", "why_tests_cant": "two independent encoders in different crates must agree on all inputs", "anchors": ["contracts/multisig-prover/src/encoding/abi.rs: transfer_operatorship_params, make_operators", "ampd/src/evm/verifier.rs"]}
{"id": "C67", "title": "No event can stop a worker's handler", "statement": "Whatever events contracts emit, in particular as a result of calls anyone may make, a worker's handler for a chain either ignores the event or acts on it; it does not end with an error.", "quantifier": "all events emitted by the verifiers and multisig, all handlers", "why_tests_cant": "the space of attribute texts is unbounded and involves two encoders", "anchors": ["ampd/src/handlers/evm_verify_msg.rs: handle", "ampd/src/handlers/sui_verify_msg.rs: handle", "ampd/src/handlers/multisig.rs: handle", "ampd/src/event_processor.rs: consume_events", "packages/events/src/event.rs"]}
{"id": "C68", "title": "A handler with a recorded height is given every later block, across any number of restarts", "statement": "If a handler's name is configured once and it does not lag behind the publisher before it reaches the block after its recorded height, then in every run it starts with exactly that block; and over any sequence of runs, ends and crashes, every block above the first recorded height and up to the last one was handed to it completely, with the events the node gave, and handled without error in one of the runs. Blocks are published whole and without gaps; once and in order if the node's latest height never goes back.", "quantifier": "all runs, crash points, node answers, handlers and cancellations", "why_tests_cant": "crash points and interleavings are unbounded", "anchors": ["ampd/src/event_sub.rs: run, process_blocks_from, skip_to_block", "ampd/src/event_processor.rs: consume_events", "ampd/src/handlers/end_block.rs", "ampd/src/state.rs", "ampd/src/lib.rs: configure_handler"]}
{"id": "C69", "title": "Messages between EVM chains never block each other", "statement": "If all messages a voting verifier was ever asked for are between EVM chains (transaction hash and decimal index as id, 42-character addresses) and the hash does not collide on them, then every such message has a status, and further requests for such messages are accepted.", "quantifier": "all histories of such requests, votes and endings", "why_tests_cant": "the keys of all pairs of messages must differ", "anchors": ["contracts/voting-verifier/src/state.rs", "contracts/voting-verifier/src/query.rs: verification_status", "contracts/connection-router/src/state.rs: Message::hash"]}
{"id": "C70", "title": "A verified worker set stays verified and was vouched for", "statement": "Once the voting verifier reports a worker set as verified it does so forever, and it does so only if enough of the workers named by the registry when a poll about exactly that set was opened voted for it before the poll expired.", "quantifier": "all histories and callers", "why_tests_cant": "unbounded histories", "anchors": ["contracts/voting-verifier/src/execute.rs: verify_worker_set", "contracts/voting-verifier/src/query.rs: worker_set_verification_status"]}
{"id": "C71", "title": "Participation is counted once per event that is reported once", "statement": "If no participation is reported twice, a worker's count in an epoch is the number of distinct events first seen in that epoch in which its participation was reported, and never exceeds the epoch's event count.", "quantifier": "all histories without repeated reports", "why_tests_cant": "unbounded histories", "anchors": ["contracts/rewards/src/contract/execute.rs: record_participation"]}
{"id": "C72", "title": "A distribution pays a bounded number of epochs and is accepted exactly when it can be paid", "statement": "With a limit of at least one, a distribution advances by at most that many epochs; it is accepted if and only if an epoch two or more behind the current one is unpaid, the arithmetic fits and the pool covers what is owed for the epochs due.", "quantifier": "all histories, pools, limits and heights", "why_tests_cant": "unbounded histories and arithmetic boundaries", "anchors": ["contracts/rewards/src/contract/execute.rs: distribute_rewards"]}
{"id": "C73", "title": "A session with a positive threshold completes exactly at the threshold", "statement": "A signing session whose worker set has a positive threshold is reported completed if and only if the members that signed, each counted once, have at least the threshold weight.", "quantifier": "all histories of sessions and signatures", "why_tests_cant": "unbounded interleavings", "anchors": ["contracts/multisig/src/contract/execute.rs: submit_signature", "contracts/multisig/src/signing.rs"]}
{"id": "C74", "title": "Messages are handed to nexus once if no call repeats an id", "statement": "Over any history in which no single call repeats an id, the messages handed to nexus are the first offered under each id, each once, in order; and across calls an id already handed over is never handed over again, whatever later calls contain.", "quantifier": "all histories of calls", "why_tests_cant": "unbounded histories", "anchors": ["contracts/nexus-gateway/src/contract/execute.rs"]}
{"id": "C75", "title": "Canonical ids survive the conversion to and from nexus", "statement": "A message that came from nexus converts back to itself, different nexus ids give different cross-chain ids, and two messages with canonical ids that nexus sees under the same id have the same cross-chain id; content is carried over unchanged. For one source-chain event there is one canonical id.", "quantifier": "all messages", "why_tests_cant": "the space of ids is unbounded", "anchors": ["contracts/nexus-gateway/src/nexus.rs", "contracts/voting-verifier/src/events.rs: parse_message_id"]}
{"id": "C76", "title": "Ids without commas name their batch", "statement": "Requests for the same messages in any order are answered with the same batch, a repeated request signs the batch last built under that id for the current worker set without rebuilding it, and requests for different messages whose ids contain no comma get different batches unless the hash collides.", "quantifier": "all histories of requests", "why_tests_cant": "unbounded histories, permutations", "anchors": ["contracts/multisig-prover/src/types.rs: BatchId", "contracts/multisig-prover/src/execute.rs: construct_proof"]}
{"id": "C77", "title": "The aggregate verifier relays exactly the answers of the expected shape", "statement": "A verification request or query through the aggregate verifier succeeds if and only if the configured verifier answers, and its answer has the expected shape; then that answer is what is returned. Asked directly, the voting verifier's answer reads as its statuses.", "quantifier": "all verifiers, states and messages", "why_tests_cant": "all answer shapes", "anchors": ["contracts/aggregate-verifier/src/contract.rs"]}
{"id": "C78", "title": "The broadcast queue sends a prefix of what it received, in order, and exactly so much is lost when it stops", "statement": "While the task runs, everything received is either broadcast or queued; when it ends normally everything was broadcast; what was broadcast is always a prefix of what was received; when it stops with an error exactly the failed batch or the queue, and the message being handled, are lost.", "quantifier": "all interleavings of messages, ticks and outcomes", "why_tests_cant": "unbounded interleavings", "anchors": ["ampd/src/queue/queued_broadcaster.rs"]}
{"id": "C79", "title": "A proof of a batch that was not overwritten is backed by threshold weight", "statement": "A proof reported as completed carries valid signatures, over the digest of exactly the batch being signed, of distinct members of the worker set current when the session began, reaching its threshold and no more than needed, provided no other batch was stored under the same id since; a batch without a worker-set transfer is never overwritten.", "quantifier": "all histories of the composed system", "why_tests_cant": "spans two contracts, replies and unbounded histories", "anchors": ["contracts/multisig-prover/src/query.rs: get_proof", "contracts/multisig-prover/src/reply.rs", "contracts/multisig/src/contract.rs"]}
{"id": "C80", "title": "On one chain, each contract behaves as it does alone", "statement": "When all contracts are deployed together and call each other, the state of each at any moment is the one it reaches alone by the calls it received, all of which it accepts alone; failed transactions leave no trace; no call changes another contract's storage.", "quantifier": "all deployments, transactions, other contracts and nestings of calls", "why_tests_cant": "unbounded interleavings of all contracts, with arbitrary further contracts", "anchors": ["contracts/*/src/contract.rs: execute", "contracts/multisig-prover/src/reply.rs"]}
{"id": "C81", "title": "Routing through a gateway delivers exactly the verified messages", "statement": "Whoever asks a gateway to route messages with different ids: those its verifier reports verified, and no others, are served by the gateways of their destination chains afterwards, and nothing else changes; provided the gateway is registered for the chain and no chain involved is frozen. One verified message with a frozen destination makes the whole call fail.", "quantifier": "all states reachable in the composed system, all lists of messages", "why_tests_cant": "spans four contracts in all their states", "anchors": ["contracts/gateway/src/contract/execute.rs: route_messages", "contracts/connection-router/src/contract/execute.rs: route_messages", "contracts/voting-verifier/src/query.rs"]}
{"id": "C82", "title": "Participation is what workers did, end to end", "statement": "In the rewards contract, a worker's participation in a verifier's pool is recorded once for each ended poll in which the worker's vote agreed with every result, and in a multisig's pool once for each session the worker signed; the count per epoch is the number of those first seen in that epoch.", "quantifier": "all histories of the composed system", "why_tests_cant": "spans three contracts and unbounded histories", "anchors": ["contracts/voting-verifier/src/execute.rs: end_poll", "contracts/multisig/src/contract/execute.rs: submit_signature", "contracts/rewards/src/contract/execute.rs: record_participation"]}
{"id": "C83", "title": "A proof is about messages that really arrived", "statement": "Every message in a proof was asked for, is for the prover's chain, and had arrived at the prover's gateway: sent on by the router, from the source chain's gateway whose verifier had a quorum for it, or from nexus. A worker set in a proof was the active one when it was asked for.", "quantifier": "all histories of the composed system", "why_tests_cant": "spans six contracts and unbounded histories", "anchors": ["contracts/multisig-prover/src/execute.rs: construct_proof", "contracts/gateway/src/contract/query.rs", "contracts/connection-router/src/contract/execute.rs"]}
{"id": "C84", "title": "The prover's worker set was active and took effect", "statement": "The worker set whose signatures a prover asks for is the one active when the prover was first set up, or one that was the active one when proposed, was confirmed while no other had been confirmed in between, and that a quorum of workers attested on the destination chain.", "quantifier": "all histories of the composed system", "why_tests_cant": "spans four contracts and unbounded histories", "anchors": ["contracts/multisig-prover/src/execute.rs: confirm_worker_set, update_worker_set", "contracts/voting-verifier/src/execute.rs: verify_worker_set"]}
{"id": "C85", "title": "The signatures in a proof were submitted by members of the current worker set", "statement": "Every signature in a completed proof was submitted by its signer in a call to the multisig, is good under the key of a member of the worker set that was the prover's when the session was started, belongs to a different member each, and together they reach the threshold.", "quantifier": "all histories of the composed system in which registered worker sets have different hashes", "why_tests_cant": "spans two contracts, accounts and unbounded histories", "anchors": ["contracts/multisig-prover/src/query.rs: get_proof", "contracts/multisig/src/contract/execute.rs: submit_signature"]}
{"id": "C86", "title": "What is served and proved at the destination was sent at the source", "statement": "Workers that run the off-chain daemon vote only as their node of the source chain shows. If, whenever a poll is opened, the other active workers are too few to decide it, then a message is served by the destination chain's gateway, or contained in a proof, only if a node of such a worker shows the message sent from the source chain's gateway contract in a final block (or a checkpoint), with the same content; or it came from the nexus module. Whatever anybody else sends to any contract.", "quantifier": "all histories of all contracts, with any other contracts and any votes of the other workers", "why_tests_cant": "spans worker daemons, events and six contracts, with unbounded histories and adversarial callers", "anchors": ["ampd/src/handlers/evm_verify_msg.rs", "ampd/src/handlers/sui_verify_msg.rs", "contracts/voting-verifier/src/execute.rs", "contracts/gateway/src/contract/execute.rs: route_messages", "contracts/connection-router/src/contract/execute.rs", "contracts/multisig-prover/src/execute.rs: construct_proof"]}
{"id": "C87", "title": "A confirmed worker set really took over at the destination gateway", "statement": "Under the same assumption about workers, the worker set whose signatures a prover asks for is the first one set, or one for which a node of a worker that runs the daemon shows the destination chain's gateway changing to exactly those operators, weights and threshold, before the set was confirmed.", "quantifier": "all histories of all contracts, with any other contracts and any votes of the other workers", "why_tests_cant": "spans worker daemons, events and contracts, with unbounded histories and adversarial callers", "anchors": ["ampd/src/handlers/evm_verify_worker_set.rs", "ampd/src/handlers/sui_verify_worker_set.rs", "contracts/voting-verifier/src/execute.rs: verify_worker_set", "contracts/multisig-prover/src/execute.rs: confirm_worker_set"]}
{"id": "C88", "title": "Votes are accepted and verify", "statement": "On an open poll the vote of a worker it was opened for is accepted exactly if it is the worker's first one, has one answer per item and comes before the expiry, whatever else happened since; anybody can end the poll once from its expiry on. Once active workers with the threshold share voted that a message happened, it is reported Verified from then on, whatever else is called. With the same message several times in one request only the votes on the last one count (refuted for the others); a worker set may be asked about again, which starts over.", "quantifier": "all histories before and after the poll is opened, all voters", "why_tests_cant": "unbounded histories and interleavings", "anchors": ["contracts/voting-verifier/src/execute.rs: vote, end_poll", "contracts/voting-verifier/src/query.rs: msg_status", "packages/axelar-wasm-std/src/voting.rs"]}
{"id": "C89", "title": "Completed signing gives a proof, and what stops it", "statement": "Every announced session is answered while pending. A completed session of an ABI prover gives a proof exactly if the keys of all members of its worker set are points of the curve; of a BCS prover if numbers fit in 128 bits and nothing is too long. While one active worker has no registered key, every request for a new batch and every update of the worker set is refused; while one active worker's key is no point of the curve (registration checks the length only) and the sets differ enough, an ABI prover refuses them too.", "quantifier": "all histories of the prover, all worker sets and sessions", "why_tests_cant": "unbounded sets and histories; adversarial worker", "anchors": ["contracts/multisig-prover/src/query.rs: get_proof", "contracts/multisig-prover/src/execute.rs: make_worker_set, construct_proof", "contracts/multisig-prover/src/encoding/abi", "contracts/multisig/src/contract/execute.rs: register_pub_key"]}
{"id": "C90", "title": "The contracts can always pay", "statement": "On a chain with coins: a rewards contract always holds the coins of all its pools, and a service registry, in every denomination, all bonds it owes, whatever else happens in any contract. So a transaction fails for lack of coins only if an account or another contract lacks them; a worker whose unbonding period has passed gets exactly their bond, and a distribution that can be computed is paid, share by share. Only the claim of a bond of zero coins can be refused by a chain that lets nobody pay zero coins. Coins neither appear nor vanish.", "quantifier": "all histories of the composed system, all initial balances, any payments among accounts and other contracts", "why_tests_cant": "sums over unbounded histories, spanning the contracts and the bank", "anchors": ["contracts/rewards/src/contract.rs: execute (DistributeRewards)", "contracts/service-registry/src/contract.rs: bond_worker, claim_stake"]}
{"id": "C91", "title": "What the worker daemon records as handled was handled and sent", "statement": "For a configuration that is accepted (and has no EVM chain called \"sui\" beside a Sui handler), all handlers have different names; and over any number of runs in which the queue of transactions did not end with an error, every block up to the height recorded for a handler was given to it, handled without error event by event, and what it made of it was broadcast successfully; in particular the worker's vote in every poll for it. If a broadcast fails the heights are written all the same, the votes are lost for good, and after a signal to stop the daemon even reports success (refuted without the condition). One chain written in two ways is accepted and voted on twice.", "quantifier": "all configurations, blocks, node answers, schedules, numbers of restarts", "why_tests_cant": "unbounded runs and restarts, interleaving of five tasks", "anchors": ["ampd/src/lib.rs", "ampd/src/handlers/config.rs", "ampd/src/commands/daemon.rs", "ampd/src/event_processor.rs", "ampd/src/queue/queued_broadcaster.rs"]}
{"id": "C92", "title": "Setting up a worker makes it active; whether it can sign depends on the key's name", "statement": "An authorised worker that bonds, declares its chains and registers its key with the daemon's commands is then listed as active on each of these chains with the bond, and the multisig knows the key of its daemon, whatever happened before. Its daemon answers every request to sign with a signature under this key if the key was generated under the multisig's address; under any other name, as the default one, every request to sign ends the signer with an error, and it never gets past the block of the first one, however often it is started.", "quantifier": "all histories of the composed system before, all configurations, all key daemons that derive keys from mnemonic and key id, any number of runs", "why_tests_cant": "spans commands, contracts, events, the key daemon and restarts", "anchors": ["ampd/src/commands/bond_worker.rs", "ampd/src/commands/declare_chain_support.rs", "ampd/src/commands/register_public_key.rs", "ampd/src/handlers/multisig.rs", "ampd/src/tofnd/mod.rs"]}
{"id": "C93", "title": "What was voted for can be delivered by anybody", "statement": "In the whole system: once workers that were active when a message was asked about, with the threshold share of the weight, voted in time that it happened, it is Verified from then on, and nothing else ever is; and unless the router refuses it, anybody can then bring it, with others, to the gateways of the destinations in one transaction, which changes nothing else, after which it is served there. In the same way a worker set that waits at a prover, once voted for and not asked about again, can be confirmed by anybody; then it is the prover's and the multisig's, and no earlier proof changes.", "quantifier": "all histories of the composed system in the order of their blocks, all callers that are no contracts of it", "why_tests_cant": "spans registry, verifier, gateways, router, prover and multisig, with unbounded histories", "anchors": ["contracts/voting-verifier/src/execute.rs", "contracts/gateway/src/contract/execute.rs: route_messages", "contracts/connection-router/src/contract/execute.rs", "contracts/multisig-prover/src/execute.rs: confirm_worker_set"]}
{"id": "C94", "title": "Who can do what in the whole system, and when proofs are there", "statement": "In the whole system, whatever was called before: a vote is accepted exactly from a worker active when the poll was opened, before its expiry, complete and the worker's first; anybody can end a poll once from its expiry on; a prover's call succeeds exactly if the prover accepts it and, if it needs signatures, is authorized at the multisig; it then begins the next session for its worker set, whose proof is pending; a signature is accepted exactly from a member who did not sign before, if it verifies for the session's digest and does not come after the grace period; the proof stays pending until the members that signed reach the threshold, and is available from then on (for EVM chains exactly if all members' keys are points of the curve, for BCS within the encoding's limits).", "quantifier": "all histories of the composed system in the order of their blocks, all callers that are no contracts of it", "why_tests_cant": "equivalences over unbounded histories spanning the contracts", "anchors": ["contracts/voting-verifier/src/execute.rs: vote, end_poll", "contracts/multisig-prover/src/execute.rs", "contracts/multisig-prover/src/query.rs: get_proof", "contracts/multisig/src/contract/execute.rs: submit_signature, start_signing_session"]}
{"id": "C95", "title": "A worker's transactions have enough gas and pay the configured price", "statement": "Every transaction a worker's daemon hands to the node was simulated just before, and if the configured gas adjustment is at least 1 its gas limit is at least the gas used then (below 2^53); in general it is the exact product rounded up or down. Its fee is the configured price of the gas limit, rounded up to whole coins, or at most one coin more, whenever gas limit times the digits of the price is below 2^51. With the default configuration limit and fee are exactly the gas used and its price rounded up.", "quantifier": "all configured adjustments and decimal prices, all gas numbers in the ranges given, all sequences of requests and answers of the node", "why_tests_cant": "binary floating point: correctness for all inputs is a statement about rounding errors; tests only sample", "anchors": ["ampd/src/broadcaster.rs: estimate_fee", "ampd/src/broadcaster/dec_coin.rs"]}
{"id": "C96", "title": "A configured price is read as written", "statement": "A gas price is accepted exactly if it is a decimal number followed by a valid denomination that starts with a letter; it is read as the nearest representable number, never negative, infinite or not a number. A price written by the daemon is read back as the same price if its denomination starts with a letter and it is not negative.", "quantifier": "all texts, all prices", "why_tests_cant": "all texts", "anchors": ["ampd/src/broadcaster/dec_coin.rs"]}
{"id": "C97", "title": "What the contracts store never gets mixed up", "statement": "No two things a contract stores, whatever their names, addresses and numbers, lie under the same bytes of its store, for each of the eight contracts; reading, writing, removing and listing entries over the bytes gives the same as over a map of what was stored, and a listing gives exactly the entries asked for, in order. Identifiers read from keys are those written. A name or address in front of another key part fails from 65536 bytes on, and only then.", "quantifier": "all names, addresses and identifiers of any length, all programs over the store, all contents", "why_tests_cant": "the key encodings have to be injective over all texts; listing bounds carry over bytes of value 255", "anchors": ["contracts/connection-router/src/state.rs", "contracts/service-registry/src/state.rs", "contracts/multisig/src/state.rs", "contracts/gateway/src/state.rs", "contracts/voting-verifier/src/state.rs", "contracts/rewards/src/state.rs", "contracts/multisig-prover/src/state.rs"]}
{"id": "C98", "title": "The contracts behave over the bytes of their stores as their tables say", "statement": "Over any history of calls, each of the eight contracts, run over a store of bytes one access after the other, gives the answers and errors of the model with tables, and after every history its store holds the entries of the tables under the bytes of their keys and nothing else: of the router, an index entry exists exactly for the current gateway of each chain; the verifier's poll counter is absent until the first poll; the prover's next worker set is gone once confirmed. The queries for active workers, signing sessions, outgoing messages, verification statuses, proofs and the current worker set give the model's answers and change nothing.", "quantifier": "all histories of calls with names shorter than 65535 bytes and 64-bit poll and session numbers, every hash function", "why_tests_cant": "refinement over unbounded histories, including the secondary index that the code updates by hand-written keys", "anchors": ["contracts/connection-router/src/state.rs", "contracts/connection-router/src/contract/execute.rs", "contracts/service-registry/src/contract.rs", "contracts/multisig/src/contract.rs", "contracts/multisig/src/state.rs", "contracts/gateway/src/state.rs", "contracts/nexus-gateway/src/state.rs", "contracts/rewards/src/state.rs", "contracts/voting-verifier/src/state.rs", "contracts/voting-verifier/src/execute.rs", "contracts/multisig-prover/src/execute.rs", "contracts/multisig-prover/src/reply.rs"]}
{"id": "C99", "title": "The text of an event is read back as what the contract wrote", "statement": "The poll, worker-set and signing events of the contracts, written as JSON and plain text into attributes and handed out by the node in base64, are read by the daemon as exactly the values written: every JSON value the contracts write (nesting at most 127 deep) is read back, so no text a user puts into a message can pass for another field or message; base64 is accepted exactly if it is the encoding of a UTF-8 text; attributes written without quotes are read as the text they are if they start with a letter and are none of null, true, false, start with 0x, or are hexadecimal with one of the letters a, b, c, d, f; digits alone are read as a number.", "quantifier": "all values, texts, messages, polls, worker sets and keys", "why_tests_cant": "round trips over all texts, including quotes, control characters and non-ASCII text chosen by users", "anchors": ["packages/events/src/event.rs", "contracts/voting-verifier/src/events.rs", "contracts/multisig/src/events.rs"]}
{"id": "C100", "title": "From the bytes of an event to the vote and the signature", "statement": "A worker who takes part in an EVM poll and whose node knows what is final votes on the poll read from the bytes the node hands out, whatever texts the messages contain; a worker whose key is asked for signs, provided the digest in hexadecimal contains one of the letters a, b, c, d, f. Without the latter it fails: a digest of decimal digits alone, the first not a zero, cannot be decoded by any signer.", "quantifier": "all polls, messages and signing requests, all node answers", "why_tests_cant": "combines reading arbitrary text with the handlers; the failing digests are too rare for random tests", "anchors": ["packages/events/src/event.rs", "ampd/src/handlers/evm_verify_msg.rs: handle", "ampd/src/handlers/multisig.rs: handle", "contracts/multisig/src/events.rs"]}
{"id": "C101", "title": "Workers are paid exactly what their votes and signatures are worth", "statement": "In the whole system with its coins: what a rewards contract has sent to anybody for a verifier's polls, over any history in block order, is the sum over the paid epochs of their wage: the rewards of the epoch, divided evenly (rounded down) among those who voted as the poll ended in at least the threshold fraction of the polls that ended in it, under the parameters at its first one; nobody else gets anything, and later events change nothing about a paid epoch. Every distribution the rewards contract accepts pays at least one epoch and adds to everybody's coins exactly their wages of the epochs paid, for polls and signing sessions alike. A signature submitted after the epoch of its session was paid is never paid for.", "quantifier": "all histories of the composed system in block order, all parameters and their changes, all callers", "why_tests_cant": "sums over unbounded histories across verifier, multisig, rewards contract and bank, with changing epoch lengths", "anchors": ["contracts/rewards/src/contract/execute.rs", "contracts/rewards/src/state.rs: Epoch, EpochTally", "contracts/voting-verifier/src/execute.rs: end_poll", "contracts/multisig/src/contract/execute.rs: submit_signature"]}
{"id": "C102", "title": "A contract only ever runs with values its message types promise", "statement": "Whatever text is sent to a contract, by an account or by another contract: it fails, or it is read as a message whose chain names are not empty, in lower case and without the separator, whose ids and addresses are not empty, hashes have 32 bytes, thresholds are fractions above 0 and at most 1, keys have a length that fits their type, epochs last at least one block and numbers fit their sizes. In any history of the composed system run on texts, every call served was such a message, so the validity of calls that other properties ask for always holds. A text is refused if at any depth it has a member that does not belong there, has one twice, or lacks one that is not optional; the tables of signers and the messages of the nexus module are the exceptions. The rewards per epoch are the exception: their type promises a number above zero, but a text can set them to zero.", "quantifier": "all texts, all histories of texts sent to the composed system", "why_tests_cant": "all byte strings are possible inputs, with blanks, reordered, repeated and unknown fields and escapes", "anchors": ["contracts/voting-verifier/src/msg.rs", "contracts/multisig/src/msg.rs", "contracts/rewards/src/msg.rs", "contracts/gateway/src/msg.rs", "contracts/connection-router/src/msg.rs", "contracts/multisig-prover/src/msg.rs", "contracts/nexus-gateway/src/msg.rs", "contracts/service-registry/src/msg.rs", "packages/axelar-wasm-std/src/nonempty"]}
{"id": "C103", "title": "What is sent is what is received", "statement": "Every message of valid values written as text by a contract, a daemon or a command is read by the contract it is sent to as the same message, although sender and receiver use types of different packages (the router's messages are read by gateways, the gateway's by verifiers). The text of every message is fixed letter by letter. Different messages have different texts, and no text means different things to different contracts. The order in which the members of objects are given never matters. Hence any history of texts sent to the composed system has the same states, calls and failures as the history of the messages, and everything proved of histories of messages holds of histories of texts. The vote or signature a daemon's handler decides on is the one the contract runs.", "quantifier": "all messages of all contracts, all histories of texts, all events a daemon handles", "why_tests_cant": "agreement of separately declared message types over unbounded values, nesting and histories", "anchors": ["contracts/voting-verifier/src/msg.rs", "contracts/multisig/src/msg.rs", "contracts/rewards/src/msg.rs", "contracts/gateway/src/msg.rs", "contracts/connection-router/src/contract/execute.rs: route_messages", "contracts/nexus-gateway/src/nexus.rs", "ampd/src/handlers"]}
{"id": "C104", "title": "What a contract stores is what it finds again", "statement": "The contracts keep their data as JSON texts and read them back at every access. Over any history of calls, each of the eight contracts run on such a store of texts gives the answers and errors of the model with tables; after every history each entry is the text of the value in the table and is read back, by the type its place is read with, as that value, so no access ever fails because of a text that cannot be read. The queries give the model's answers from the texts. The text of every stored value is fixed letter by letter.", "quantifier": "all histories of calls with values of their types and names shorter than 65535 bytes, every hash function and signature check", "why_tests_cant": "unbounded histories and values; a stored text that could not be read would block every later call", "anchors": ["contracts/connection-router/src/state.rs", "contracts/service-registry/src/state.rs", "contracts/multisig/src/state.rs", "contracts/multisig/src/types.rs", "contracts/gateway/src/state.rs", "contracts/nexus-gateway/src/state.rs", "contracts/rewards/src/state.rs", "contracts/voting-verifier/src/state.rs", "packages/axelar-wasm-std/src/voting.rs", "contracts/multisig-prover/src/state.rs", "contracts/multisig-prover/src/types.rs"]}
{"id": "C105", "title": "Whoever sees only the events knows what the contracts did", "statement": "From the texts of the events a contract has emitted, and nothing else, an observer gets its current state: of the router, the gateway of every chain and where each message went, except for messages to unregistered chains, whose recipient no event names; of a gateway, the messages that wait to be delivered, provided its verifier vouches for messages of its own chain only (otherwise incoming and outgoing messages look alike); of the multisig, who may ask for signatures, all keys, what each session signs for which worker set, every signature and the height of completion; of the voting verifier, every poll with exactly its participants and its expiry, who voted and the results once it ended, if blocks come in order; of a prover, the batch of every session. Not told are the frozen directions of a chain and, while a poll is open, what was voted.", "quantifier": "all histories of calls of each contract, all texts, every reader of JSON that gives back what was written", "why_tests_cant": "a statement about all histories: one missing or wrong event, or one text that can be taken for another, makes relayers and workers lose track for good", "anchors": ["contracts/connection-router/src/events.rs", "contracts/gateway/src/events.rs", "contracts/multisig/src/events.rs", "contracts/voting-verifier/src/events.rs", "contracts/multisig-prover/src/events.rs"]}
{"id": "C106", "title": "What a contract asks is what is answered", "statement": "Contracts ask each other in JSON texts and are answered in JSON texts. In every reachable state of the composed system the text of a question to any of the modelled contracts is answered with the text of exactly what that contract's tables say, or not at all if it has no such question or nothing to say, and the asker reads back that value, also for a proof, for which the prover asks the multisig in turn. Whatever text gets an answer, it spells a question with values of its types and gets the answer of that question's own text. Hence a history in which all messages, questions and answers are texts has the same states, calls and failures as the one without texts, and everything proved of the latter holds of the former; of contracts outside the system nothing is assumed, their answers may be any texts. The text of every question and answer is fixed letter by letter. The verifier's question for a poll is never answered.", "quantifier": "all histories of texts sent to the composed system, all texts sent as questions, all answers of other contracts, every hash function and signature check", "why_tests_cant": "agreement of separately declared query and response types over unbounded values and histories; a stored value that could not be written or read would block every asker", "anchors": ["contracts/connection-router/src/contract.rs: query", "contracts/gateway/src/contract.rs: query", "contracts/voting-verifier/src/contract.rs: query", "contracts/multisig/src/contract.rs: query", "contracts/multisig-prover/src/contract.rs: query", "contracts/multisig-prover/src/execute.rs", "contracts/service-registry/src/contract.rs: query"]}
{"id": "C107", "title": "The daemon goes on from what its file says, and from nothing else", "statement": "The worker daemon keeps in a file the last block each handler dealt with and the key it signs with. In whatever order the handlers are written, reading the file gives the state that was written. If writing stops anywhere before the end, what is left is refused at every later start, never taken for another state, and not touched again. However often the daemon is started over one file and however the runs end (by themselves, killed before or while they write, unable to connect), the runs that took place did exactly what they would do one after the other with the heights handed on directly; so the blocks up to the height in the file were dealt with, under the conditions known for the runs themselves, and the key once in the file is the key of every later run and command. A file that cannot be read at all counts as a first start, and blocks are skipped silently.", "quantifier": "all states, handler names and orders of writing, all places where writing stops, all sequences of starts", "why_tests_cant": "every prefix of every text, and any number of restarts; a crash while writing cannot be provoked at each byte in a test", "anchors": ["ampd/src/state.rs", "ampd/src/commands/daemon.rs", "ampd/src/lib.rs", "ampd/src/commands/mod.rs: worker_pub_key"]}
{"id": "C108", "title": "An error is told with its causes, in order and with all that was attached", "statement": "The error a contract's caller is told and the entry ampd logs name every error of a report, the outermost first and each as the cause of the one before, with its message, all attachments in the order they were attached, the place it was raised at and its backtrace; the text is exactly these messages, attachments quoted in brackets, joined by colons. No report stops the program. Two reports that are merged cannot be told from one where the second error caused the first, and the text does not show where one message ends.", "quantifier": "all reports, however they were put together, all messages and attachments", "why_tests_cant": "all sequences of attaching and re-raising; tests look at single reports", "anchors": ["packages/report/src/loggable.rs", "packages/axelar-wasm-std/src/error.rs", "ampd/src/commands/daemon.rs"]}
{"id": "C109", "title": "One id stands for one call, for ever", "statement": "If the workers that watch a source chain are honest enough to decide no poll wrongly, messages of this chain come neither from nexus nor through a gateway that nobody watches, and the chain's past does not change, then whatever two gateways serve under one cross-chain id, at whatever times, is the same call: same destination, same payload hash, same sender. Two commands with the same id in any two proofs of a prover are for the same call, and equal if the sender is spelled the same. The spelling is not fixed: any relayer can have a call approved with the sender's address in another letter case, and since the destination takes a command id once, the spelling approved first is the one that counts (refuted without this condition).", "quantifier": "all deployments, all histories and all pairs of moments in them, all message ids", "why_tests_cant": "two requests at different times, with everything that can happen in between; tests use one spelling", "anchors": ["contracts/voting-verifier/src/execute.rs: verify_messages", "contracts/gateway/src/contract/execute.rs", "contracts/multisig-prover/src/execute.rs: construct_proof", "contracts/multisig-prover/src/encoding/mod.rs: make_command", "ampd/src/evm/verifier.rs", "ampd/src/handlers/evm_verify_msg.rs"]}
{"id": "C110", "title": "The signature submitted is the one the key daemon made", "statement": "What the daemon submits for a signing session is, number for number, the signature with which its key daemon answered the request for this session's digest under the key the session lists for this worker, in the 64 bytes that the multisig contract takes for an ECDSA signature. Of all byte strings the key daemon may answer with, exactly the DER encodings of two numbers from 1 to the order of the curve, not included, are taken, and no two of them for the same signature. A failed call, an empty answer, a refusal and an answer that is no signature are told apart; then nothing is submitted. The worker's key is the one on disk, or else the one the key daemon answers with.", "quantifier": "all answers of the key daemon (all byte strings), all numbers, all events and keys", "why_tests_cant": "leading zeros and sign bytes depend on the values of the numbers; tests use one signature", "anchors": ["ampd/src/tofnd/grpc.rs: keygen, sign", "ampd/src/tofnd/mod.rs", "ampd/src/handlers/multisig.rs: handle, broadcast_signature", "contracts/multisig/src/key.rs: Signature"]}
{"id": "C111", "title": "A worker leaves out no poll that is still open", "statement": "The height that the worker daemon shows its handlers is its node's last answer. If the node never claims a height the chain has not reached, then a poll that lists the worker and that their handler leaves out as expired is over on the chain as well: the verifier takes no vote in it any more, from anybody, whatever happens. Conversely, in a poll about messages in EVM form that is still open, every participant votes whose node knows what is final. The task that asks for the height ends with an error exactly at the first query that fails, and never panics. The height shown can fall, and a vote that is sent can come too late: with a node that lags behind, a handler votes in a poll that is over.", "quantifier": "all sequences of answers of the node, all histories of the verifier, all events and polls", "why_tests_cant": "the answers of the node, the growth of the chain and the handlers are interleaved; tests use one height", "anchors": ["ampd/src/block_height_monitor.rs: connect, run, latest_block_height", "ampd/src/handlers/evm_verify_msg.rs: handle", "ampd/src/handlers/sui_verify_msg.rs: handle", "contracts/voting-verifier/src/execute.rs: vote"]}
{"id": "C112", "title": "On a Sui chain, what is reported verified was seen by an honest worker", "statement": "If, in every poll, the workers that do not run ampd are too few to reach the threshold alone, then every message a voting verifier for a Sui chain reports as verified was shown by the node of some worker running ampd: an event of the configured gateway package, in a checkpointed transaction, at the digest and sequence number of the message id, carrying the message's sender, destination and payload hash. The same holds of a worker set, and the operators data that worker saw is byte for byte what the prover put into the command handing over to that set.", "quantifier": "all histories of the verifier, all messages and worker sets, all sets of trusted workers, all nodes", "why_tests_cant": "spans contract, event encoding, worker and prover over unbounded histories", "anchors": ["contracts/voting-verifier/src/execute.rs", "contracts/voting-verifier/src/events.rs", "ampd/src/handlers/sui_verify_msg.rs", "ampd/src/handlers/sui_verify_worker_set.rs", "ampd/src/sui/verifier.rs", "contracts/multisig-prover/src/encoding/bcs.rs"]}
{"id": "C113", "title": "What happened on the source chain gets verified", "statement": "When a poll is opened for a message of an EVM or Sui chain (well-formed, as are the other messages of the poll; on Sui the nodes also know every transaction of the poll), and workers making up the threshold run ampd, handle the poll's event before it expires, have nodes that answer honestly and show the call at the gateway in a final block, and have what they submit accepted by the verifier before the poll expires, then the message is reported verified from then on, whatever the other workers vote and whatever else is called. The same holds of a worker set, unless it is asked about again.", "quantifier": "all histories of the verifier before and after, all other votes, all nodes", "why_tests_cant": "liveness across event encoding, worker and contract over unbounded histories with arbitrary other callers", "anchors": ["contracts/voting-verifier/src/execute.rs", "contracts/voting-verifier/src/events.rs", "ampd/src/handlers/evm_verify_msg.rs", "ampd/src/handlers/evm_verify_worker_set.rs", "ampd/src/evm/verifier.rs", "ampd/src/handlers/sui_verify_msg.rs", "ampd/src/handlers/sui_verify_worker_set.rs", "ampd/src/sui/verifier.rs"]}
{"id": "C114", "title": "A vote that a worker sends in time counts", "statement": "Votes a worker sends in one transaction are accepted exactly if no poll is voted on twice and each would be accepted alone, and then count as if sent one by one. When the worker's queue broadcasts, either all waiting votes count and the queue goes on, or none does and the queue stops. Over any run of the queue every vote whose transaction was confirmed counts, and every vote handed over if the queue ends without error. (That each vote sent before its own poll expires counts is refuted: one poll that expired while its vote waited takes all other waiting votes with it and stops the worker's queue. So does a vote that reaches the queue after its poll expired or after the worker's earlier vote on that poll was taken.)", "quantifier": "all states of the verifier, all batches, all calls by others and all heights between requests", "why_tests_cant": "depends on when polls expire relative to the broadcast interval, across queue, transaction and contract", "anchors": ["ampd/src/queue/queued_broadcaster.rs", "ampd/src/broadcaster.rs", "contracts/voting-verifier/src/execute.rs"]}
