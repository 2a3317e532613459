# A Rocq model of axelar-amplifier

This directory holds a formal model of the contracts and of parts of the
worker daemon (`ampd`) in `/repo`, and proofs of the properties listed in
`properties.jsonl`. The code itself was only read, never built or run.

## Layout

* `rocq/theories/Base.v`: result type with an explicit `Panic`, machine
  integers (N with range checks), byte strings, small list library.
* `rocq/theories/<Part>Model.v`: executable Gallina model of one part of the
  code, definition by definition, with file and line citations. No proofs.
* `rocq/theories/<Part>Spec.v`: the vocabulary used in theorem statements
  (observations on histories, sums, orders). Independent of the model's
  helper functions where possible.
* `rocq/theories/<Part>Proofs.v`: lemmas.
* `rocq/theories/<Part>Props.v`: property theorems only; each is closed by
  `exact`, followed by `Print Assumptions` and by `Example`s showing that the
  hypotheses are met by a concrete non-trivial case.

## Modelling conventions

* A contract is `step : state -> env -> sender -> msg -> res (state * response)`.
  `Err` and `Panic` roll the whole transaction back, as CosmWasm does; the
  history functions therefore keep the old state on a non-`Ok` result.
* Machine integers are `N` (mathematical naturals) with explicit checks: the
  workspace sets `overflow-checks = true` (`/repo/Cargo.toml`), and the
  cosmwasm `Uint*` operators panic, so overflow is `Panic`.
* Storage maps (`cw_storage_plus::Map`) are std++ `gmap`s. Iteration order is
  modelled (sorted by key) only where an observable output depends on it.
* Hashes (keccak256) are not computed. Where a hash is only used as a storage
  key, the key of the model is the hash's preimage, i.e. collisions of
  keccak itself are excluded but ambiguity of the preimage is kept. Where a
  digest is the subject, it is a function parameter and theorems read "equal
  digests imply equal contents or an explicit hash collision".
* Signature verification, address validation, other contracts' answers and
  RPC answers are parameters (oracles) of the step functions; theorems
  quantify over all of them.
* The JSON texts of the events the daemon reads (JsonModel), of all calls
  (WireModel), of stored values (Storage3Model) and of queries and their
  answers (QueryModel) are modelled.

## Plan per property

| id | model | proof |
|----|-------|-------|
| C01 | Threshold constructors and comparison over u64 pairs | direct arithmetic (nia) |
| C02 | Snapshot::new with mul_ceil | arithmetic + induction on participants |
| C03-C06 | WeightedPoll as state machine | invariant by induction over call histories |
| C07-C11 | voting-verifier contract state machine over polls | invariant by induction over call histories |
| C12 | message key = preimage of Message::hash | refutation by witness, restricted injectivity |
| C13 | worker-set polls in the same state machine | refutation by witness; stability of verified sets by invariant |
| C14-C21 | rewards contract state machine with ghost payout log | invariants; C16, C20 refuted by witness with restricted positive results |
| C22-C27 | multisig contract state machine, signature check as oracle | invariants |
| C28-C33 | router state machine | invariants; C33 refuted by witness |
| C34 | string functions for ids and names | structural induction on strings |
| C35-C37 | gateway functions with the verifier's answer as a function | list induction, history induction |
| C38-C40 | nexus gateway | C38 refuted for repeated ids within a batch, proved otherwise; round trip of conversions |
| C41-C45 | service registry state machine with ghost ledger | invariants; C45 refuted by witness |
| C46-C49 | prover state machine, worker-set diff, signer selection | invariants, list reasoning |
| C50 | BCS serializer (ULEB128, little endian) with independent decoder | round trip by induction |
| C51 | ABI head/tail encoder with independent decoder | round trip by induction |
| C52 | Operators sorting | permutation/sortedness |
| C53 | batching contract with an environment of call outcomes | case analysis, list induction |
| C54 | aggregate verifier relay; reply parser on response shapes | refutation against the voting verifier's reply shape |
| C55-C56 | queued broadcaster as a labelled transition function over schedules | invariant over schedules |
| C57 | broadcaster client state | induction over responses |
| C58, C60 | EVM/Sui verification and handlers | decision rule equivalences; C60 in both directions for all five handlers |
| C59 | block publisher, handler checkpoints, restart | invariant over schedules with crash |
| C61, C80-C85 | all contracts on one chain, calling each other, with arbitrary other contracts | each contract's history, then the path of a message, record or signature through them |
| C62 | prover + multisig composition | invariant over composed histories |
| C64-C66 | verifier + event encoding + worker handlers (+ prover's encoder) | quorum intersection, codec lemmas |
| C68, C70-C79 | restricted forms of C59, C13, C16, C20, C22, C38, C39, C49, C54, C55, C62 | as those |
| C69 | keys of messages between EVM chains | injectivity, invariant |
| C86-C87 | the system of contracts with workers that run ampd | quorum intersection at each verifier, then C61, C83, C84 |
| C88-C89 | voting verifier and prover alone | exact conditions of acceptance from invariants; the tally at the quorum; encoders are total |
| C90 | composed system with the host chain's bank | books of a contract as invariant along the calls; balance at least what they say |
| C91 | handlers' configuration, one run of the daemon with its five tasks, restarts | C55, C59 and the handlers' theorems put together |
| C92 | the commands' messages in the composed system; key daemon as a function of mnemonic and key id | C80 and the registry's invariants; C59's poisoned block |
| C93 | composed system: votes to delivery, votes to confirmed worker set | C88 carried through C80 (each contract as alone); C81; prover and multisig as one system |
| C94 | composed system: acceptance of votes, ends, prover calls, signatures; proofs of sessions | equivalences of the single contracts (C22, C25, C47, C88, C89) through C80 and the rewards contract's acceptance of records |
| C95 | f64 as mantissa, exponent and a unit of 2^-1074; gas limit and fee; the client's log | rounding never crosses a representable number, relative error 2^-53; induction over requests |
| C96 | text of a price: digits, point, denomination | structure of texts; round to nearest |
| C97 | keys of all contracts as bytes; programs over the store; refinement to maps of places | injective encodings; order of strings |
| C98 | all eight contracts as programs over bytes | simulation along histories |
| C99 | serde_json's writer and reader, base64, UTF-8, the contracts' attributes as text | reader inverts writer by induction on nesting |
| C100 | C99 composed with the handlers | C60, C92 at the text level; digit-only digests as counterexample |
| C101 | C82, C17, C18 and C90 composed: votes to coins | wage told from votes alone; paid epochs are final, as one block moves the epoch by at most one |
| C102 | the contracts' message types read from JSON texts | reader sound for each type, then for every call of a history of texts; the shape of every text that is read; zero rewards as counterexample |
| C103 | the composed system with texts for calls | writer and reader inverse for each type; the exact texts; readers do not see the order of members; simulation of the system of messages along histories |
| C104 | all eight contracts over stores of JSON texts | what a program writes stays within the types (a predicate carried through the programs), hence every text is read back; simulation of C98 along histories; the exact texts |
| C105 | all events of five contracts, letter by letter, and readers of an observer | invariant between state and events told along histories; what is not told by pairs of histories with equal events |
| C106 | questions and answers of the composed system as texts | what the contracts keep has values of its types along histories, hence answers are read back; what a contract does depends on answers to well-typed questions only; simulation of C103's system |
| C107 | the daemon's state file and its restarts | what is read from a text is read from every longer text beginning with it (induction over the reader), hence no beginning of an object's text is a text; induction over starts, reduced to C91 |
| C108 | error reports and what is told of them | induction over the frames of a report |
| C109 | the whole system, two moments of one history | from C86: both messages were seen at one place of the source chain |
| C110 | the client of the key daemon, and the multisig handler using it | the bytes of a number determine it and its shortest form (induction, arithmetic on sizes), hence the reader is characterised by the encoding of X.690 |
| C111 | the height monitor, the handlers and the verifier | induction over the monitor's turns; with C10 (polls keep their expiry) and C60 |
| C112 | C64 to C66 for Sui: verifier, Sui handlers and prover | quorum of C08/C13 has a trusted voter; one event per poll; BCS data of both sides compared |
| C113 | the converse of C64 and C65: C60 (participants vote), C58 (what they vote) and C88 (votes verify) composed | decoded fields are those of the message; an honest node has one place per id; on Sui the blocks are asked for in one call and its failure leaves the whole poll unanswered, so the nodes are assumed to answer for every transaction of the poll |
| C114 | VoteBatchModel.v: the queue of C55 in front of the verifier, one transaction per batch; **in_time refuted**: a poll that expires while its vote waits in the queue takes every other waiting vote with it and stops the queue | a transaction is carried out whole or not at all (Cosmos SDK, not in the repository); simulation and broadcast of a batch happen at the same height; failures of the connection are left out |
| C67 | events that handlers cannot decode | refutation by a reachable event |

## Trusted base

* Coq 8.16.1's kernel (and `coqchk`, which rechecks every file).
* `Print Assumptions` under every property theorem prints `Closed under the
  global context`: no theorem depends on any axiom.
* `coqchk` lists, for the whole development, seven constants of the standard
  library as axioms because files of std++ load ssreflect:
  `Coq.ssr.ssrunder.Under_rel.Over_rel`, `.Under_rel_from_rel`, `.over_rel`,
  `.over_rel_done`, `.Under_rel`, `.Under_relE`, `.under_rel_done`. They are
  the opaque module `Under_rel` of the standard library's `ssrunder.v`; no
  theorem here uses them.
* Libraries: the standard library and std++. No axioms, no plugins, no
  functors or module types of our own.
* That the model says what the code does. The model was written by reading;
  each definition cites the lines it follows. The code was not run.

### Parameters

Arbitrary functions the theorems quantify over (section parameters or
arguments), so nothing is assumed about them unless a theorem says so:
keccak-256, the worker-set identifier, signature verification, SEC1
decompression of public keys, signature recovery ids, the bech32 check of
account addresses, base58, JSON reading of an attribute text (concrete in C99 and C100), decoding of EVM
logs and of Sui event bodies, the gas price arithmetic (floating point), and
every answer of another contract, node or signer. Where a result needs a hash
without collisions it says so, as a hypothesis about the inputs
concerned.

### Modelled

| code | files |
|------|-------|
| packages/axelar-wasm-std: threshold, snapshot, voting, operators | StdModel, OperatorsModel |
| contracts/voting-verifier | VerifierModel |
| contracts/rewards | RewardsModel |
| contracts/service-registry | RegistryTypes, RegistryModel |
| contracts/connection-router, packages/connection-router-api | RouterTypes, RouterModel |
| contracts/gateway, packages/gateway-api | GatewayModel |
| contracts/nexus-gateway | NexusModel |
| contracts/multisig | MultisigTypes, MultisigModel |
| contracts/multisig-prover with its BCS and ABI encoders | EncodingModel, ProverModel |
| prover and multisig in one transaction | SigningModel |
| router, gateways, nexus gateway, verifiers, rewards, registry, multisig, prover on one chain | SystemModel |
| contracts/*/src/msg.rs: the JSON of the calls, and the whole system run on texts | WireModel, WireSystemModel |
| the bank of the chain, as far as the contracts use it | BankModel |
| contracts/batching and the host executing its messages | BatchingModel |
| contracts/aggregate-verifier | AggregateModel |
| packages/events, packages/events-derive | EventsModel; texts (JSON, base64, UTF-8): JsonModel |
| the stores of the contracts: cw-storage-plus items, maps, the router's multi index, key encodings; the eight contracts over bytes | StorageModel, Storage2Model |
| the JSON texts the contracts keep in their stores (state.rs, types.rs, signing.rs, key.rs, voting.rs, snapshot.rs) | Storage3Model |
| the events of router, gateway, multisig, verifier and prover (events.rs of each) | EventLogModel |
| the questions contracts ask each other and their answers as JSON (msg.rs and contract.rs [query] of each) | QueryModel |
| ampd: queue | QueueModel |
| ampd: broadcaster | BroadcasterModel; fee arithmetic and dec_coin.rs: FeeModel |
| ampd: handlers, evm, sui | HandlersModel |
| ampd: event_sub, event_processor, handlers/end_block and chain, state, their wiring in lib.rs | SubscriptionModel |
| ampd: handlers/config, lib.rs, commands (daemon, bond_worker, declare_chain_support, register_public_key) | DaemonModel |
| ampd: state.rs (load and flush as texts), commands/daemon.rs over the file | StateFileModel |
| packages/report (loggable.rs), axelar-wasm-std error.rs, axelar-wasm-std-derive | ReportModel |
| ampd block_height_monitor.rs | MonitorModel |
| ampd queue and broadcaster.rs in front of the verifier | VoteBatchModel |
| ampd tofnd/grpc.rs, tofnd/mod.rs, tofnd/error.rs | TofndModel (the DER reader is that of the library `ecdsa`, written down from its documented behaviour; reading public keys and tofnd itself are parameters) |

### Not modelled

* Address validation; serialisation other than in C98 and C102 to C107; gas; events of the registry, the rewards and the nexus-gateway contract other
  than those a theorem mentions; failures of a store itself.
* `packages/report/src/result_ext.rs`, the command line of
  ampd (`main.rs`, `config.rs`, `url.rs`, the commands that only print), its gRPC, JSON-RPC and
  Tendermint transports, tofnd itself.
* In the composed system: the nexus module's own doings, instantiation during the history, gas other than as a
  bound on the depth of calls, the aggregate verifier and the batching
  contract (they are among the arbitrary other contracts).
* The chain: message execution order and rollback follow the documented
  behaviour of CosmWasm (a failed call changes nothing); the host model in
  BatchingModel says what is used of it.
* ampd's concurrency: `select!` and channels become an arbitrary order of
  inputs; timeouts are inputs. Protobuf encodings are left out (a transaction
  is the record of its fields). Hex texts with inner white space, and JSON
  objects that repeat a field, are rejected or read at the first occurrence.
* Stores: the host's limits on key and value sizes are left out; names are
  taken to be shorter than 65535 bytes. The composed system runs on tables:
  C98 and C104 connect each contract's tables to its store.
* The ABI decoding theorems are for encodings shorter than 2^32 bytes.

* f64: Rust's documented semantics (IEEE 754 binary64, nearest even;
  saturating casts; correctly rounded parsing) are written out in FeeModel;
  C95_rounding checks the rounding. NaN payloads are left out. cosmrs' check
  of denominations is any function.

## Properties that are false of the code

Each has a `_refuted` theorem (or a named witness) giving a concrete case;
what does hold is proved beside it.

* C01 `Fraction::inv` can leave the unit interval.
* C12 two different messages with the same storage key: polling one blocks
  the other forever.
* C13 asking again for a worker set restarts its poll and drops the votes.
* C16 recording a participation twice counts twice.
* C20 `epoch_count` 0 or very large.
* C22 a session with threshold 0 is not complete before the first signature.
* C33 unfreezing emits the same event as freezing.
* C38 a call that repeats an id routes it twice.
* C39 ids of different events may convert to the same nexus id.
* C45 `GetWorker` swaps its arguments.
* C49 message ids with commas: one batch answers for other messages.
* C54 the aggregate verifier cannot read the voting verifier's answers.
* C55 a failed broadcast or estimate loses messages of the queue.
* C53 an optional call that succeeds can abort the batch (reserved attribute).
* C62 a second request in the same block can overwrite the batch being signed.
* C59 blocks are published again if the node's latest height goes back; a lag
  while a handler skips known blocks, a handler without a recorded height, and
  two handlers of one name lose blocks.
* C63 one event has several cross-chain ids ("1", "01", ...). From end to end
  (C63_delivered_twice_refuted, TwiceExamples.v): with one call of the source
  gateway and workers that vote as ampd does, both ids are verified, routed and
  signed, and the destination gets two commands with the same parameters.
* C67 anyone can have the verifier emit an event on which every EVM message
  handler of ampd ends; Sui and EVM handlers stop each other; numeric chain
  names and digests whose hex reads as a number do too.
* C88 if a request repeats a message, votes on the earlier ones do not count:
  all workers may say it happened and it is reported as failed.
* C91 after a failed broadcast ampd still records the blocks as handled: the
  votes are lost, and after SIGTERM it reports success; an EVM chain named
  "sui" shares its name with the Sui handler, which ends the former silently;
  one chain can be configured twice in different spellings.
* C92 `register-public-key` registers the key generated under
  `tofnd_config.key_uid` ("axelar" by default), but the signer asks tofnd to
  sign with key id = address of the multisig contract: unless these are equal
  tofnd refuses, the signer ends, and is stuck at that block for good.

Other observations: one active worker without a registered key stops every new
batch and every update of a prover (C89_no_key_stops); since registering a key
checks its length only, one active worker with 33 bytes that are no point of
the curve does the same to an ABI prover once the sets differ enough
(C89_bad_key_stops), and if the current set has such a key no completed session
gives a proof (C89_abi_proof_iff). An ABI gateway still reading the six-field format that
abi.rs:229 has in mind would read the length of the source chain's name as the
event index (C51_six_fields); `GetPoll` of the voting verifier is `todo!()`; a
participation recorded after its epoch was paid is lost; multisig's
`RegisterWorkerSet` is open to everyone; a first bond may be zero; foreign
coins attached to a bond are kept; a gateway's outgoing message is replaced by
a later one with the same id; a rotated key counts twice in the prover's
difference; a proof-of-work chain younger than the confirmations asked for
makes ampd panic; ampd configured with "ethereum" instead of "Ethereum" uses
another finality rule (C58_spelling_decides_finality); `max_retries` of
2^32-1 and a gas sum above 2^64 panic. In the fee
arithmetic: a gas use above 2^53 can exceed its limit with adjustment 1.0
(C95_limit_covers_refuted), a price of 18 digits is not paid in full
(C95_fee_enough_refuted), 0.07 for each of 100 gas costs 8
(C95_ex_above), a negative or NaN gas adjustment is accepted and gives
transactions without gas (C95_bad_adjustment), and a price whose denomination
starts with a digit is read back as another price (C96_read_back_refuted).
The digest to sign is written into its event without quotes, so one whose
hexadecimal digits are all decimal is read as a number and stops every signer
(C100_decimal_digest); about one digest in 2^43 is like that. Who signs after
the epoch of the session's first signature was paid is never paid for it
(C101_late_signature_refuted). The type of the rewards per epoch is one of
numbers that are not zero, but it is read from JSON without that check, so
governance can set them to zero (C102_zero_rewards_refuted); the other types of
this kind are read with their check.
The event of the router's creation leaves out the nexus gateway
(C105_nexus_refuted), freezing and unfreezing events leave out the directions
(C105_frozen_refuted), a gateway announces messages on their way in and out
alike (C105_gateway_refuted) and the event of a vote leaves out what was voted,
although the answers about verified messages change with it
(C105_votes_refuted).
The verifier's question for a poll is declared and never answered: its code
panics (C106_polls_unanswered).
The daemon takes every failure to read its state file (wrong permissions, bytes
that are not UTF-8) for a first start, skips the blocks since and overwrites the
file (C107_unreadable_refuted); and since the file is overwritten in place, a
crash amid writing leaves one the daemon refuses until someone removes it
(C107_cut_short, C107_refused), which again is a first start.
When both a run and writing its state fail, the two errors are merged into one
report, which is logged as if the second had caused the first
(C108_merged_refuted). Contracts fail with a text in which messages run into
each other (C108_text_refuted).

A vote sent in time can be lost: the queue sends all waiting votes in one
transaction, and if one of their polls has expired meanwhile all fail and the
queue stops (C114_in_time_refuted). A vote that is late on arrival, or that
repeats one already taken because the daemon restarted, stops it as well
(C114_arrival_stops).

One call can be approved from two senders (C109_spelling_refuted). A message's
source address is compared with the event as 20 (or 32) bytes but kept, routed
and signed as text, and the command id comes from the cross-chain id alone. A
relayer may ask for the same message with the address in capital letters; it is
verified, replaces the other one at the destination's gateway, and is signed
under the same command id with other parameters. A receiver that compares the
text of its peer's address then refuses the call, and the id is used up.
