# Formal model of cw-ica-controller (Rocq / Coq 8.16.1)

The contract of /repo, the part of the chain it runs on, and two example
contracts are modelled as computable functions. The properties of
`properties.jsonl` are proved about that model for all inputs, states and
histories. Sources are in `rocq/theories`; every definition of the model cites
the lines of /repo it models, or says that it models something outside /repo.

## 1. Trusted base

* Coq's kernel (8.16.1), including its bytecode evaluator (`vm_compute` is used
  for closed computations). `native_compute` is not used.
* `Print Assumptions` follows every property theorem in the `Prop*.v` files.
  Every one of them prints `Closed under the global context`: no theorem
  depends on any axiom, from the standard library or otherwise.
* The compiled library contains seven standard-library constants that a scan
  for axioms reports: `Coq.ssr.ssrunder.Under_rel.{Over_rel, over_rel,
  over_rel_done, Under_rel, Under_rel_from_rel, Under_relE, under_rel_done}`.
  They come with the module types of Coq's own `ssreflect` files, which
  `Lia` loads. No theorem depends on them.
* No axiom, `Variable` or `Hypothesis` outside a section, `Admitted`, functor or
  module type is declared. External functions (address validation, the Unicode
  alphanumeric table, library error texts) are fields of a record `api`, which
  every theorem quantifies over.
* That the model is the code. Section 3 says what is modelled; section 4 lists
  what had to be assumed about software outside /repo.

## 2. Layers

| files | content |
|---|---|
| `Base` `Utf8` `Text` `Base64` | Rust integers, strings, decimal text, `Decimal`, base64 |
| `Json` `JsonCodec` `JsonTypes` | serde_json_wasm printer and parser; serde derive; one codec per Rust type |
| `Proto` `Schemas` | prost wire format, driven by descriptors; descriptors of all messages used |
| `Types` `Metadata` `PacketData` `Stargate` `CosmosMsg` `QueryMsg` `Ownable` `Semver` `Store` | types and helper modules of the contract and the libraries it calls |
| `Contract` | every entry point, as `store -> input -> outcome (store * response)` with `outcome = Ok | Err | Panic` |
| `Chain` | wasmd and ibc-go around the contract: dispatch, replies, channel ends, commitments, atomic transactions, callback contracts that may do anything before they return |
| `StorageKeys` `Helpers` `CounterContract` `OwnerContract` `OwnerKeys` | raw keys, `src/helpers.rs`, `testing/contracts/*` |
| `Errors` | texts of `src/types/error.rs`, `Display` of `ChannelStatus` |
| `Derive` | `derive/src/lib.rs`: the macro `ica_callback_execute` and what `cw_serde` makes of the enum it gives |
| `Features` | the library built without `query` or without `export` |
| `Host` | the chain at the other end: ibc-go's host module, receipts, acknowledgements, clock, and what relayers can prove to either chain |
| `HostSpec` `AnswerSpec` `WireSpec` | what the host chain and JSON readers see, written without the contract's encoders |
| `TextSpec` `ReadSpec` | grammars of JSON, UTF-8, base64 and decimal text; which JSON documents are which messages |
| `ChainSpec` `HistorySpec` `CallSpec` `OwnerSpec` | what a history means to a user: owner, options, callback address, recorded channel, outstanding packets, as functions of the log only |
| `Trans` `Inv` `History` `HistFacts` `Enabled` and `*Facts`, `*Sound` | proofs: invariant, refinement, enabledness, codec round trips |
| `Prop*` | the property theorems, a concrete case beside each, `Print Assumptions` |

The central argument: `Inv.v` proves one inductive invariant of `visited`
(worlds between transactions and inside callbacks). `History.v` uses it to
prove a refinement: the log of every visited world is a run of the abstract
machine `HistorySpec.hist`, whose state is the log alone. History properties
are then proved by induction over that machine. `Enabled.v` proves the other
direction where a property says something succeeds.

`HostInv.v` proves an invariant of the two chains together (`Host.reached`):
each chain's own invariant, and the link between them (channel ends, packets
handled, acknowledgements, timeouts). A step may be proved against any past
state of the other chain, so the invariant also says how states evolve. C72 to
C79 are read off it.  `PropEnd.v` (C80 to C83) proves that there is a way
on: it exhibits the actions of both chains and proves that each succeeds.
`PropLost.v` (C85) proves from which states there is none, by an invariant, and
from which there is. `PropConform.v` repeats the refutations with a host that
conforms.

Codecs: `json_roundtrip` and `from_json_valid` are proved once for codec
combinators; `C48` once for all protobuf descriptors.

## 3. What is modelled

| /repo file | modelled | not modelled |
|---|---|---|
| `src/contract.rs` | all entry points and the functions they call | attributes none; unit tests |
| `src/ibc/handshake.rs`, `src/ibc/relay.rs` | all | — |
| `src/ibc/types/*.rs` | all; without the `query`, `staking` or `export` feature in `Features` | — |
| `src/types/msg.rs`, `state.rs`, `callbacks.rs`, `keys.rs` | all types that are stored, received or sent, with their JSON; `get_ica_info`, `set_ica_info`, `is_open`, `close`, `Display` of `ChannelStatus` | `delete_ica_info`, `PendingQuery` (never called); JSON schema generation (`src/bin/schema.rs`) |
| `src/types/cosmos_msg.rs` | all conversions | — |
| `src/types/query_msg.rs` | all paths, requests and answers | text of the libraries' decoding errors (an oracle of the model) |
| `src/types/error.rs` | the variants with their arguments, and the texts of the contract's own variants (`Errors`) | texts of library errors; variants the code never returns |
| `src/helpers.rs` | all | — |
| `derive/src/lib.rs` | both functions | attributes, comments and type parameters of the item; variant names are ASCII |
| `testing/contracts/callback-counter`, `testing/contracts/cw-ica-owner` | all entry points | their unused message variants have no body in /repo either |
| `e2e/`, `scripts/`, docs | — | not code of the contract |

Simplifications, each also stated at the definition:

* Errors of libraries carry no text, except where the text is observable (query
  errors in callbacks).
* Storage is a record with one field per item (and a function for the map). The
  raw bytes are modelled separately in `StorageKeys`; `C43` connects the two.
* serde_json_wasm: raw control characters inside a string are refused, `\/` is
  accepted; numbers are unsigned integers (the interface has no others);
  recursion limits are not modelled. These could not be checked offline.
* semver: full parser and order, including build metadata, which the crate's
  `Ord` compares.
* Gas, fees, funds and block limits are not modelled. Sizes: theorems about
  encoded bytes assume less than 2^64 bytes, chain actions refuse 2^32.

## 4. Assumptions about software outside /repo

* ibc-go: `ChannelOpenInit` calls the application first and then writes the
  channel end; `ChannelOpenAck` writes OPEN before the application callback;
  acknowledgements need an OPEN channel, delete the commitment before the
  callback and, on ordered channels, come in sequence; timeouts are also
  possible on closed channels and close an ordered channel before the callback
  (v4.6/5.4/6.3/7.4/8.2 and later). What a relayer can prove about the other
  chain is unrestricted, except in C72 to C83, which assume the host of
  `Host.v`. Checks that may refuse for reasons outside the model
  are an input `ok`.
* ibc-go host (C72 to C83 only): OnChanOpenTry answers with the offered metadata
  and the account's address, which is the same for one port on one connection;
  it refuses metadata with other connection ids than the connection's, and any
  new channel while the active one of that port and connection is not closed
  (the active channel is the one confirmed last); MsgChannelCloseInit is refused; a packet is
  received at most once, in turn on ordered channels and before its timeout;
  all its messages run or none, each authenticated against the account;
  acknowledgements are results with one response per message, or errors. Error
  texts, accounts, responses and answers are arbitrary.
* wasmd: a response's messages run after the entry point's writes, in the same
  transaction; a failing message fails it (the contract's only reply is
  on success); `MsgIBCSendResponse` has the sequence in field 1; event types get the
  prefix `wasm-` (not modelled).
* The host reads packet JSON with gogo jsonpb and the transaction as protobuf;
  `sdk.Dec` is an integer scaled by 10^18 on the wire.
* cw-ownable 2.0 (`initialize_owner`, `assert_owner`, `update_ownership`),
  cw-utils `Expiration`, cw2, cw-storage-plus key layout, cosmwasm-std
  (`Timestamp::plus_seconds` panics on overflow, `Uint128`/`Decimal` text),
  anybuf, prost, serde attributes: modelled from their published behaviour.
* `AInstantiate` has an optional earlier release: a contract instantiated by an
  older release is assumed to have stored what this release stores, except the
  version.

## 5. Findings

Properties found false of the code, each refuted by a concrete reachable
history (`…_refuted`), with the largest part that holds (`…_partial`). None
needs a misbehaving host: C13, C15, C30, C31, C52 and C53 are refuted again with
the host of `Host.v` (`…_conforming_host_refuted`).

1. **C13, C53, C61 — overlapping handshakes.** The flag allowing OpenInit is
   consumed by the handler, but nothing limits the number of handshakes under
   way, and `on_acknowledgement` (handshake.rs:145-202) overwrites whatever is
   recorded. If the owner calls CreateChannel twice before the first handshake
   completes, the second OpenAck replaces an open channel. The first remains
   open on the chain, unknown to the contract, and neither side can close it.
   A stale handshake can also complete after the owner closed the channel.
   `PropCause.v` proves that nothing else can replace or reopen a channel.
2. **C15, C61 — late timeouts.** `ibc_packet_timeout` (relay.rs:52-65) closes
   the recorded channel whatever channel the packet was sent on. After a
   reopening, a late timeout of a packet of the previous channel marks the new
   channel CLOSED while it is open on the chain; the owner can then not close
   it. They can still send on it, but not replace it: the host refuses a second
   channel until this one is closed, by a packet that times out. (C82 shows
   that the owner can bring this about.) `C15_cause_partial` gives the exact
   condition.
3. **C30 — `query_result` on errors.** Documented as present only if the packet
   had queries; error acknowledgements always carry it.
4. **C31 — leftovers.** An error acknowledgement leaves the entry of
   `PENDING_QUERIES`.
5. **C52 — commission rates.** Reported 10^18 times too large.
6. **C58, C59 — owner example.** `GetIcaCount` fails before the first account;
   the record of a channel stays open after the channel closed. The example can
   never reopen a channel (`C90_no_way_back`). Its default salt is the block time in seconds, so two creations in
   one second collide and the second fails (`C89_salt_once`).
7. **C54 — undeliverable acknowledgements** (proved as the exact condition): a
   success acknowledgement of a query packet whose last response cannot be
   decoded makes the acknowledgement transaction fail, for good; on an ordered
   channel this blocks all later acknowledgements.
8. **C76 — outcomes lost by closing.** `close_channel` (contract.rs) does not look
   at outstanding packets. If the host has run a packet and the channel is
   closed before the acknowledgement is relayed, the packet can neither be
   acknowledged (the channel is not open) nor time out (it was received): no
   callback ever tells its outcome, and reopening does not help. The same
   happens to packets run before the one whose timeout closes an ordered
   channel.
9. **C82 — account lost.** A consequence of finding 1 with the host's rule of one
   active channel. Two handshakes under way are both completed; the contract
   keeps the one acknowledged last, the host the one confirmed last. If these
   differ, the host's active channel is one the contract has forgotten and can
   never close. Everything works until the contract's channel is closed (by the
   owner, or by a timeout if ordered). From then on the host refuses every new
   channel of the contract on this connection, so the account and what it holds
   are out of reach for ever (`C82_never_stuck_refuted`: whatever anybody does).
   C85 says in general when this has happened and when it has not: the ways
   back are an unfinished handshake, a packet that can still time out on the
   forgotten ordered channel, and a channel closed before the host confirmed it.
10. Smaller observations: the address check of `validate_ica_address` uses
   Unicode `is_alphanumeric` and counts bytes; `SendCosmosMsgs` does not look at
   the recorded status (the chain refuses instead, C44); migrating to the same
   version always fails (C39).

## 6. Method

Every theorem is stated over queries, log, chain state or entry points, with
the helper notions in the spec files. Beside each group of theorems an
`Example` shows a non-trivial case meeting the hypotheses; the refutations and
`Witness.v` build such histories. The theorems were tested against wrong
programs: `seeded/LOG.jsonl` has one line per edit of the model, with the
theorems that failed and those tightened because they had not.

## 7. Per property

Technique: *entry* = decision or frame theorem on one entry point for every
store; *history* = induction over histories via the refinement; *codec* =
theorem on encoders and decoders for all values; *two chains* = invariant of
the contract's chain and the host together. Most have both an entry and a
history part.

<!-- generated by tools/manifest.py -->
| id | property | status | technique | theorems | note |
|---|---|---|---|---|---|
| C01 | Only the owner can act through execute | proved | entry, history | `C01_owner_only_any_store` `C01_owner_only` | Decision theorem on the entry point for every store, and in every visited world: the transaction fails and the world is unchanged. 'Nothing changes' is literal equality of worlds. |
| C02 | The contract always has exactly one owner and ownership moves only by proposal and timely acceptance | proved | entry, history | `C02_always_owned` `C02_owner_changes` `C02_no_renounce` `C02_nominated_by_owner` | Invariant over all histories, read through the Ownership query. |
| C03 | Relayers can never open a channel on the contract's port | proved | history | `C03_open_init_rejected` `C03_C04_no_difference` | In every visited world, also while callback contracts run; removing such attempts from a history changes nothing. |
| C04 | Relayers can never close the channel | proved | history | `C04_close_init_rejected` `C03_C04_no_difference` | As C03, for CloseInit. |
| C05 | One owner request opens one handshake | proved | history | `C05_one_request_one_handshake` `C05_counts` | Per action and as a count over histories. Permanent closure is C53. |
| C06 | The contract's own MsgChannelOpenInit is always accepted by its own OpenInit handler | proved | entry, codec | `C06_own_message_accepted` | For every store and options; the handler is run on the very message the contract emitted. |
| C07 | MsgChannelOpenInit carries exactly the requested channel | proved | entry, codec | `C07_open_init_message` `C62_C07_proposed_version` | The emitted bytes are decoded by an independent protobuf reader (HostSpec.core_open_init). Messages of 2^64 bytes or more are excluded. |
| C08 | CreateChannel without options reuses the last options | proved | history | `C08_create_uses_last_options` `C08_instantiate_uses_options` | Options are read off the history (last Instantiate or CreateChannel with options), not the store; seen on the chain's new channel end. |
| C09 | Channel open acknowledgement is accepted exactly for valid ICS-27 metadata | proved | entry, history | `C09_open_ack_any_store` `C09_open_ack` | Exact acceptance condition, for every store and for every visited world. |
| C10 | The handshake completes with a conforming host | proved | history | `C10_handshake_completes` | A conforming host answers with the proposed metadata and an address; the answer's JSON text may be any that parses to it. |
| C11 | GetContractState and GetChannel always agree | proved | history | `C11_queries_agree` | Through the JSON answers of the two queries. |
| C12 | A new handshake cannot be started while a channel is recorded open | proved | history | `C12_no_create_while_open` | The transaction fails (world unchanged by definition of a failing transaction). |
| C13 | A channel open acknowledgement never replaces an open channel | partial | history | `C13_cause_partial` `C13_never_replaces_refuted` `C13_never_replaces_partial` `C13_conforming_host_refuted` | False of the code: on_acknowledgement does not look at the recorded channel (handshake.rs:145-202). Refuted with a history in which the owner asked for two channels before the first opened; proved when each handshake is started only after all earlier ones completed. The only cause: C13_cause_partial shows that the replacing handshake was under way when the replaced channel opened. Missing in the partial theorems: histories with two handshakes under way. The refutation is repeated with a conforming host. |
| C14 | A recorded OPEN channel is really open | proved | history | `C14_open_is_open` | Holds although C13 and C15 fail. |
| C15 | A recorded CLOSED channel is really closed | partial | history | `C15_cause_partial` `C15_closed_is_closed_refuted` `C15_closed_is_closed_partial` `C15_conforming_host_refuted` | False of the code: ibc_packet_timeout closes the recorded channel without checking that the packet was sent on it (relay.rs:52-65). Refuted with a history in which a packet of an earlier channel times out after reopening; proved when timeouts concern the recorded channel or that one is unordered. C15_cause_partial gives the exact condition, in terms of what happened since the channel opened. Missing in the partial theorems: late timeouts of earlier channels. The refutation is repeated with a conforming host. |
| C16 | Packet timeout closes exactly ordered channels | proved | entry, history | `C16_timeout_any_store` `C16_timeout` | Exact frame on every store and on what GetChannel reports. |
| C17 | The owner can always close an open channel | proved | history | `C17_owner_can_close` `C17_nothing_to_close` | Success and effect for the owner; failure otherwise. |
| C18 | A closed channel can always be reopened by the owner | proved | history | `C18_reopen` | Chain-side refusals (identifier, connection) are the input ok = true. |
| C19 | SendCosmosMsgs emits exactly one packet on the recorded channel with the exact timeout | proved | entry, history | `C19_one_packet` `C19_no_overflow` `C19_one_commitment` | Entry point for every store; commitment on the chain in every visited world. |
| C20 | The packet carries exactly the requested messages | proved | entry, codec | `C20_packet_content` | packet_spec (HostSpec) gives the meaning of each message; the host decoder is written independently of the contract's encoder. |
| C21 | Every generated message is signed by the interchain account | proved | entry, codec | `C21_signed_by_account` | Signer field of each decoded message; raw messages byte for byte. |
| C22 | Unsupported messages or queries abort the whole call | proved | entry, history | `C22_supported_iff` `C22_unsupported_aborts` `C22_owner_can_send` | Exact acceptance condition; and in every visited world the owner's supported request succeeds if the channel end is open. |
| C23 | Message conversion loses nothing | proved | entry, codec | `C23_nothing_lost` `C23_message` | On whole packets and on single messages. same_msg identifies an absent optional field with its empty or zero value. |
| C24 | Amounts and weights are written exactly | proved | codec | `C24_amounts` `C24_weights` `C24_in_the_message` | For all 128-bit values, also as they appear inside the protobuf messages. |
| C25 | Queries are sent in order, signed by the account, with their own path and data | proved | entry, codec | `C25_queries` | Requests decoded by the host-side decoder. |
| C26 | Query answers are matched with the queries of the very packet they answer | proved | history | `C26_matched` `C26_every_callback` | Over all histories, with everything read from the log; also in the form: every callback ever made satisfies it. |
| C27 | Every query answer has the type of its query | proved | entry, history, codec | `C27_type` `C27_stargate` `C27_callback_types` | For all answer bytes. |
| C28 | Query answers decode to what the host encoded | proved | history, codec | `C28_decoded` `C28_callback_shows` | Validator commission rates are the subject of C52. |
| C29 | Query results are all-or-nothing | proved | entry, history | `C29_any_paths` `C29_callback` `C29_C54_ack_accepted` `C29_no_params` | For every list of paths and in every history; the texts for a wrong number of answers and for missing parameters are shown. |
| C30 | query_result is present only if the packet contained queries | partial | history | `C30_only_with_queries_refuted` `C30_success_partial` `C30_conforming_host_refuted` | False of the code: an error acknowledgement always carries query_result = Error (relay.rs:136-160). Refuted with a reachable history; proved for success acknowledgements, with the exact behaviour for errors. The refutation is repeated with a conforming host. |
| C31 | Query bookkeeping is cleaned up | partial | history | `C31_cleaned_up_refuted` `C31_success_and_timeout_partial` `C31_exactly_partial` `C31_conforming_host_refuted` | False of the code: an error acknowledgement leaves the pending entry in storage (relay.rs:136-160). Refuted with a reachable history; proved for success acknowledgements and timeouts, with the exact set of records kept (C31_exactly_partial). The refutation is repeated with a conforming host. |
| C32 | The query scratch entry never leaks between transactions | proved | history | `C32_no_scratch` `C32_records` `C32_sent_recorded` | Invariant in every visited world. |
| C33 | Each lifecycle event makes exactly one callback to the configured address | proved | entry, history | `C33_ack_response` `C33_timeout_response` `C33_open_response` `C33_ack` `C33_timeout` `C33_open` `C33_nothing_else_calls` | Entry points for every store; effects on the log in every visited world; nothing else calls. |
| C34 | The callback receiver decodes exactly what was sent | proved | history, codec | `C34_roundtrip` `C34_tag` `C34_injective` `C34_every_call` | Round trip through an independent JSON parser, and of every call ever made. |
| C35 | A failing callback aborts the lifecycle event | proved | history | `C35_aborts` `C35_no_trace` `C35_retry` `C35_stays` | A failing callback leaves no trace in the rest of the history. |
| C36 | Acknowledgement events identify the packet | proved | entry, history | `C36_event` `C36_response` | wasmd prefixes the event type with 'wasm-'; the prefix is not modelled. |
| C37 | Acknowledgement parsing | proved | history, codec | `C37_result` `C37_result_all` `C37_error` `C37_only` `C37_rejected` | Exact: which bytes are read as which acknowledgement. |
| C38 | Controller-only: host-side entry points always abort | proved | entry, history | `C38_entry_points` `C38_no_effect` | For every store and world. |
| C39 | Migration only upgrades this contract | proved | entry, history | `C39_iff` `C39_once` `C39_same_release` | Exact condition; the order on versions is specified independently (PropMigrate.older). |
| C40 | Migration preserves a reachable state | proved | entry, history | `C40_nothing_changes` `C40_unnoticed` | Literal frame, and every later plain transaction behaves the same. |
| C41 | UpdateCallbackAddress redirects later callbacks and nothing else | proved | entry, history | `C41_update_only` `C41_update_succeeds` `C41_callbacks_follow` | Entry point, success for the owner, and every later callback in the history. |
| C42 | Instantiation result | proved | entry, history | `C42_instantiate_any` `C42_instantiate` `C42_invalid_address` `C42_instantiate_succeeds` | Exact condition and result. |
| C43 | Storage entries never alias | proved | history, codec | `C43_no_alias` `C43_save` `C43_remove` `C43_loads` `C43_held` | Injectivity of keys, and loads of raw bytes equal the model's store in every visited world whose recorded version text is well formed. |
| C44 | Packets are only ever sent on an open channel to the recorded account | proved | history | `C44_sent_by_owner` `C44_every_packet` | Every commitment in every visited world goes back to such a transaction. |
| C45 | Each packet is resolved at most once | proved | history | `C45_resolved_once` `C45_only_own_packets` | Counts over the log. |
| C46 | State queries are faithful and pure | proved | entry, history | `C46_state_queries` `C46_state_queries_any_store` | Answers are functions of the history alone. GetChannel fails exactly until the first handshake completes. |
| C47 | The version fallback proposes only acceptable metadata | proved | entry | `C47_version_fallback` | Entry point for every store (a relayer cannot reach it with the flag down, C03). |
| C48 | Protobuf encoding is lossless | proved | codec | `C48_roundtrip` `C48_injective` `C48_decoded` `C48_unknown_fields` `C48_extra_field` | One generic theorem for every well-formed descriptor; the 60-odd shapes used are checked to be well formed. |
| C49 | Owner contract example keeps one record per controller | proved | entry, history | `C49_records` `C49_distinct` `C49_callback` `C49_controllers` `C49_messages` `C49_admin` | Histories of the owner contract; controllers it created may call back in any order. |
| C50 | Callback counter example records every packet callback exactly once | proved | entry, history | `C50_exact` `C50_accepts` | For every sequence of calls, readable or not. |
| C51 | Helper constructors address the right contract with the right message | proved | entry, history, codec | `C51_execute` `C51_migrate` `C51_admin` `C51_instantiate` `C51_instantiate2` `C51_injective` `C51_runs` `C51_get_contract_state` `C51_get_channel` `C51_ownership` | JSON bodies decode to the given message; queries through the chain's querier. |
| C52 | Validator commission rates are reported exactly | partial | history, codec | `C52_rates_exact_refuted` `C52_scaled_partial` `C52_all_scaled_partial` `C52_conforming_host_refuted` | False of the code: sdk.Dec is an integer scaled by 10^18 on the wire, the contract parses it as a plain decimal (query_msg.rs:436-441). Refuted; proved what is reported instead (10^18 times the rate). The refutation is repeated with a conforming host. |
| C53 | Permanent closure | partial | history | `C53_cause_partial` `C53_permanent_closure_refuted` `C53_permanent_closure_partial` `C53_conforming_host_refuted` | False of the code for the same reason as C13: a stale second handshake can be completed after the first channel was closed. Proved when no handshake is under way; otherwise only a handshake under way at the time can take its place (C53_cause_partial). The refutation is repeated with a conforming host. |
| C54 | The contract never gets stuck on an outstanding packet | proved | history | `C29_C54_ack_accepted` `C54_timeout_accepted` | Exact acceptance condition in every visited world. |
| C55 | Callbacks are readable by contracts built without the query feature | proved | history, codec | `C55_reads` `C55_history` | Every callback ever made by a controller. |
| C56 | Callback counter lists exactly the resolved packets | proved | history | `C56_counts` `C56_once` | Counter and controller coupled through the calls in the log. |
| C57 | Owner contract's record follows the controller | proved | history | `C57_record` `C57_accepts` | Owner contract and controller coupled: the owner contract has received the controller's calls so far. |
| C58 | Owner contract reports the number of controllers | partial | history | `C58_count_partial` `C58_count_refuted` | False before the first controller is created: GetIcaCount fails because ICA_COUNT is not initialised (cw-ica-owner contract.rs:210-212). Proved afterwards. |
| C59 | Owner contract's record says whether the channel is open | partial | history | `C59_status_partial` `C59_status_refuted` | False: closing makes no callback, so the example's record stays open. Proved while the controller reports an open channel. |
| C60 | Close confirmations | proved | entry, history | `C60_confirm_any_store` `C60_confirm` `C60_after` | Exact acceptance condition and full effect. |
| C61 | The host can always close | partial | history | `C61_cause_partial` `C61_host_can_close_refuted` `C61_host_can_close_partial` | False of the code, consequence of C13 and C15: an open channel that is not the recorded one, or is recorded closed, cannot be closed by the host. Proved when handshakes do not overlap and timeouts concern the recorded channel. In any case a refusal means that another channel was opened since, or a packet of another channel timed out meanwhile (C61_cause_partial). |
| C62 | JSON of the interface | proved | history, codec | `C68_C62_plain_read` `C62_messages_read` `C62_messages_sent` `C62_answers` `C62_callbacks` `C62_C07_proposed_version` | The JSON a reader sees is specified in WireSpec and ReadSpec, field by field, without the codecs of the model: grammar of the text (TextSpec, C67), then fields. Covers whole messages with every Cosmos message and query inside, acknowledgements, metadata and callbacks. |
| C63 | The owner always gets to send | proved | history | `C63_open_is_usable` `C63_reopen_and_use` `C63_owner_gets_to_send` | The channel reported open is usable by C14 and C22; reopening is the composition of the two transactions, with every effect computed. Sequences and packets must fit the chain's bounds (64-bit sequence, packet below 2^32 bytes). |
| C64 | A callback speaks of the state its receiver finds | proved | history | `C64_callback_state` `C64_send_in_callback` | The state of the world at the moment of the call, then anything the callback contract does (C35_retry); sending from within the opening callback needs no bound, for no packet was sent on a fresh channel. |
| C65 | Order of packets and acknowledgements | proved | history | `C65_sent_in_order` `C65_acknowledged_in_order` `C65_timeout_is_last` | By induction over histories. That the chain enforces order is the model of ibc-go (Chain.v); the theorem is that this order reaches the callback contract. |
| C66 | Every packet is accounted for | proved | history | `C66_accounted` `C66_held_was_sent` `C66_balance` | By induction over histories; the balance counts packets per channel. |
| C67 | What counts as valid text | proved | codec | `C67_utf8` `C67_integers` `C67_decimals` `C67_base64` `C67_json` | Each parser of the model is proved equivalent to a grammar in TextSpec, in both directions. serde_json_wasm itself is outside /repo: that its parser is this one is an assumption (sections 3 and 4). |
| C68 | Contracts built without the query feature are compatible | proved | history, codec | `C68_C62_plain_read` `C68_callbacks` `C68_every_call` `C68_requests` `C68_packets` `C68_packets_supported` | Features.v models the cfg(not(feature = "query")) variants of the request, the callback and from_cosmos_msgs. The build without staking is in C84. |
| C69 | Query response at an index | proved | codec | `C69_at` `C69_after_messages` | response_at is stated on the host's Protobuf schemas. The controller itself uses the last index only; the index variant is library API. |
| C70 | JSON of the example contracts | proved | history, codec | `C70_messages_read` `C70_answers` `C70_counter` | Same method as C62: grammar of the text, then fields, without the codecs of the model. |
| C71 | Owner contract storage | proved | history, codec | `C71_no_alias` `C71_save` `C71_loads` | As C43 for the owner example. Addresses are the last part of their key, so they need no length bound. |
| C72 | The account does only what the owner asked | proved | two chains | `C72_only_requested` `C72_once` | Invariant of the two-chain system of Host.v (HostInv.sys_inv): ibc-go's host module and both core IBC modules, with relayers that may prove any past state. |
| C73 | Requests are run in the order they were made | proved | two chains | `C73_in_order` | As C72. |
| C74 | Callbacks tell the truth about the host | proved | two chains | `C74_callbacks_true` | As C72; 'never' is stated for every system that can follow. |
| C75 | Query answers are the host's answers | proved | two chains | `C75_answers` | As C72, with C26 and C28 on the controller's side. |
| C76 | Every request can be concluded | partial | two chains | `C76_ack_accepted` `C76_concluded_partial` `C76_concluded_refuted` | False of the code and the protocol: a packet the host has run, on a channel that was closed before the acknowledgement came back, can neither be acknowledged nor time out; CloseChannel (contract.rs) does not look at outstanding packets. Refuted with a reached system; proved the exact condition (channel open, or packet not handled), and that acknowledgements of a conforming host are always accepted. Missing in the partial theorem: closed channels with handled packets. |
| C77 | The reported account exists on the host | proved | two chains | `C77_account` | As C72. |
| C78 | Only the owner or a timeout closes a channel | proved | two chains | `C78_closed_why` `C78_no_close_confirm` | As C72. ibc-go's host refuses user-initiated closing, so its end closes only after the controller's. |
| C79 | The host accepts what the contract sends | proved | two chains | `C79_host_accepts` | The host's message registry is an oracle that knows at least the messages of HostSpec (hcfg_ok). |
| C80 | A requested channel can be opened | proved | two chains | `C80_opens` | Enabledness in the two-chain system: HCloseConfirm if needed, then HTryOpen, AOpenAck, HConfirm succeed in turn. |
| C81 | A request can be carried out and reported | proved | two chains | `C81_done_and_told` | C79, then the acknowledgements of the packets before it, if the channel is ordered, then its own (settle_ack, induction on their number). |
| C82 | The contract never gets stuck | partial | two chains | `C82_never_stuck_partial` `C82_never_stuck_refuted` | Refuted: if two handshakes are completed and the host's active channel is the one the contract replaced, the account is out of reach once the other channel is closed; invariant over everything that can follow. Partial: close (if open), create, C80, send, C81, provided the host's active channel is closed or the one of the account the contract reports; a channel wrongly recorded as closed is closed with a packet that times out. The packet must be shorter than 2^32 bytes, as in C22. C85 says exactly when the account is lost. |
| C83 | The account stays the same | proved | two chains | `C83_same_account` | Invariant of the host: metadata and account of its channels are fixed by its end of the connection; the contract's version check ties them to the reported channel. |
| C84 | Contracts built without the staking feature are compatible | proved | codec | `C84_requests` `C84_bare_requests` `C84_packets` `C84_packets_supported` | Features.v models the builds without staking, with and without query. Callbacks and answers do not differ there: IcaQueryResponse is not gated by staking. |
| C85 | When an account is out of reach for good | proved | two chains | `C85_lost` `C85_lost_runs` `C85_regained` `C85_either` | Invariant over everything that can follow (`forsaken`) for the loss; for the way back, the relayers' steps that lead to a state where C82 applies. `C85_either`: the two descriptions are complementary unless the host's account is one the contract refuses, or the reported channel is open beside another active one (then C22 and C81 apply). |
| C86 | Contracts that use ica_callback_execute receive every callback | proved | codec | `C86_added` `C86_only_enums` `C86_every_callback` `C86_examples` `C86_name_needed` | Induction on the list of variants. `C86_name_needed`: with a variant of that JSON name already there, no callback is read. |
| C87 | A refused request says why | proved | history | `C87_why` `C87_aborts` `C87_otherwise` `C87_texts` | The invariants of the history connect the store with the queries; each branch of execute is then compared with the list of reasons, in both directions. |
| C88 | A refused relayed event says why | proved | history | `C88_never` `C88_open_ack` `C88_close_confirm` `C88_timeout` `C88_ack` | Entry points in the stores of histories. The reasons are stated with the queries' reports, the host's decoders and the log of sent packets; for the handshake each error is shown to name a real fault and success to mean there is none (which fault is named first is not part of the claim). |
| C89 | Owner contract does what its admin asks | proved | history | `C89_send` `C89_create` `C89_salt_once` | Exact acceptance conditions from the invariant of the owner contract's histories; addresses on the chain never become free again, so a salt works once. |
| C90 | A controller asked only once for a channel behaves without exceptions | proved | history | `C90_single` `C90_example` `C90_no_way_back` | The full claims of C13, C15, C53 and C61 under the one condition that no second channel was requested, from the exact causes of their exceptions: there is only one channel end, and all packets were sent on it. `C90_example`: the example owner contract only sends, so it stays the owner and nobody else may ask. |
| C91 | A refused migration says why | proved | entry, history | `C91_why` `C91_current` `C91_reply` | Both directions for every storage content, with an independent specification of semantic versions and their order; the previous version in the error is the text the crate's Display gives. |
<!-- end -->
