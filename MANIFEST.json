{
 "claims": [
  {
   "property": "C01",
   "status": "proved",
   "theorems": [
    "C01_owner_only_any_store",
    "C01_owner_only"
   ],
   "note": "Decision theorem on the entry point for every store, and in every visited world: the transaction fails and the world is unchanged. 'Nothing changes' is literal equality of worlds."
  },
  {
   "property": "C02",
   "status": "proved",
   "theorems": [
    "C02_always_owned",
    "C02_owner_changes",
    "C02_no_renounce",
    "C02_nominated_by_owner"
   ],
   "note": "Invariant over all histories, read through the Ownership query."
  },
  {
   "property": "C03",
   "status": "proved",
   "theorems": [
    "C03_open_init_rejected",
    "C03_C04_no_difference"
   ],
   "note": "In every visited world, also while callback contracts run; removing such attempts from a history changes nothing."
  },
  {
   "property": "C04",
   "status": "proved",
   "theorems": [
    "C04_close_init_rejected",
    "C03_C04_no_difference"
   ],
   "note": "As C03, for CloseInit."
  },
  {
   "property": "C05",
   "status": "proved",
   "theorems": [
    "C05_one_request_one_handshake",
    "C05_counts"
   ],
   "note": "Per action and as a count over histories. Permanent closure is C53."
  },
  {
   "property": "C06",
   "status": "proved",
   "theorems": [
    "C06_own_message_accepted"
   ],
   "note": "For every store and options; the handler is run on the very message the contract emitted."
  },
  {
   "property": "C07",
   "status": "proved",
   "theorems": [
    "C07_open_init_message",
    "C62_C07_proposed_version"
   ],
   "note": "The emitted bytes are decoded by an independent protobuf reader (HostSpec.core_open_init). Messages of 2^64 bytes or more are excluded."
  },
  {
   "property": "C08",
   "status": "proved",
   "theorems": [
    "C08_create_uses_last_options",
    "C08_instantiate_uses_options"
   ],
   "note": "Options are read off the history (last Instantiate or CreateChannel with options), not the store; seen on the chain's new channel end."
  },
  {
   "property": "C09",
   "status": "proved",
   "theorems": [
    "C09_open_ack_any_store",
    "C09_open_ack"
   ],
   "note": "Exact acceptance condition, for every store and for every visited world."
  },
  {
   "property": "C10",
   "status": "proved",
   "theorems": [
    "C10_handshake_completes"
   ],
   "note": "A conforming host answers with the proposed metadata and an address; the answer's JSON text may be any that parses to it."
  },
  {
   "property": "C11",
   "status": "proved",
   "theorems": [
    "C11_queries_agree"
   ],
   "note": "Through the JSON answers of the two queries."
  },
  {
   "property": "C12",
   "status": "proved",
   "theorems": [
    "C12_no_create_while_open"
   ],
   "note": "The transaction fails (world unchanged by definition of a failing transaction)."
  },
  {
   "property": "C13",
   "status": "partial",
   "theorems": [
    "C13_cause_partial",
    "C13_never_replaces_refuted",
    "C13_never_replaces_partial",
    "C13_conforming_host_refuted"
   ],
   "note": "False of the code: on_acknowledgement does not look at the recorded channel (handshake.rs:145-202). Refuted with a history in which the owner asked for two channels before the first opened; proved when each handshake is started only after all earlier ones completed. The only cause: C13_cause_partial shows that the replacing handshake was under way when the replaced channel opened. Missing in the partial theorems: histories with two handshakes under way. The refutation is repeated with a conforming host."
  },
  {
   "property": "C14",
   "status": "proved",
   "theorems": [
    "C14_open_is_open"
   ],
   "note": "Holds although C13 and C15 fail."
  },
  {
   "property": "C15",
   "status": "partial",
   "theorems": [
    "C15_cause_partial",
    "C15_closed_is_closed_refuted",
    "C15_closed_is_closed_partial",
    "C15_conforming_host_refuted"
   ],
   "note": "False of the code: ibc_packet_timeout closes the recorded channel without checking that the packet was sent on it (relay.rs:52-65). Refuted with a history in which a packet of an earlier channel times out after reopening; proved when timeouts concern the recorded channel or that one is unordered. C15_cause_partial gives the exact condition, in terms of what happened since the channel opened. Missing in the partial theorems: late timeouts of earlier channels. The refutation is repeated with a conforming host."
  },
  {
   "property": "C16",
   "status": "proved",
   "theorems": [
    "C16_timeout_any_store",
    "C16_timeout"
   ],
   "note": "Exact frame on every store and on what GetChannel reports."
  },
  {
   "property": "C17",
   "status": "proved",
   "theorems": [
    "C17_owner_can_close",
    "C17_nothing_to_close"
   ],
   "note": "Success and effect for the owner; failure otherwise."
  },
  {
   "property": "C18",
   "status": "proved",
   "theorems": [
    "C18_reopen"
   ],
   "note": "Chain-side refusals (identifier, connection) are the input ok = true."
  },
  {
   "property": "C19",
   "status": "proved",
   "theorems": [
    "C19_one_packet",
    "C19_no_overflow",
    "C19_one_commitment"
   ],
   "note": "Entry point for every store; commitment on the chain in every visited world."
  },
  {
   "property": "C20",
   "status": "proved",
   "theorems": [
    "C20_packet_content"
   ],
   "note": "packet_spec (HostSpec) gives the meaning of each message; the host decoder is written independently of the contract's encoder."
  },
  {
   "property": "C21",
   "status": "proved",
   "theorems": [
    "C21_signed_by_account"
   ],
   "note": "Signer field of each decoded message; raw messages byte for byte."
  },
  {
   "property": "C22",
   "status": "proved",
   "theorems": [
    "C22_supported_iff",
    "C22_unsupported_aborts",
    "C22_owner_can_send"
   ],
   "note": "Exact acceptance condition; and in every visited world the owner's supported request succeeds if the channel end is open."
  },
  {
   "property": "C23",
   "status": "proved",
   "theorems": [
    "C23_nothing_lost",
    "C23_message"
   ],
   "note": "On whole packets and on single messages. same_msg identifies an absent optional field with its empty or zero value."
  },
  {
   "property": "C24",
   "status": "proved",
   "theorems": [
    "C24_amounts",
    "C24_weights",
    "C24_in_the_message"
   ],
   "note": "For all 128-bit values, also as they appear inside the protobuf messages."
  },
  {
   "property": "C25",
   "status": "proved",
   "theorems": [
    "C25_queries"
   ],
   "note": "Requests decoded by the host-side decoder."
  },
  {
   "property": "C26",
   "status": "proved",
   "theorems": [
    "C26_matched",
    "C26_every_callback"
   ],
   "note": "Over all histories, with everything read from the log; also in the form: every callback ever made satisfies it."
  },
  {
   "property": "C27",
   "status": "proved",
   "theorems": [
    "C27_type",
    "C27_stargate",
    "C27_callback_types"
   ],
   "note": "For all answer bytes."
  },
  {
   "property": "C28",
   "status": "proved",
   "theorems": [
    "C28_decoded",
    "C28_callback_shows"
   ],
   "note": "Validator commission rates are the subject of C52."
  },
  {
   "property": "C29",
   "status": "proved",
   "theorems": [
    "C29_any_paths",
    "C29_callback",
    "C29_C54_ack_accepted",
    "C29_no_params"
   ],
   "note": "For every list of paths and in every history; the texts for a wrong number of answers and for missing parameters are shown."
  },
  {
   "property": "C30",
   "status": "partial",
   "theorems": [
    "C30_only_with_queries_refuted",
    "C30_success_partial",
    "C30_conforming_host_refuted"
   ],
   "note": "False of the code: an error acknowledgement always carries query_result = Error (relay.rs:136-160). Refuted with a reachable history; proved for success acknowledgements, with the exact behaviour for errors. The refutation is repeated with a conforming host."
  },
  {
   "property": "C31",
   "status": "partial",
   "theorems": [
    "C31_cleaned_up_refuted",
    "C31_success_and_timeout_partial",
    "C31_exactly_partial",
    "C31_conforming_host_refuted"
   ],
   "note": "False of the code: an error acknowledgement leaves the pending entry in storage (relay.rs:136-160). Refuted with a reachable history; proved for success acknowledgements and timeouts, with the exact set of records kept (C31_exactly_partial). The refutation is repeated with a conforming host."
  },
  {
   "property": "C32",
   "status": "proved",
   "theorems": [
    "C32_no_scratch",
    "C32_records",
    "C32_sent_recorded"
   ],
   "note": "Invariant in every visited world."
  },
  {
   "property": "C33",
   "status": "proved",
   "theorems": [
    "C33_ack_response",
    "C33_timeout_response",
    "C33_open_response",
    "C33_ack",
    "C33_timeout",
    "C33_open",
    "C33_nothing_else_calls"
   ],
   "note": "Entry points for every store; effects on the log in every visited world; nothing else calls."
  },
  {
   "property": "C34",
   "status": "proved",
   "theorems": [
    "C34_roundtrip",
    "C34_tag",
    "C34_injective",
    "C34_every_call"
   ],
   "note": "Round trip through an independent JSON parser, and of every call ever made."
  },
  {
   "property": "C35",
   "status": "proved",
   "theorems": [
    "C35_aborts",
    "C35_no_trace",
    "C35_retry",
    "C35_stays"
   ],
   "note": "A failing callback leaves no trace in the rest of the history."
  },
  {
   "property": "C36",
   "status": "proved",
   "theorems": [
    "C36_event",
    "C36_response"
   ],
   "note": "wasmd prefixes the event type with 'wasm-'; the prefix is not modelled."
  },
  {
   "property": "C37",
   "status": "proved",
   "theorems": [
    "C37_result",
    "C37_result_all",
    "C37_error",
    "C37_only",
    "C37_rejected"
   ],
   "note": "Exact: which bytes are read as which acknowledgement."
  },
  {
   "property": "C38",
   "status": "proved",
   "theorems": [
    "C38_entry_points",
    "C38_no_effect"
   ],
   "note": "For every store and world."
  },
  {
   "property": "C39",
   "status": "proved",
   "theorems": [
    "C39_iff",
    "C39_once",
    "C39_same_release"
   ],
   "note": "Exact condition; the order on versions is specified independently (PropMigrate.older)."
  },
  {
   "property": "C40",
   "status": "proved",
   "theorems": [
    "C40_nothing_changes",
    "C40_unnoticed"
   ],
   "note": "Literal frame, and every later plain transaction behaves the same."
  },
  {
   "property": "C41",
   "status": "proved",
   "theorems": [
    "C41_update_only",
    "C41_update_succeeds",
    "C41_callbacks_follow"
   ],
   "note": "Entry point, success for the owner, and every later callback in the history."
  },
  {
   "property": "C42",
   "status": "proved",
   "theorems": [
    "C42_instantiate_any",
    "C42_instantiate",
    "C42_invalid_address",
    "C42_instantiate_succeeds"
   ],
   "note": "Exact condition and result."
  },
  {
   "property": "C43",
   "status": "proved",
   "theorems": [
    "C43_no_alias",
    "C43_save",
    "C43_remove",
    "C43_loads",
    "C43_held"
   ],
   "note": "Injectivity of keys, and loads of raw bytes equal the model's store in every visited world whose recorded version text is well formed."
  },
  {
   "property": "C44",
   "status": "proved",
   "theorems": [
    "C44_sent_by_owner",
    "C44_every_packet"
   ],
   "note": "Every commitment in every visited world goes back to such a transaction."
  },
  {
   "property": "C45",
   "status": "proved",
   "theorems": [
    "C45_resolved_once",
    "C45_only_own_packets"
   ],
   "note": "Counts over the log."
  },
  {
   "property": "C46",
   "status": "proved",
   "theorems": [
    "C46_state_queries",
    "C46_state_queries_any_store"
   ],
   "note": "Answers are functions of the history alone. GetChannel fails exactly until the first handshake completes."
  },
  {
   "property": "C47",
   "status": "proved",
   "theorems": [
    "C47_version_fallback"
   ],
   "note": "Entry point for every store (a relayer cannot reach it with the flag down, C03)."
  },
  {
   "property": "C48",
   "status": "proved",
   "theorems": [
    "C48_roundtrip",
    "C48_injective",
    "C48_decoded",
    "C48_unknown_fields",
    "C48_extra_field"
   ],
   "note": "One generic theorem for every well-formed descriptor; the 60-odd shapes used are checked to be well formed."
  },
  {
   "property": "C49",
   "status": "proved",
   "theorems": [
    "C49_records",
    "C49_distinct",
    "C49_callback",
    "C49_controllers",
    "C49_messages",
    "C49_admin"
   ],
   "note": "Histories of the owner contract; controllers it created may call back in any order."
  },
  {
   "property": "C50",
   "status": "proved",
   "theorems": [
    "C50_exact",
    "C50_accepts"
   ],
   "note": "For every sequence of calls, readable or not."
  },
  {
   "property": "C51",
   "status": "proved",
   "theorems": [
    "C51_execute",
    "C51_migrate",
    "C51_admin",
    "C51_instantiate",
    "C51_instantiate2",
    "C51_injective",
    "C51_runs",
    "C51_get_contract_state",
    "C51_get_channel",
    "C51_ownership"
   ],
   "note": "JSON bodies decode to the given message; queries through the chain's querier."
  },
  {
   "property": "C52",
   "status": "partial",
   "theorems": [
    "C52_rates_exact_refuted",
    "C52_scaled_partial",
    "C52_all_scaled_partial",
    "C52_conforming_host_refuted"
   ],
   "note": "False of the code: sdk.Dec is an integer scaled by 10^18 on the wire, the contract parses it as a plain decimal (query_msg.rs:436-441). Refuted; proved what is reported instead (10^18 times the rate). The refutation is repeated with a conforming host."
  },
  {
   "property": "C53",
   "status": "partial",
   "theorems": [
    "C53_cause_partial",
    "C53_permanent_closure_refuted",
    "C53_permanent_closure_partial",
    "C53_conforming_host_refuted"
   ],
   "note": "False of the code for the same reason as C13: a stale second handshake can be completed after the first channel was closed. Proved when no handshake is under way; otherwise only a handshake under way at the time can take its place (C53_cause_partial). The refutation is repeated with a conforming host."
  },
  {
   "property": "C54",
   "status": "proved",
   "theorems": [
    "C29_C54_ack_accepted",
    "C54_timeout_accepted"
   ],
   "note": "Exact acceptance condition in every visited world."
  },
  {
   "property": "C55",
   "status": "proved",
   "theorems": [
    "C55_reads",
    "C55_history"
   ],
   "note": "Every callback ever made by a controller."
  },
  {
   "property": "C56",
   "status": "proved",
   "theorems": [
    "C56_counts",
    "C56_once"
   ],
   "note": "Counter and controller coupled through the calls in the log."
  },
  {
   "property": "C57",
   "status": "proved",
   "theorems": [
    "C57_record",
    "C57_accepts"
   ],
   "note": "Owner contract and controller coupled: the owner contract has received the controller's calls so far."
  },
  {
   "property": "C58",
   "status": "partial",
   "theorems": [
    "C58_count_partial",
    "C58_count_refuted"
   ],
   "note": "False before the first controller is created: GetIcaCount fails because ICA_COUNT is not initialised (cw-ica-owner contract.rs:210-212). Proved afterwards."
  },
  {
   "property": "C59",
   "status": "partial",
   "theorems": [
    "C59_status_partial",
    "C59_status_refuted"
   ],
   "note": "False: closing makes no callback, so the example's record stays open. Proved while the controller reports an open channel."
  },
  {
   "property": "C60",
   "status": "proved",
   "theorems": [
    "C60_confirm_any_store",
    "C60_confirm",
    "C60_after"
   ],
   "note": "Exact acceptance condition and full effect."
  },
  {
   "property": "C61",
   "status": "partial",
   "theorems": [
    "C61_cause_partial",
    "C61_host_can_close_refuted",
    "C61_host_can_close_partial"
   ],
   "note": "False of the code, consequence of C13 and C15: an open channel that is not the recorded one, or is recorded closed, cannot be closed by the host. Proved when handshakes do not overlap and timeouts concern the recorded channel. In any case a refusal means that another channel was opened since, or a packet of another channel timed out meanwhile (C61_cause_partial)."
  },
  {
   "property": "C62",
   "status": "proved",
   "theorems": [
    "C68_C62_plain_read",
    "C62_messages_read",
    "C62_messages_sent",
    "C62_answers",
    "C62_callbacks",
    "C62_C07_proposed_version"
   ],
   "note": "The JSON a reader sees is specified in WireSpec and ReadSpec, field by field, without the codecs of the model: grammar of the text (TextSpec, C67), then fields. Covers whole messages with every Cosmos message and query inside, acknowledgements, metadata and callbacks."
  },
  {
   "property": "C63",
   "status": "proved",
   "theorems": [
    "C63_open_is_usable",
    "C63_reopen_and_use",
    "C63_owner_gets_to_send"
   ],
   "note": "The channel reported open is usable by C14 and C22; reopening is the composition of the two transactions, with every effect computed. Sequences and packets must fit the chain's bounds (64-bit sequence, packet below 2^32 bytes)."
  },
  {
   "property": "C64",
   "status": "proved",
   "theorems": [
    "C64_callback_state",
    "C64_send_in_callback"
   ],
   "note": "The state of the world at the moment of the call, then anything the callback contract does (C35_retry); sending from within the opening callback needs no bound, for no packet was sent on a fresh channel."
  },
  {
   "property": "C65",
   "status": "proved",
   "theorems": [
    "C65_sent_in_order",
    "C65_acknowledged_in_order",
    "C65_timeout_is_last"
   ],
   "note": "By induction over histories. That the chain enforces order is the model of ibc-go (Chain.v); the theorem is that this order reaches the callback contract."
  },
  {
   "property": "C66",
   "status": "proved",
   "theorems": [
    "C66_accounted",
    "C66_held_was_sent",
    "C66_balance"
   ],
   "note": "By induction over histories; the balance counts packets per channel."
  },
  {
   "property": "C67",
   "status": "proved",
   "theorems": [
    "C67_utf8",
    "C67_integers",
    "C67_decimals",
    "C67_base64",
    "C67_json"
   ],
   "note": "Each parser of the model is proved equivalent to a grammar in TextSpec, in both directions. serde_json_wasm itself is outside /repo: that its parser is this one is an assumption (sections 3 and 4)."
  },
  {
   "property": "C68",
   "status": "proved",
   "theorems": [
    "C68_C62_plain_read",
    "C68_callbacks",
    "C68_every_call",
    "C68_requests",
    "C68_packets",
    "C68_packets_supported"
   ],
   "note": "Features.v models the cfg(not(feature = \"query\")) variants of the request, the callback and from_cosmos_msgs. The build without staking is in C84."
  },
  {
   "property": "C69",
   "status": "proved",
   "theorems": [
    "C69_at",
    "C69_after_messages"
   ],
   "note": "response_at is stated on the host's Protobuf schemas. The controller itself uses the last index only; the index variant is library API."
  },
  {
   "property": "C70",
   "status": "proved",
   "theorems": [
    "C70_messages_read",
    "C70_answers",
    "C70_counter"
   ],
   "note": "Same method as C62: grammar of the text, then fields, without the codecs of the model."
  },
  {
   "property": "C71",
   "status": "proved",
   "theorems": [
    "C71_no_alias",
    "C71_save",
    "C71_loads"
   ],
   "note": "As C43 for the owner example. Addresses are the last part of their key, so they need no length bound."
  },
  {
   "property": "C72",
   "status": "proved",
   "theorems": [
    "C72_only_requested",
    "C72_once"
   ],
   "note": "Invariant of the two-chain system of Host.v (HostInv.sys_inv): ibc-go's host module and both core IBC modules, with relayers that may prove any past state."
  },
  {
   "property": "C73",
   "status": "proved",
   "theorems": [
    "C73_in_order"
   ],
   "note": "As C72."
  },
  {
   "property": "C74",
   "status": "proved",
   "theorems": [
    "C74_callbacks_true"
   ],
   "note": "As C72; 'never' is stated for every system that can follow."
  },
  {
   "property": "C75",
   "status": "proved",
   "theorems": [
    "C75_answers"
   ],
   "note": "As C72, with C26 and C28 on the controller's side."
  },
  {
   "property": "C76",
   "status": "partial",
   "theorems": [
    "C76_ack_accepted",
    "C76_concluded_partial",
    "C76_concluded_refuted"
   ],
   "note": "False of the code and the protocol: a packet the host has run, on a channel that was closed before the acknowledgement came back, can neither be acknowledged nor time out; CloseChannel (contract.rs) does not look at outstanding packets. Refuted with a reached system; proved the exact condition (channel open, or packet not handled), and that acknowledgements of a conforming host are always accepted. Missing in the partial theorem: closed channels with handled packets."
  },
  {
   "property": "C77",
   "status": "proved",
   "theorems": [
    "C77_account"
   ],
   "note": "As C72."
  },
  {
   "property": "C78",
   "status": "proved",
   "theorems": [
    "C78_closed_why",
    "C78_no_close_confirm"
   ],
   "note": "As C72. ibc-go's host refuses user-initiated closing, so its end closes only after the controller's."
  },
  {
   "property": "C79",
   "status": "proved",
   "theorems": [
    "C79_host_accepts"
   ],
   "note": "The host's message registry is an oracle that knows at least the messages of HostSpec (hcfg_ok)."
  },
  {
   "property": "C80",
   "status": "proved",
   "theorems": [
    "C80_opens"
   ],
   "note": "Enabledness in the two-chain system: HCloseConfirm if needed, then HTryOpen, AOpenAck, HConfirm succeed in turn."
  },
  {
   "property": "C81",
   "status": "proved",
   "theorems": [
    "C81_done_and_told"
   ],
   "note": "C79, then the acknowledgements of the packets before it, if the channel is ordered, then its own (settle_ack, induction on their number)."
  },
  {
   "property": "C82",
   "status": "partial",
   "theorems": [
    "C82_never_stuck_partial",
    "C82_never_stuck_refuted"
   ],
   "note": "Refuted: if two handshakes are completed and the host's active channel is the one the contract replaced, the account is out of reach once the other channel is closed; invariant over everything that can follow. Partial: close (if open), create, C80, send, C81, provided the host's active channel is closed or the one of the account the contract reports; a channel wrongly recorded as closed is closed with a packet that times out. The packet must be shorter than 2^32 bytes, as in C22. C85 says exactly when the account is lost."
  },
  {
   "property": "C83",
   "status": "proved",
   "theorems": [
    "C83_same_account"
   ],
   "note": "Invariant of the host: metadata and account of its channels are fixed by its end of the connection; the contract's version check ties them to the reported channel."
  },
  {
   "property": "C84",
   "status": "proved",
   "theorems": [
    "C84_requests",
    "C84_bare_requests",
    "C84_packets",
    "C84_packets_supported"
   ],
   "note": "Features.v models the builds without staking, with and without query. Callbacks and answers do not differ there: IcaQueryResponse is not gated by staking."
  },
  {
   "property": "C85",
   "status": "proved",
   "theorems": [
    "C85_lost",
    "C85_lost_runs",
    "C85_regained",
    "C85_either"
   ],
   "note": "Invariant over everything that can follow (`forsaken`) for the loss; for the way back, the relayers' steps that lead to a state where C82 applies. `C85_either`: the two descriptions are complementary unless the host's account is one the contract refuses, or the reported channel is open beside another active one (then C22 and C81 apply)."
  },
  {
   "property": "C86",
   "status": "proved",
   "theorems": [
    "C86_added",
    "C86_only_enums",
    "C86_every_callback",
    "C86_examples",
    "C86_name_needed"
   ],
   "note": "Induction on the list of variants. `C86_name_needed`: with a variant of that JSON name already there, no callback is read."
  },
  {
   "property": "C87",
   "status": "proved",
   "theorems": [
    "C87_why",
    "C87_aborts",
    "C87_otherwise",
    "C87_texts"
   ],
   "note": "The invariants of the history connect the store with the queries; each branch of execute is then compared with the list of reasons, in both directions."
  },
  {
   "property": "C88",
   "status": "proved",
   "theorems": [
    "C88_never",
    "C88_open_ack",
    "C88_close_confirm",
    "C88_timeout",
    "C88_ack"
   ],
   "note": "Entry points in the stores of histories. The reasons are stated with the queries' reports, the host's decoders and the log of sent packets; for the handshake each error is shown to name a real fault and success to mean there is none (which fault is named first is not part of the claim)."
  },
  {
   "property": "C89",
   "status": "proved",
   "theorems": [
    "C89_send",
    "C89_create",
    "C89_salt_once"
   ],
   "note": "Exact acceptance conditions from the invariant of the owner contract's histories; addresses on the chain never become free again, so a salt works once."
  },
  {
   "property": "C90",
   "status": "proved",
   "theorems": [
    "C90_single",
    "C90_example",
    "C90_no_way_back"
   ],
   "note": "The full claims of C13, C15, C53 and C61 under the one condition that no second channel was requested, from the exact causes of their exceptions: there is only one channel end, and all packets were sent on it. `C90_example`: the example owner contract only sends, so it stays the owner and nobody else may ask."
  },
  {
   "property": "C91",
   "status": "proved",
   "theorems": [
    "C91_why",
    "C91_current",
    "C91_reply"
   ],
   "note": "Both directions for every storage content, with an independent specification of semantic versions and their order; the previous version in the error is the text the crate's Display gives."
  }
 ]
}
