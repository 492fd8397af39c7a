{"id": "C01", "title": "Only the owner can act through execute", "statement": "An ExecuteMsg sent by an address that is not the current owner always fails: nothing in the contract's storage changes and no message is emitted. The single exception is UpdateOwnership(AcceptOwnership) sent by the currently nominated new owner.", "quantifier": "every contract state, every sender, every ExecuteMsg, every block", "why_tests_cant": "tests check one stranger against one message; the claim ranges over all senders, messages and histories", "anchors": ["src/contract.rs:execute", "src/contract.rs:create_channel/close_channel/send_cosmos_msgs/update_callback_address/update_ownership"]}
{"id": "C02", "title": "The contract always has exactly one owner and ownership moves only by proposal and timely acceptance", "statement": "After instantiation every reachable state has an owner. The owner returned by QueryMsg::Ownership changes only in a transaction in which the nominated address itself sends AcceptOwnership, before the expiry set with the nomination, and every nomination on record was made by the owner in force at that time. RenounceOwnership always fails.", "quantifier": "every history of transactions by any parties, every block height/time", "why_tests_cant": "needs an invariant over unbounded histories", "anchors": ["src/contract.rs:update_ownership", "src/contract.rs:instantiate"]}
{"id": "C03", "title": "Relayers can never open a channel on the contract's port", "statement": "Between transactions, a MsgChannelOpenInit submitted by anyone other than the contract itself is rejected and changes nothing, in every state reachable by any history.", "quantifier": "every reachable state of chain+contract, every channel parameters", "why_tests_cant": "the one-shot permission flag has to be proved clear at the end of every transaction of every history, including failing and re-entrant ones", "anchors": ["src/ibc/handshake.rs:ibc_channel_open::init", "src/types/state.rs:ALLOW_CHANNEL_OPEN_INIT", "src/contract.rs:instantiate", "src/contract.rs:create_channel"]}
{"id": "C04", "title": "Relayers can never close the channel", "statement": "Between transactions, a MsgChannelCloseInit submitted by anyone other than the contract itself is rejected and changes nothing, in every state reachable by any history.", "quantifier": "every reachable state of chain+contract, every channel", "why_tests_cant": "same: an invariant over every history", "anchors": ["src/ibc/handshake.rs:ibc_channel_close::init", "src/types/state.rs:ALLOW_CHANNEL_CLOSE_INIT", "src/contract.rs:close_channel"]}
{"id": "C05", "title": "One owner request opens one handshake", "statement": "Each successful instantiate or CreateChannel transaction creates exactly one channel end in INIT on the contract's port, and no other transaction creates one; over any history there are exactly as many channels as such requests.", "quantifier": "every history of transactions", "why_tests_cant": "counts events over unbounded histories", "anchors": ["src/contract.rs:instantiate", "src/contract.rs:create_channel", "src/ibc/handshake.rs:ibc_channel_open::init"]}
{"id": "C06", "title": "The contract's own MsgChannelOpenInit is always accepted by its own OpenInit handler", "statement": "For any connection ids whatsoever, the version string the contract writes into its MsgChannelOpenInit is parsed and validated by its ibc_channel_open entry point, and the handshake start succeeds exactly when the counterparty port is unset or icahost and no channel is recorded as open.", "quantifier": "all option values (arbitrary strings, including quotes, control and non-ASCII characters), all states", "why_tests_cant": "needs a proof that the JSON printer and parser agree on all strings", "anchors": ["src/ibc/types/stargate.rs:new_ica_channel_open_init_cosmos_msg", "src/ibc/types/metadata.rs:IcaMetadata", "src/ibc/handshake.rs:ibc_channel_open::init"]}
{"id": "C07", "title": "MsgChannelOpenInit carries exactly the requested channel", "statement": "The protobuf bytes emitted by instantiate and CreateChannel decode to: port wasm.<contract address>, state INIT, ordering as requested (ORDERED if unset), counterparty port as requested (icahost if unset) with empty channel id, exactly one connection hop as requested, the ICS-27 version metadata for the requested connections with empty address and proto3 encoding, signed by the contract.", "quantifier": "all contract addresses and option values", "why_tests_cant": "all-input statement about a byte encoding", "anchors": ["src/ibc/types/stargate.rs:new_ica_channel_open_init_cosmos_msg", "src/ibc/types/stargate.rs:new_msg_channel_open_init"]}
{"id": "C08", "title": "CreateChannel without options reuses the last options", "statement": "In any history, CreateChannel{None} uses the options of the last successful instantiate or CreateChannel{Some}; nothing else changes the options.", "quantifier": "every history", "why_tests_cant": "depends on the whole history", "anchors": ["src/contract.rs:create_channel", "src/types/state.rs:CHANNEL_OPEN_INIT_OPTIONS"]}
{"id": "C09", "title": "Channel open acknowledgement is accepted exactly for valid ICS-27 metadata", "statement": "ibc_channel_connect(OpenAck) succeeds iff the local port is not icahost and the counterparty version parses as ICS-27 metadata with version ics27-1, our connection id, proto3 encoding, tx type sdk_multi_msg and a non-empty alphanumeric address of at most 128 bytes; on success it records exactly that address, channel id and channel and makes the callback; otherwise nothing changes.", "quantifier": "every channel, every counterparty version string, every state", "why_tests_cant": "all-input decision rule", "anchors": ["src/ibc/handshake.rs:on_acknowledgement", "src/ibc/types/metadata.rs:IcaMetadata::validate", "src/ibc/types/metadata.rs:validate_ica_address"]}
{"id": "C10", "title": "The handshake completes with a conforming host", "statement": "If the host answers with the contract's proposed metadata with a valid account address filled in, the OpenAck succeeds and GetContractState then returns that address with the new channel id, and GetChannel the opened channel.", "quantifier": "all options, all valid addresses, all channel ids, all prior states", "why_tests_cant": "end-to-end over all inputs", "anchors": ["src/ibc/handshake.rs:on_acknowledgement", "src/ibc/types/stargate.rs:new_ica_channel_open_init_cosmos_msg"]}
{"id": "C11", "title": "GetContractState and GetChannel always agree", "statement": "In every reachable state: ica_info is set iff a channel is recorded; then the channel ids are equal, the encoding is proto3, the recorded channel version parses to metadata whose address is ica_info.ica_address, that address is non-empty, alphanumeric and at most 128 bytes, and the recorded status is OPEN or CLOSED.", "quantifier": "every history of transactions", "why_tests_cant": "invariant over unbounded histories", "anchors": ["src/ibc/handshake.rs", "src/types/state.rs", "src/contract.rs:query"]}
{"id": "C12", "title": "A new handshake cannot be started while a channel is recorded open", "statement": "While GetChannel reports STATE_OPEN, CreateChannel always fails as a transaction and leaves all state (including the saved options) unchanged.", "quantifier": "every reachable state, every options", "why_tests_cant": "depends on transaction atomicity over all states", "anchors": ["src/ibc/handshake.rs:ibc_channel_open::init", "src/contract.rs:create_channel"]}
{"id": "C13", "title": "A channel open acknowledgement never replaces an open channel", "statement": "The contract supports one active channel: an OpenAck that succeeds never overwrites a recorded channel that is still OPEN.", "quantifier": "every history of transactions", "why_tests_cant": "needs a search over handshake interleavings", "anchors": ["src/ibc/handshake.rs:on_acknowledgement"]}
{"id": "C14", "title": "A recorded OPEN channel is really open", "statement": "In every reachable state, if GetChannel reports STATE_OPEN then the IBC channel with that id on this chain is OPEN with the same ordering, connection, counterparty and version.", "quantifier": "every history of transactions, all relayer interleavings", "why_tests_cant": "joint invariant of chain and contract over all histories", "anchors": ["src/ibc/handshake.rs", "src/ibc/relay.rs:ibc_packet_timeout", "src/types/state.rs:CHANNEL_STATE"]}
{"id": "C15", "title": "A recorded CLOSED channel is really closed", "statement": "In every reachable state, if GetChannel reports STATE_CLOSED then the IBC channel with that id on this chain is not OPEN.", "quantifier": "every history of transactions, all relayer interleavings", "why_tests_cant": "needs the interleaving of an old packet's timeout with a reopened channel", "anchors": ["src/ibc/relay.rs:ibc_packet_timeout"]}
{"id": "C16", "title": "Packet timeout closes exactly ordered channels", "statement": "A successful timeout leaves the recorded channel untouched if it is unordered and marks it CLOSED (changing nothing else of it) if it is ordered; it forgets the timed-out packet's pending query and no other; nothing else in storage changes.", "quantifier": "every state, every packet and relayer", "why_tests_cant": "all-state frame condition", "anchors": ["src/ibc/relay.rs:ibc_packet_timeout"]}
{"id": "C17", "title": "The owner can always close an open channel", "statement": "In every reachable state where GetChannel reports OPEN, CloseChannel sent by the owner succeeds and afterwards both the contract and the chain report the channel CLOSED; when the recorded channel is not OPEN, or none is recorded, it fails and changes nothing.", "quantifier": "every reachable state", "why_tests_cant": "liveness from every reachable state, relies on the recorded channel equalling what the chain passes back", "anchors": ["src/contract.rs:close_channel", "src/ibc/handshake.rs:ibc_channel_close::init"]}
{"id": "C18", "title": "A closed channel can always be reopened by the owner", "statement": "In every reachable state where no channel is recorded OPEN, the owner's CreateChannel with icahost (or unset) counterparty port succeeds whenever the chain accepts the connection, and starts a new INIT channel.", "quantifier": "every reachable state, every options", "why_tests_cant": "liveness from every reachable state", "anchors": ["src/contract.rs:create_channel", "src/ibc/handshake.rs:ibc_channel_open::init"]}
{"id": "C19", "title": "SendCosmosMsgs emits exactly one packet on the recorded channel with the exact timeout", "statement": "A successful SendCosmosMsgs emits exactly one message, an IBC SendPacket on ica_info.channel_id whose timeout timestamp is exactly block time + timeout_seconds (600 if unset) seconds and has no height timeout; if that sum does not fit in 64-bit nanoseconds the call fails instead of wrapping.", "quantifier": "every state, block time, timeout, messages, queries", "why_tests_cant": "64-bit boundary behaviour over all inputs", "anchors": ["src/contract.rs:send_cosmos_msgs", "src/ibc/types/packet.rs:to_ibc_msg"]}
{"id": "C20", "title": "The packet carries exactly the requested messages", "statement": "Decoding the packet the way the host does (JSON, then protobuf CosmosTx) yields type 1, the requested memo, and, in order, one Any per requested message denoting that message field by field, followed by one MsgModuleQuerySafe iff queries were requested.", "quantifier": "all lists of messages and queries, memo, account address", "why_tests_cant": "all-input round trip through JSON and protobuf", "anchors": ["src/ibc/types/packet.rs:from_cosmos_msgs", "src/ibc/types/packet.rs:to_ibc_msg", "src/types/cosmos_msg.rs:convert_to_proto_any"]}
{"id": "C21", "title": "Every generated message is signed by the interchain account", "statement": "Every message the contract puts in a packet, other than raw Stargate messages, has its signer field equal to the interchain account address; Stargate messages are passed through byte for byte.", "quantifier": "all messages and queries, all account addresses", "why_tests_cant": "all-input statement over every message variant", "anchors": ["src/types/cosmos_msg.rs:convert_to_any", "src/ibc/types/packet.rs:from_cosmos_msgs"]}
{"id": "C22", "title": "Unsupported messages or queries abort the whole call", "statement": "If any message or query in SendCosmosMsgs is not supported, the call fails: nothing is sent and nothing is stored; conversely if all are supported (and the timeout fits) and the sender is the owner of an account, it succeeds.", "quantifier": "all lists of messages and queries, all states", "why_tests_cant": "all-input statement, including position of the bad element", "anchors": ["src/types/cosmos_msg.rs:convert_to_proto_any", "src/types/query_msg.rs:query_to_protobuf", "src/contract.rs:send_cosmos_msgs"]}
{"id": "C23", "title": "Message conversion loses nothing", "statement": "Two supported, non-Stargate messages converted for the same account give the same protobuf Any only if they are equal up to an absent optional field versus its empty or zero value.", "quantifier": "all pairs of messages", "why_tests_cant": "injectivity over all inputs", "anchors": ["src/types/cosmos_msg.rs:convert_to_proto_any"]}
{"id": "C24", "title": "Amounts and weights are written exactly", "statement": "Every 128-bit coin amount and every decimal vote weight is rendered to text that parses back to exactly the same number, for all values.", "quantifier": "all Uint128 and Decimal values", "why_tests_cant": "2^128 values", "anchors": ["src/types/cosmos_msg.rs:convert_to_any"]}
{"id": "C25", "title": "Queries are sent in order, signed by the account, with their own path and data", "statement": "The MsgModuleQuerySafe in the packet decodes to signer = account and requests which are, in order, path and protobuf request of each query.", "quantifier": "all lists of queries", "why_tests_cant": "all-input round trip", "anchors": ["src/ibc/types/packet.rs:from_cosmos_msgs", "src/types/query_msg.rs:query_to_protobuf"]}
{"id": "C26", "title": "Query answers are matched with the queries of the very packet they answer", "statement": "In every history, when a packet sent with queries qs is acknowledged with a success whose last message response carries one answer per query, the callback's query_result is computed from exactly the paths and flags of qs, in order, together with the answers and height in the acknowledgement, no matter what other packets, channels, reopenings or transactions came in between.", "quantifier": "every history, every interleaving of sends, acks, timeouts and reopenings", "why_tests_cant": "bookkeeping keyed by channel and sequence across unbounded histories", "anchors": ["src/ibc/relay.rs:ibc_packet_ack::success", "src/contract.rs:reply::send_query_packet", "src/types/state.rs:PENDING_QUERIES", "src/types/query_msg.rs:result_from_response"]}
{"id": "C27", "title": "Every query answer has the type of its query", "statement": "For every supported non-Stargate query, decoding any bytes at the path the contract sent for it yields either an error or a response of the variant belonging to that query; Stargate answers are returned unmodified with their path.", "quantifier": "all queries, all response bytes", "why_tests_cant": "all-input statement on two independently written tables", "anchors": ["src/types/query_msg.rs:query_to_protobuf", "src/types/query_msg.rs:from_protobuf::response"]}
{"id": "C28", "title": "Query answers decode to what the host encoded", "statement": "If the host's answer is the protobuf encoding of a balance list, supply, metadata, contract info, raw or smart state, delegation, validator or params response, the decoded answer contains exactly its fields, amounts included (validator commission rates are the subject of C52).", "quantifier": "all host responses of each type", "why_tests_cant": "all-input round trip", "anchors": ["src/types/query_msg.rs:from_protobuf"]}
{"id": "C29", "title": "Query results are all-or-nothing", "statement": "query_result is Success iff the number of answers equals the number of queries and every answer decodes; then it has one response per query in order and the host height; otherwise it is Error and the acknowledgement is still processed.", "quantifier": "all path lists and response lists", "why_tests_cant": "all-input decision rule", "anchors": ["src/types/query_msg.rs:result_from_response"]}
{"id": "C30", "title": "query_result is present only if the packet contained queries", "statement": "The acknowledgement callback contains a query_result iff the acknowledged packet was sent with queries (as documented).", "quantifier": "every history, success and error acknowledgements", "why_tests_cant": "relates a callback to a send arbitrarily far back", "anchors": ["src/ibc/relay.rs:ibc_packet_ack::success", "src/ibc/relay.rs:ibc_packet_ack::error", "docs/docs/contract-api/04-callbacks.mdx"]}
{"id": "C31", "title": "Query bookkeeping is cleaned up", "statement": "Once a query packet has been acknowledged or has timed out, the contract keeps no record of it.", "quantifier": "every history", "why_tests_cant": "leak freedom over unbounded histories", "anchors": ["src/ibc/relay.rs", "src/types/state.rs:PENDING_QUERIES"]}
{"id": "C32", "title": "The query scratch entry never leaks between transactions", "statement": "Between transactions there is never a half-recorded query: the temporary entry written by SendCosmosMsgs is always consumed by the reply of the same packet, so the recorded sequence always belongs to the recorded queries.", "quantifier": "every history, including re-entrant callbacks that send queries", "why_tests_cant": "re-entrancy and failure points over all histories", "anchors": ["src/contract.rs:reply::send_query_packet", "src/ibc/types/packet.rs:from_cosmos_msgs", "src/types/state.rs:QUERY"]}
{"id": "C33", "title": "Each lifecycle event makes exactly one callback to the configured address", "statement": "A successful acknowledgement, timeout or channel-open acknowledgement emits exactly one message, an execute of the configured callback contract without funds carrying the packet/channel, relayer and acknowledgement unchanged, and emits none if no callback address is configured.", "quantifier": "all states, packets, acknowledgements, relayers", "why_tests_cant": "all-input statement", "anchors": ["src/ibc/relay.rs", "src/ibc/handshake.rs:on_acknowledgement", "src/types/callbacks.rs"]}
{"id": "C34", "title": "The callback receiver decodes exactly what was sent", "statement": "The JSON bytes of every callback parse back (with the ReceiveIcaCallback message type) to exactly the same callback message.", "quantifier": "all callback messages, including arbitrary strings, bytes and query results", "why_tests_cant": "all-input JSON round trip", "anchors": ["src/types/callbacks.rs:into_json_binary", "derive/src/lib.rs"]}
{"id": "C35", "title": "A failing callback aborts the lifecycle event", "statement": "If the callback contract fails, the transaction changes nothing: the packet stays unacknowledged, the timeout is not recorded, the channel does not open, and it can be retried.", "quantifier": "every reachable state, every event", "why_tests_cant": "failure injection at every state", "anchors": ["src/ibc/relay.rs", "src/ibc/handshake.rs", "docs/docs/contract-api/04-callbacks.mdx"]}
{"id": "C36", "title": "Acknowledgement events identify the packet", "statement": "Every processed acknowledgement emits exactly one acknowledge_packet event with the packet's sequence, source port and source channel, and the base64 of the result (which decodes back to it) or the error text.", "quantifier": "all packets and acknowledgements", "why_tests_cant": "all-input statement", "anchors": ["src/ibc/types/events.rs", "src/ibc/relay.rs"]}
{"id": "C37", "title": "Acknowledgement parsing", "statement": "The acknowledgement bytes {\"result\":<base64>} and {\"error\":<text>} are recognised for all results and error texts; any other bytes are rejected and change nothing.", "quantifier": "all byte strings", "why_tests_cant": "all-input parser statement", "anchors": ["src/ibc/relay.rs:ibc_packet_ack", "src/ibc/types/packet.rs:acknowledgement::Data"]}
{"id": "C38", "title": "Controller-only: host-side entry points always abort", "statement": "Receiving a packet, OpenTry, OpenConfirm and a reply with an unknown id always fail and change nothing.", "quantifier": "all states and inputs", "why_tests_cant": "all-state statement", "anchors": ["src/ibc/handshake.rs", "src/ibc/relay.rs:ibc_packet_receive", "src/contract.rs:reply"]}
{"id": "C39", "title": "Migration only upgrades this contract", "statement": "Migrate succeeds iff the recorded contract name is crates.io:cw-ica-controller, the recorded version is valid semver strictly lower than the code's version, and the account (if any) uses proto3; it then only changes the recorded version. A second migration to the same code fails.", "quantifier": "all recorded names and version strings, all states", "why_tests_cant": "all version strings incl. pre-release and build metadata", "anchors": ["src/contract.rs:migrate::validate_semver", "src/contract.rs:migrate::validate_channel_encoding"]}
{"id": "C40", "title": "Migration preserves a reachable state", "statement": "Running migrate anywhere in a history preserves every other invariant and does not change owner, channel, account, callback address or pending queries.", "quantifier": "every history", "why_tests_cant": "history statement", "anchors": ["src/contract.rs:migrate"]}
{"id": "C41", "title": "UpdateCallbackAddress redirects later callbacks and nothing else", "statement": "It changes only the callback address, to a validated address or none, and every later callback goes to the address set last.", "quantifier": "every history", "why_tests_cant": "history statement", "anchors": ["src/contract.rs:update_callback_address"]}
{"id": "C42", "title": "Instantiation result", "statement": "Instantiation sets the owner to the requested (validated) address or to the sender, no account, no channel, the requested callback address, the given options, and fails if an address is invalid.", "quantifier": "all inputs", "why_tests_cant": "all-input statement", "anchors": ["src/contract.rs:instantiate"]}
{"id": "C43", "title": "Storage entries never alias", "statement": "No two distinct storage slots of the contract (items, or pending-query entries for any channel ids and sequences) share a raw storage key.", "quantifier": "all channel ids up to 65535 bytes and all 64-bit sequences", "why_tests_cant": "injectivity over all keys", "anchors": ["src/types/state.rs"]}
{"id": "C44", "title": "Packets are only ever sent on an open channel to the recorded account", "statement": "In every history every packet committed on chain was sent in a transaction by the then-owner on a channel that was OPEN at that time, and its messages are signed by the account address recorded for that channel.", "quantifier": "every history", "why_tests_cant": "history statement over chain and contract", "anchors": ["src/contract.rs:send_cosmos_msgs"]}
{"id": "C45", "title": "Each packet is resolved at most once", "statement": "In every history, for every channel and sequence at most one acknowledgement or timeout callback is made, and only for packets the contract sent.", "quantifier": "every history", "why_tests_cant": "history statement", "anchors": ["src/ibc/relay.rs"]}
{"id": "C46", "title": "State queries are faithful and pure", "statement": "GetContractState, GetChannel and Ownership return exactly the recorded state; GetChannel fails exactly until the first handshake completes.", "quantifier": "every reachable state", "why_tests_cant": "every history", "anchors": ["src/contract.rs:query"]}
{"id": "C47", "title": "The version fallback proposes only acceptable metadata", "statement": "When OpenInit arrives with an empty version the contract proposes either the previously negotiated metadata of the recorded channel or fresh metadata from the saved options, and only if it passes the same validation as an explicit version.", "quantifier": "all channels and states", "why_tests_cant": "all-input statement", "anchors": ["src/ibc/types/metadata.rs:from_channel", "src/ibc/handshake.rs:ibc_channel_open::init"]}
{"id": "C48", "title": "Protobuf encoding is lossless", "statement": "For every protobuf message shape used by the contract, decoding an encoded message gives back the message, and unknown fields are ignored.", "quantifier": "all messages of all shapes", "why_tests_cant": "all-input round trip", "anchors": ["prost-derived types used in src/types/cosmos_msg.rs", "src/types/query_msg.rs:proto"]}
{"id": "C49", "title": "Owner contract example keeps one record per controller", "statement": "In cw-ica-owner, account ids are assigned 0,1,2,..., each id maps to the controller address computed at its creation, and a callback only ever updates the record of the controller that sent it.", "quantifier": "every history of the owner contract", "why_tests_cant": "history statement", "anchors": ["testing/contracts/cw-ica-owner/src/contract.rs"]}
{"id": "C50", "title": "Callback counter example records every packet callback exactly once", "statement": "In callback-counter, after any sequence of callbacks the success, error and timeout lists are exactly the success, error and timeout callbacks received, in order.", "quantifier": "every sequence of callbacks", "why_tests_cant": "history statement", "anchors": ["testing/contracts/callback-counter/src/contract.rs", "testing/contracts/callback-counter/src/state.rs"]}
{"id": "C51", "title": "Helper constructors address the right contract with the right message", "statement": "CwIcaControllerContract/CwIcaControllerCode helpers build messages targeting the given contract or code id, without funds, whose JSON body decodes to the given message.", "quantifier": "all addresses, code ids and messages", "why_tests_cant": "all-input round trip", "anchors": ["src/helpers.rs"]}
{"id": "C52", "title": "Validator commission rates are reported exactly", "statement": "When a staking validator query is answered by the host, the commission, max commission and max change rate in the callback's query_result are the validator's actual rates.", "quantifier": "all validators with any rates", "why_tests_cant": "needs the meaning of the host's decimal encoding for all rates; the existing end-to-end tests only check that the query succeeds", "anchors": ["src/types/query_msg.rs:from_protobuf", "src/types/query_msg.rs:convert_to_validator"]}
{"id": "C53", "title": "Permanent closure", "statement": "Once the recorded channel is closed it stays closed, and no channel opens, until the owner sends CreateChannel, whatever relayers and callback contracts do.", "quantifier": "every closed state and every continuation without a new channel request", "why_tests_cant": "quantifies over all continuations and interleavings", "anchors": ["src/ibc/handshake.rs:ibc_channel_open::init", "src/ibc/handshake.rs:ibc_channel_open::on_acknowledgement", "src/contract.rs:create_channel"]}
{"id": "C54", "title": "The contract never gets stuck on an outstanding packet", "statement": "In every history, a timeout of an outstanding packet is never refused by the contract, and an acknowledgement of an outstanding packet that core IBC lets through is accepted iff it is a well-formed acknowledgement and, for a success of a packet sent with queries, a query-safe response can be read from the last message response. (So a host that answers a query packet with a success but without a readable query response makes the acknowledgement undeliverable.)", "quantifier": "every history, every outstanding packet, all acknowledgement bytes", "why_tests_cant": "Needs the invariant that the stored items read by the handlers are present and readable in every reachable state; tests try a few packets.", "anchors": ["src/ibc/relay.rs: ibc_packet_ack, ibc_packet_timeout", "src/types/query_msg.rs: result_from_response", "src/ibc/types/packet.rs:acknowledgement::Data::decode_module_query_safe_resp_last_index"]}
{"id": "C55", "title": "Callbacks are readable by contracts built without the query feature", "statement": "Every callback message a controller (built with the query feature) sends can be read by a receiving contract compiled without that feature, which sees the same message without the query result.", "quantifier": "all callback messages; every history of the controller", "why_tests_cant": "all-input compatibility of two wire formats; the repository never tests the two builds against each other", "anchors": ["src/types/callbacks.rs", "testing/contracts/cw-ica-owner/Cargo.toml", "derive/src/lib.rs"]}
{"id": "C56", "title": "Callback counter lists exactly the resolved packets", "statement": "For a callback-counter contract used as callback address by a controller, at any time its success, error and timeout lists are exactly the packets acknowledged with a result, acknowledged with an error and timed out while it was the callback address, in that order; no packet is listed twice and every listed packet was sent by the controller.", "quantifier": "every history of controller and counter", "why_tests_cant": "composition of two contracts over unbounded histories", "anchors": ["testing/contracts/callback-counter/src/contract.rs", "src/ibc/relay.rs", "src/types/callbacks.rs"]}
{"id": "C57", "title": "Owner contract's record follows the controller", "statement": "In cw-ica-owner, the record of a controller it created holds the channel that controller opened last and the account address it reports, and no callback of such a controller is refused.", "quantifier": "every pair of histories whose messages to each other agree", "why_tests_cant": "composition of two contracts over unbounded histories", "anchors": ["testing/contracts/cw-ica-owner/src/contract.rs", "src/ibc/handshake.rs"]}
{"id": "C58", "title": "Owner contract reports the number of controllers", "statement": "GetIcaCount of cw-ica-owner answers the number of controllers created so far.", "quantifier": "every history of the owner contract", "why_tests_cant": "history statement", "anchors": ["testing/contracts/cw-ica-owner/src/contract.rs"]}
{"id": "C59", "title": "Owner contract's record says whether the channel is open", "statement": "The channel status in cw-ica-owner's record of a controller is the status that controller reports.", "quantifier": "every pair of histories whose messages to each other agree", "why_tests_cant": "composition of two contracts over unbounded histories", "anchors": ["testing/contracts/cw-ica-owner/src/contract.rs", "src/ibc/relay.rs"]}
{"id": "C60", "title": "Close confirmations", "statement": "A close confirmation for a channel is accepted if and only if GetChannel reports that very channel as open. Afterwards GetChannel reports the same channel closed, the chain's end is closed, no message is sent, the other queries answer as before, and a second confirmation is refused.", "quantifier": "every reachable state of every history, every channel; at entry point level every store and channel", "why_tests_cant": "characterises acceptance in every reachable state", "anchors": ["src/ibc/handshake.rs: ibc_channel_close, ibc_on_channel_close_confirm", "src/types/state/channel.rs: ChannelState"]}
{"id": "C61", "title": "The host can always close", "statement": "A close confirmation for any channel of the contract that is open on the chain is accepted.", "quantifier": "every reachable state of every history, every open channel", "why_tests_cant": "needs all interleavings of handshakes, timeouts and closures; it is false", "anchors": ["src/ibc/handshake.rs: ibc_on_channel_close_confirm", "src/ibc/relay.rs: ibc_packet_timeout"]}
{"id": "C62", "title": "JSON of the interface", "statement": "The contract reads exactly the JSON its schema promises as instantiate, execute, query and migrate messages (fields in any order, optional ones absent or null, no field twice, no unknown field); answers to the queries and callback messages are the JSON documents with the promised keys and tags; the proposed channel version is the ICS-27 metadata object.", "quantifier": "every text, every message, every reachable state", "why_tests_cant": "ranges over all texts and values; both directions", "anchors": ["src/types/msg.rs: InstantiateMsg, ExecuteMsg, QueryMsg, MigrateMsg", "src/types/state.rs", "src/types/callbacks.rs", "src/types/query_msg.rs", "src/ibc/types/metadata.rs: IcaMetadata", "src/ibc/types/packet.rs: acknowledgement::Data"]}
{"id": "C63", "title": "The owner always gets to send", "statement": "While GetChannel reports an open channel, every supported SendCosmosMsgs request of the owner is accepted and puts one packet with exactly the requested messages on it. Otherwise two transactions suffice: the owner's CreateChannel with any valid options and the host's answer; after them GetContractState reports the host's account on the new channel, the callback address unchanged, and the owner's requests are accepted.", "quantifier": "every reachable state, every valid options, unused channel id, account address and request", "why_tests_cant": "liveness over all reachable states: tests try a handful", "anchors": ["src/contract.rs: execute::create_channel, execute::send_cosmos_msgs", "src/ibc/handshake.rs: ibc_channel_open, ibc_channel_connect"]}
{"id": "C64", "title": "A callback speaks of the state its receiver finds", "statement": "When the callback contract runs, the queries and the chain already agree with what it is told: after an opening the told account and channel are reported, open, and open on the chain; after an acknowledgement or a timeout the packet is no longer held by the chain; after a timeout an ordered channel is reported closed and its end is closed. An owner that is also the callback contract can send from within the opening callback.", "quantifier": "every reachable state, every opening, acknowledgement and timeout, every behaviour of the callback contract", "why_tests_cant": "depends on the order of state changes and calls in every reachable state; reentrancy", "anchors": ["src/ibc/handshake.rs: ibc_channel_open_ack", "src/ibc/relay.rs: ibc_packet_ack, ibc_packet_timeout", "src/types/callbacks.rs"]}
{"id": "C65", "title": "Order of packets and acknowledgements", "statement": "Packets of a channel are numbered 1, 2, ... in the order the owner sends them. On an ordered channel they are acknowledged 1, 2, ... without gaps, the callback contract is told of them in increasing order, and after a timeout no acknowledgement is accepted.", "quantifier": "every history, every channel", "why_tests_cant": "quantifies over all histories", "anchors": ["src/contract.rs: execute::send_cosmos_msgs", "src/ibc/relay.rs: ibc_packet_ack, ibc_packet_timeout"]}
{"id": "C66", "title": "Every packet is accounted for", "statement": "Every packet sent is either still held by the chain, or was acknowledged exactly once, or timed out exactly once, never two of these; the chain holds only packets that were sent; packets sent on a channel are as many as acknowledged, timed out and held together.", "quantifier": "every history, every channel and packet", "why_tests_cant": "conservation law over all histories", "anchors": ["src/contract.rs: execute::send_cosmos_msgs", "src/ibc/relay.rs: ibc_packet_ack, ibc_packet_timeout"]}
{"id": "C67", "title": "What counts as valid text", "statement": "A text is read as a JSON document exactly if the JSON grammar derives it, with the value the grammar gives it (strings in UTF-8 with escapes and surrogate pairs, blanks anywhere between tokens); a base64 text exactly if it is the 6-bit digits of the bytes, padded or not; amounts and heights exactly if decimal digits in range with an optional plus sign; decimals exactly if digits with at most 18 fractional digits.", "quantifier": "every text, every value", "why_tests_cant": "equivalence of a parser and a grammar over all texts; tests can only sample accepted and refused ones", "anchors": ["src/types/msg.rs: ExecuteMsg, InstantiateMsg", "src/ibc/types/metadata.rs: IcaMetadata", "src/ibc/types/packet.rs: acknowledgement::Data", "src/ibc/relay.rs: ibc_packet_ack"]}
{"id": "C68", "title": "Contracts built without the query feature are compatible", "statement": "A contract using this library without its query feature reads every callback the controller ever sends, with the same content except the query result; a request it writes is read by the controller as the same request with no queries; a request it can read, the controller reads the same way. The packets that library builds (with or without query) build are read by the host as exactly the requested messages, signed by the account, and are built exactly if every message and query has a Protobuf form.", "quantifier": "every JSON text, callback, request, message list, query list and history", "why_tests_cant": "two builds of the crate cannot be linked into one test; agreement is over all texts", "anchors": ["src/types/msg.rs: ExecuteMsg", "src/types/callbacks.rs: IcaControllerCallbackMsg", "src/ibc/types/packet.rs: IcaPacketData::from_cosmos_msgs", "Cargo.toml: features"]}
{"id": "C69", "title": "Query response at an index", "statement": "Decoding the query response at an index of an acknowledgement gives a height and answers exactly if the acknowledgement is a success whose transaction result holds at that index a response with these; a library user who sent n messages and then a query finds the answers at index n, which is also the last, and gets an error beyond.", "quantifier": "every acknowledgement, index and list of messages", "why_tests_cant": "quantifies over all byte strings the host may acknowledge with", "anchors": ["src/ibc/types/packet.rs: acknowledgement::Data::decode_module_query_safe_resp_at_index, decode_module_query_safe_resp_last_index"]}
{"id": "C70", "title": "JSON of the example contracts", "statement": "The owner and counter contracts accept exactly the JSON documents of their interface, and answer queries with exactly the documented JSON of what happened.", "quantifier": "every JSON text, every history", "why_tests_cant": "equivalence over all texts and all histories", "anchors": ["testing/contracts/cw-ica-owner/src/msg.rs: InstantiateMsg, ExecuteMsg, QueryMsg", "testing/contracts/cw-ica-owner/src/state.rs: ContractState, IcaContractState", "testing/contracts/callback-counter/src/msg.rs: ExecuteMsg, QueryMsg", "testing/contracts/callback-counter/src/state.rs: CallbackCounter"]}
{"id": "C71", "title": "Owner contract storage", "statement": "No two items of the owner contract share a storage key, a save changes one item only, and at any time a load returns what was saved.", "quantifier": "every index and address, every history", "why_tests_cant": "key collisions and unreadable values depend on all indices and addresses", "anchors": ["testing/contracts/cw-ica-owner/src/state.rs: STATE, ICA_STATES, ICA_COUNT, CONTRACT_ADDR_TO_ICA_ID", "testing/contracts/cw-ica-owner/src/contract.rs: execute::create_ica_contract, execute::ica_callback_handler"]}
{"id": "C72", "title": "The account does only what the owner asked", "statement": "With a conforming host chain, every message the interchain account runs was requested, in one SendCosmosMsgs, by whoever owned the contract at that moment: exactly the messages and queries of that request, in order, all signed by the account of that channel. No request is run twice.", "quantifier": "every history of both chains, any relaying order and delay", "why_tests_cant": "involves two chains, asynchronous relaying and every interleaving; no unit test contains a host chain", "anchors": ["src/contract.rs: execute::send_cosmos_msgs", "src/ibc/types/packet.rs: IcaPacketData::from_cosmos_msgs, to_ibc_msg", "src/types/cosmos_msg.rs: convert_to_proto_any"]}
{"id": "C73", "title": "Requests are run in the order they were made", "statement": "On an ordered channel the host handles a prefix of the packets sent, in the order they were sent and without gaps; on an unordered channel it handles each sent packet at most once and no others.", "quantifier": "every history of both chains", "why_tests_cant": "order of execution on another chain under arbitrary relaying", "anchors": ["src/contract.rs: execute::send_cosmos_msgs", "src/ibc/types/packet.rs: to_ibc_msg"]}
{"id": "C74", "title": "Callbacks tell the truth about the host", "statement": "A callback with a result means the host ran that very packet with that result; with an error, that it refused the packet and never runs it; with a timeout, that it has not handled the packet and never will; a channel callback reports the account the host gave to that channel.", "quantifier": "every history of both chains and every later state", "why_tests_cant": "a statement about all future states of another chain", "anchors": ["src/ibc/relay.rs: ibc_packet_ack, ibc_packet_timeout", "src/types/callbacks.rs: IcaControllerCallbackMsg", "src/ibc/handshake.rs: ibc_channel_connect"]}
{"id": "C75", "title": "Query answers are the host's answers", "statement": "If a packet had queries, a success callback for it shows, per query and in order, what the host answered when it ran that packet, with the height at which it answered; a conforming answer is never reported as an error.", "quantifier": "every history of both chains, every answer", "why_tests_cant": "end-to-end statement over all queries, answers and relaying orders", "anchors": ["src/ibc/relay.rs: ibc_packet_ack", "src/types/query_msg.rs: result_from_response, from_query_response"]}
{"id": "C76", "title": "Every request can be concluded", "statement": "Acknowledgements written by a conforming host are accepted in turn on an open channel, and every outstanding packet can still be acknowledged or time out, the callback contract being told.", "quantifier": "every history of both chains, every outstanding packet", "why_tests_cant": "reachability over two chains", "anchors": ["src/ibc/relay.rs: ibc_packet_ack, ibc_packet_timeout", "src/contract.rs: execute::close_channel"]}
{"id": "C77", "title": "The reported account exists on the host", "statement": "The address, channel, counterparty channel, version and ordering reported by GetContractState and GetChannel are those of a channel end on the host, which belongs to the contract's port and whose account is that address.", "quantifier": "every history of both chains", "why_tests_cant": "agreement of the state of two chains", "anchors": ["src/contract.rs: query::state, query::channel", "src/ibc/handshake.rs: ibc_channel_connect"]}
{"id": "C78", "title": "Only the owner or a timeout closes a channel", "statement": "With a conforming host, a channel of the contract is closed only if the owner at that time called CloseChannel or, if it is ordered, a packet timed out that the host never ran. No proof about the host makes the contract close its channel.", "quantifier": "every history of both chains", "why_tests_cant": "a statement about all interleavings of two chains", "anchors": ["src/contract.rs: execute::close_channel", "src/ibc/handshake.rs: ibc_channel_close", "src/ibc/relay.rs: ibc_packet_timeout"]}
{"id": "C79", "title": "The host accepts what the contract sends", "statement": "The packet of any request without raw (Stargate) messages, relayed in time and in turn on an open channel, passes the host's decoding and signature checks, and the host can run it with any responses and one answer per query.", "quantifier": "every history of both chains, every request, every response", "why_tests_cant": "all messages and queries, on both sides of the encoding", "anchors": ["src/ibc/types/packet.rs: IcaPacketData::from_cosmos_msgs", "src/types/cosmos_msg.rs: convert_to_proto_any", "src/types/query_msg.rs: query_to_protobuf"]}
{"id": "C80", "title": "A requested channel can be opened", "statement": "Every channel end the contract has requested, naming both ends of a connection to the host, and that is not yet open, can be opened with a conforming host if the host's active channel for the contract on that connection, if any, is closed on the contract's chain: with any unused host channel id, both ends are then open, GetContractState and GetChannel report the host's account and the channel, and the callback contract is told once.", "quantifier": "every history of both chains, every pending handshake", "why_tests_cant": "reachability from every history", "anchors": ["src/ibc/handshake.rs: ibc_channel_open, ibc_channel_connect", "src/ibc/types/metadata.rs: IcaMetadata::validate"]}
{"id": "C81", "title": "A request can be carried out and reported", "statement": "For the packet of any request without raw (Stargate) messages, on a channel open at both ends and in time and in turn, and for any responses of the host, there is a continuation in which the account runs exactly the requested messages and queries and the callback contract is told that result, with one answer per query.", "quantifier": "every history of both chains, every request, every response", "why_tests_cant": "reachability over two chains, all messages and responses", "anchors": ["src/contract.rs: execute::send_cosmos_msgs", "src/ibc/relay.rs: ibc_packet_ack", "src/types/callbacks.rs: IcaControllerCallbackMsg"]}
{"id": "C82", "title": "The contract never gets stuck", "statement": "From every state both chains can get into (channels closed by timeouts, unfinished handshakes, outstanding packets), as long as the contract has an owner, the owner can open a new channel to the account and have any supported request without raw messages carried out, with the result reported to the callback contract.", "quantifier": "every history of both chains, every owner, every supported request", "why_tests_cant": "reachability from every history", "anchors": ["src/contract.rs: execute::create_channel, execute::close_channel, execute::send_cosmos_msgs", "src/ibc/handshake.rs: ibc_channel_open, ibc_channel_connect, ibc_channel_close", "src/ibc/relay.rs: ibc_packet_ack"]}
{"id": "C83", "title": "The account stays the same", "statement": "With a conforming host, however often channels are closed by the owner or by timeouts and opened again, the contract reports the same account address whenever its channel is over the same connection.", "quantifier": "every history of both chains, every two moments of it", "why_tests_cant": "pairs of moments of unbounded histories, with any interleaving of handshakes", "anchors": ["src/ibc/handshake.rs: ibc_channel_connect, on_acknowledgement", "src/ibc/types/metadata.rs: IcaMetadata::new, IcaMetadata::validate", "src/types/state.rs: ContractState::set_ica_info"]}
{"id": "C84", "title": "Contracts built without the staking feature are compatible", "statement": "A contract using this library without its staking feature (with query, or without any default feature) writes requests the controller reads as the same request. Of the texts the controller reads as a request, it reads with the same content all that hold no staking or distribution message or query, and refuses the others. Packets built with it are read by the host as exactly the requested messages and queries, signed by the account, and are built exactly if each of them has a Protobuf form.", "quantifier": "every JSON text, request, message list and query list", "why_tests_cant": "builds of the crate with different features cannot be linked into one test; agreement is over all texts", "anchors": ["src/types/msg.rs: ExecuteMsg", "src/types/cosmos_msg.rs: convert_to_proto_any", "src/types/query_msg.rs: query_to_protobuf", "src/ibc/types/packet.rs: IcaPacketData::from_cosmos_msgs", "Cargo.toml: features", "testing/contracts/cw-ica-owner/Cargo.toml"]}
{"id": "C85", "title": "When an account is out of reach for good", "statement": "If on the host's end of a connection the active channel is still open on the contract's chain, no handshake is under way, no closed channel is still unconfirmed, and every open channel there is one the contract has replaced, without a packet that could time out and close it if it is the active one, then whatever anybody does the contract never sends another request to the account of that connection, and the host carries out nothing there but what was sent before. If on the other hand one of these ways is left, relayers can take it and the owner can then have any supported request without raw messages carried out and reported.", "quantifier": "every history of both chains, every continuation, every connection, every supported request", "why_tests_cant": "the loss is a statement about all continuations, the way back about all histories", "anchors": ["src/contract.rs: execute::create_channel, execute::close_channel, execute::send_cosmos_msgs", "src/ibc/handshake.rs: ibc_channel_connect", "src/ibc/relay.rs: ibc_packet_timeout", "src/types/state.rs: STATE, CHANNEL_STATE"]}
{"id": "C86", "title": "Contracts that use ica_callback_execute receive every callback", "statement": "Put on any enum none of whose variants has the JSON name receive_ica_callback, the macro compiles and gives an enum whose values are those of the enum before and the callback messages: JSON is read as a callback exactly if the controller's callback message can be read from it, as one of the enum's own values exactly if it was before, and both are written as before. So a contract made with it reads every callback the controller makes in any history, as the callback and as nothing else. The macro compiles on enums without arguments only. The messages of the two example contracts are what it gives.", "quantifier": "every enum (any number of variants of any kind and content), every text, every history of the controller", "why_tests_cant": "the enum is the user's: a test can expand the macro on a few enums only", "anchors": ["derive/src/lib.rs: ica_callback_execute, merge_variants", "src/helpers.rs: ica_callback_execute", "src/types/callbacks.rs: IcaControllerCallbackMsg", "testing/contracts/callback-counter/src/msg.rs: ExecuteMsg", "testing/contracts/cw-ica-owner/src/msg.rs: ExecuteMsg"]}
{"id": "C87", "title": "A refused request says why", "statement": "In every history, a call of execute returns an error exactly for one of these reasons, each with its own error: the sender is not the reported owner (not asked for accepting or renouncing); ownership cannot be renounced; the new owner or callback address is invalid; there is no offer of ownership, it is another's, or it has expired; there is no channel to close, or GetChannel reports it closed; there is no account to send to. It aborts exactly if the owner asks an existing account for something unsupported or for a timeout past the end of 64-bit time. In every other case it succeeds. The texts of the contract's own errors tell them apart and show their details: two errors with the same text are of the same kind, and of the same details if they expect the same. The status in the text of a refused CloseChannel is spelled as GetChannel spells it.", "quantifier": "every history, sender, time and execute message", "why_tests_cant": "tests try some failing calls; that there is no other failure, and that no cause hides behind the error of another, is about all states and requests", "anchors": ["src/contract.rs: execute, execute::create_channel, execute::close_channel, execute::send_cosmos_msgs, execute::update_ownership, execute::update_callback_address", "src/types/error.rs: ContractError", "src/types/state.rs: ChannelStatus (Display)"]}
{"id": "C88", "title": "A refused relayed event says why", "statement": "In every history: an opening or closing of a channel that the contract did not ask for is always refused with the error for that, whatever the channel; a step of the other side of a handshake and a packet sent to the contract abort. The end of a handshake succeeds if nothing is wrong with the host's version, and otherwise returns an error naming something that is wrong with it: not metadata, or its version, connection, encoding, transaction type or account address; a wrong version, encoding or transaction type is shown in the error. A closing by the other side is refused exactly if GetChannel reports no channel, another channel, or this one closed, each with its own error. A timeout is refused exactly if GetChannel reports no channel. An acknowledgement of an outstanding packet is refused exactly if it is no acknowledgement, or if queries were sent and its result is no transaction result, has no message response, or its last one is no query answer, with a decoding error exactly where bytes cannot be decoded. None of these abort.", "quantifier": "every history, channel, version, packet, relayer and acknowledgement bytes", "why_tests_cant": "tests try some bad versions and acknowledgements; that no other event is refused, that no error names something that is right, and that no bytes from the host make the contract abort, is about all bytes and states", "anchors": ["src/ibc/handshake.rs: ibc_channel_open, ibc_channel_connect, ibc_channel_close", "src/ibc/relay.rs: ibc_packet_ack, ibc_packet_timeout, ibc_packet_receive", "src/ibc/types/metadata.rs: IcaMetadata::validate", "src/ibc/types/packet.rs: acknowledgement::Data::decode_module_query_safe_resp_last_index"]}
{"id": "C89", "title": "Owner contract does what its admin asks", "statement": "In every history of the owner contract, a request for the predefined action is refused exactly if the sender is not the reported admin, no controller has that number, or the controller itself fails; otherwise that controller gets exactly one request to send 100 stake to the given address, and all queries answer as before. A request for a new controller is refused exactly if the sender is not the admin, the address for the salt cannot be computed or is taken, the new contract itself fails, or 2^64 controllers would be exceeded; otherwise it is created at that address with the requested channel, owned by and reporting to the owner contract, and listed under the next number. A salt works only once: in particular, without a salt at most one controller can be created per second of block time.", "quantifier": "every history, sender, time, salt, options, controller number and receiver", "why_tests_cant": "the end-to-end tests create a few controllers with well separated times; when creation is refused, and that nothing else ever is, is about all histories", "anchors": ["testing/contracts/cw-ica-owner/src/contract.rs: execute::create_ica_contract, execute::send_predefined_action", "testing/contracts/cw-ica-owner/src/state.rs: ContractState::verify_admin", "src/helpers.rs: CwIcaControllerCode::instantiate2"]}
{"id": "C90", "title": "A controller asked only once for a channel behaves without exceptions", "statement": "In every history in which the owner never asked for a second channel: a channel GetChannel reports closed is closed on the chain; while GetChannel reports a channel open, no handshake can complete and replace it; a channel open on the chain is the one GetChannel reports open, and the other side can close it; once GetChannel reports the channel closed it is reported closed ever after, and nothing is open on the chain. Every controller created by the example owner contract is such a controller. So once its channel is closed the example can never send another packet from that account.", "quantifier": "every history of a controller asked for one channel; every history of the example owner contract and a controller it created, every continuation of both", "why_tests_cant": "tests run some handshakes, closings and timeouts; that no order of events at all makes an exception, and that no continuation brings the account back, is about all histories", "anchors": ["src/ibc/handshake.rs: ibc_channel_open::on_acknowledgement, ibc_channel_close::confirm", "src/ibc/relay.rs: ibc_packet_timeout", "src/contract.rs: execute::create_channel, execute::close_channel", "testing/contracts/cw-ica-owner/src/contract.rs: execute"]}
{"id": "C91", "title": "A refused migration says why", "statement": "Whatever is in storage, migrate never aborts, and it returns an error exactly for one of these reasons, each with its own error: no contract name is recorded; the recorded name is another contract's (the error shows both); the recorded version is no semantic version; it is not lower than the code's (the error shows both); the contract state is missing; the account uses the proto3json encoding (the error shows it). In every history, a contract that this release created or migrated answers every migration to this release with 'invalid migration version: expected > 0.20.0, got 0.20.0'. A reply with an id the contract does not use is refused with an error showing the id.", "quantifier": "every content of storage; every history; every reply", "why_tests_cant": "tests try a few recorded versions; the order of versions with pre-releases and build metadata, and that there is no other failure, is about all texts and storage contents", "anchors": ["src/contract.rs: migrate, migrate::validate_semver, migrate::validate_channel_encoding, reply", "src/types/error.rs: ContractError", "src/ibc/types/metadata.rs: TxEncoding (Display)"]}
