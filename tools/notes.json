{
 "C01": "Decision theorem on the entry point for every store, and in every visited world: the transaction fails and the world is unchanged. 'Nothing changes' is literal equality of worlds.",
 "C02": "Invariant over all histories, read through the Ownership query.",
 "C03": "In every visited world, also while callback contracts run; removing such attempts from a history changes nothing.",
 "C04": "As C03, for CloseInit.",
 "C05": "Per action and as a count over histories. Permanent closure is C53.",
 "C06": "For every store and options; the handler is run on the very message the contract emitted.",
 "C07": "The emitted bytes are decoded by an independent protobuf reader (HostSpec.core_open_init). Messages of 2^64 bytes or more are excluded.",
 "C08": "Options are read off the history (last Instantiate or CreateChannel with options), not the store; seen on the chain's new channel end.",
 "C09": "Exact acceptance condition, for every store and for every visited world.",
 "C10": "A conforming host answers with the proposed metadata and an address; the answer's JSON text may be any that parses to it.",
 "C11": "Through the JSON answers of the two queries.",
 "C12": "The transaction fails (world unchanged by definition of a failing transaction).",
 "C13": "False of the code: on_acknowledgement does not look at the recorded channel (handshake.rs:145-202). Refuted with a history in which the owner asked for two channels before the first opened; proved when each handshake is started only after all earlier ones completed. The only cause: C13_cause_partial shows that the replacing handshake was under way when the replaced channel opened. Missing in the partial theorems: histories with two handshakes under way. The refutation is repeated with a conforming host.",
 "C14": "Holds although C13 and C15 fail.",
 "C15": "False of the code: ibc_packet_timeout closes the recorded channel without checking that the packet was sent on it (relay.rs:52-65). Refuted with a history in which a packet of an earlier channel times out after reopening; proved when timeouts concern the recorded channel or that one is unordered. C15_cause_partial gives the exact condition, in terms of what happened since the channel opened. Missing in the partial theorems: late timeouts of earlier channels. The refutation is repeated with a conforming host.",
 "C16": "Exact frame on every store and on what GetChannel reports.",
 "C17": "Success and effect for the owner; failure otherwise.",
 "C18": "Chain-side refusals (identifier, connection) are the input ok = true.",
 "C19": "Entry point for every store; commitment on the chain in every visited world.",
 "C20": "packet_spec (HostSpec) gives the meaning of each message; the host decoder is written independently of the contract's encoder.",
 "C21": "Signer field of each decoded message; raw messages byte for byte.",
 "C22": "Exact acceptance condition; and in every visited world the owner's supported request succeeds if the channel end is open.",
 "C23": "On whole packets and on single messages. same_msg identifies an absent optional field with its empty or zero value.",
 "C24": "For all 128-bit values, also as they appear inside the protobuf messages.",
 "C25": "Requests decoded by the host-side decoder.",
 "C26": "Over all histories, with everything read from the log; also in the form: every callback ever made satisfies it.",
 "C27": "For all answer bytes.",
 "C28": "Validator commission rates are the subject of C52.",
 "C29": "For every list of paths and in every history; the texts for a wrong number of answers and for missing parameters are shown.",
 "C30": "False of the code: an error acknowledgement always carries query_result = Error (relay.rs:136-160). Refuted with a reachable history; proved for success acknowledgements, with the exact behaviour for errors. The refutation is repeated with a conforming host.",
 "C31": "False of the code: an error acknowledgement leaves the pending entry in storage (relay.rs:136-160). Refuted with a reachable history; proved for success acknowledgements and timeouts, with the exact set of records kept (C31_exactly_partial). The refutation is repeated with a conforming host.",
 "C32": "Invariant in every visited world.",
 "C33": "Entry points for every store; effects on the log in every visited world; nothing else calls.",
 "C34": "Round trip through an independent JSON parser, and of every call ever made.",
 "C35": "A failing callback leaves no trace in the rest of the history.",
 "C36": "wasmd prefixes the event type with 'wasm-'; the prefix is not modelled.",
 "C37": "Exact: which bytes are read as which acknowledgement.",
 "C38": "For every store and world.",
 "C39": "Exact condition; the order on versions is specified independently (PropMigrate.older).",
 "C40": "Literal frame, and every later plain transaction behaves the same.",
 "C41": "Entry point, success for the owner, and every later callback in the history.",
 "C42": "Exact condition and result.",
 "C43": "Injectivity of keys, and loads of raw bytes equal the model's store in every visited world whose recorded version text is well formed.",
 "C44": "Every commitment in every visited world goes back to such a transaction.",
 "C45": "Counts over the log.",
 "C46": "Answers are functions of the history alone. GetChannel fails exactly until the first handshake completes.",
 "C47": "Entry point for every store (a relayer cannot reach it with the flag down, C03).",
 "C48": "One generic theorem for every well-formed descriptor; the 60-odd shapes used are checked to be well formed.",
 "C49": "Histories of the owner contract; controllers it created may call back in any order.",
 "C50": "For every sequence of calls, readable or not.",
 "C51": "JSON bodies decode to the given message; queries through the chain's querier.",
 "C52": "False of the code: sdk.Dec is an integer scaled by 10^18 on the wire, the contract parses it as a plain decimal (query_msg.rs:436-441). Refuted; proved what is reported instead (10^18 times the rate). The refutation is repeated with a conforming host.",
 "C53": "False of the code for the same reason as C13: a stale second handshake can be completed after the first channel was closed. Proved when no handshake is under way; otherwise only a handshake under way at the time can take its place (C53_cause_partial). The refutation is repeated with a conforming host.",
 "C54": "Exact acceptance condition in every visited world.",
 "C55": "Every callback ever made by a controller.",
 "C56": "Counter and controller coupled through the calls in the log.",
 "C57": "Owner contract and controller coupled: the owner contract has received the controller's calls so far.",
 "C58": "False before the first controller is created: GetIcaCount fails because ICA_COUNT is not initialised (cw-ica-owner contract.rs:210-212). Proved afterwards.",
 "C59": "False: closing makes no callback, so the example's record stays open. Proved while the controller reports an open channel.",
 "C60": "Exact acceptance condition and full effect.",
 "C61": "False of the code, consequence of C13 and C15: an open channel that is not the recorded one, or is recorded closed, cannot be closed by the host. Proved when handshakes do not overlap and timeouts concern the recorded channel. In any case a refusal means that another channel was opened since, or a packet of another channel timed out meanwhile (C61_cause_partial).",
 "C62": "The JSON a reader sees is specified in WireSpec and ReadSpec, field by field, without the codecs of the model: grammar of the text (TextSpec, C67), then fields. Covers whole messages with every Cosmos message and query inside, acknowledgements, metadata and callbacks.",
 "C63": "The channel reported open is usable by C14 and C22; reopening is the composition of the two transactions, with every effect computed. Sequences and packets must fit the chain's bounds (64-bit sequence, packet below 2^32 bytes).",
 "C64": "The state of the world at the moment of the call, then anything the callback contract does (C35_retry); sending from within the opening callback needs no bound, for no packet was sent on a fresh channel.",
 "C65": "By induction over histories. That the chain enforces order is the model of ibc-go (Chain.v); the theorem is that this order reaches the callback contract.",
 "C66": "By induction over histories; the balance counts packets per channel.",
 "C67": "Each parser of the model is proved equivalent to a grammar in TextSpec, in both directions. serde_json_wasm itself is outside /repo: that its parser is this one is an assumption (sections 3 and 4).",
 "C68": "Features.v models the cfg(not(feature = \"query\")) variants of the request, the callback and from_cosmos_msgs. The build without staking is in C84.",
 "C69": "response_at is stated on the host's Protobuf schemas. The controller itself uses the last index only; the index variant is library API.",
 "C70": "Same method as C62: grammar of the text, then fields, without the codecs of the model.",
 "C71": "As C43 for the owner example. Addresses are the last part of their key, so they need no length bound.",
 "C72": "Invariant of the two-chain system of Host.v (HostInv.sys_inv): ibc-go's host module and both core IBC modules, with relayers that may prove any past state.",
 "C73": "As C72.",
 "C74": "As C72; 'never' is stated for every system that can follow.",
 "C75": "As C72, with C26 and C28 on the controller's side.",
 "C76": "False of the code and the protocol: a packet the host has run, on a channel that was closed before the acknowledgement came back, can neither be acknowledged nor time out; CloseChannel (contract.rs) does not look at outstanding packets. Refuted with a reached system; proved the exact condition (channel open, or packet not handled), and that acknowledgements of a conforming host are always accepted. Missing in the partial theorem: closed channels with handled packets.",
 "C77": "As C72.",
 "C78": "As C72. ibc-go's host refuses user-initiated closing, so its end closes only after the controller's.",
 "C79": "The host's message registry is an oracle that knows at least the messages of HostSpec (hcfg_ok).",
 "C80": "Enabledness in the two-chain system: HCloseConfirm if needed, then HTryOpen, AOpenAck, HConfirm succeed in turn.",
 "C81": "C79, then the acknowledgements of the packets before it, if the channel is ordered, then its own (settle_ack, induction on their number).",
 "C82": "Refuted: if two handshakes are completed and the host's active channel is the one the contract replaced, the account is out of reach once the other channel is closed; invariant over everything that can follow. Partial: close (if open), create, C80, send, C81, provided the host's active channel is closed or the one of the account the contract reports; a channel wrongly recorded as closed is closed with a packet that times out. The packet must be shorter than 2^32 bytes, as in C22. C85 says exactly when the account is lost.",
 "C83": "Invariant of the host: metadata and account of its channels are fixed by its end of the connection; the contract's version check ties them to the reported channel.",
 "C84": "Features.v models the builds without staking, with and without query. Callbacks and answers do not differ there: IcaQueryResponse is not gated by staking.",
 "C85": "Invariant over everything that can follow (`forsaken`) for the loss; for the way back, the relayers' steps that lead to a state where C82 applies. `C85_either`: the two descriptions are complementary unless the host's account is one the contract refuses, or the reported channel is open beside another active one (then C22 and C81 apply).",
 "C86": "Induction on the list of variants. `C86_name_needed`: with a variant of that JSON name already there, no callback is read.",
 "C87": "The invariants of the history connect the store with the queries; each branch of execute is then compared with the list of reasons, in both directions.",
 "C88": "Entry points in the stores of histories. The reasons are stated with the queries' reports, the host's decoders and the log of sent packets; for the handshake each error is shown to name a real fault and success to mean there is none (which fault is named first is not part of the claim).",
 "C89": "Exact acceptance conditions from the invariant of the owner contract's histories; addresses on the chain never become free again, so a salt works once.",
 "C90": "The full claims of C13, C15, C53 and C61 under the one condition that no second channel was requested, from the exact causes of their exceptions: there is only one channel end, and all packets were sent on it. `C90_example`: the example owner contract only sends, so it stays the owner and nobody else may ask.",
 "C91": "Both directions for every storage content, with an independent specification of semantic versions and their order; the previous version in the error is the text the crate's Display gives."
}