(** * Types: the cosmwasm_std and contract types that cross the interface.

    The cosmwasm_std types are those of version 2.1 with the features the
    crate enables (Cargo.toml:44-47: "cosmwasm_1_4", "stargate", and "staking"
    through the default features). *)

From Verif Require Import Base.
Local Open Scope string_scope.

(** ** Results of entry points *)

(** ContractError, src/types/error.rs:10-106.  Texts of library errors are
    not modelled ([EStd] stands for every [StdError]). *)
Inductive cerr :=
| EStd                              (* 12 *)
| EProstDecode                      (* 27 *)
| ESemver                           (* 30 *)
| EOwnership (e : own_err)          (* 33 *)
| EBufany                           (* 36 *)
| EOwnershipCannotBeRenounced       (* 39 *)
| EInvalidMigrationVersion (expected actual : string)   (* 45 *)
| EInvalidHostPort                  (* 51 *)
| EInvalidControllerPort            (* 54 *)
| EInvalidVersion (expected actual : string)            (* 57 *)
| EChannelOpenInitNotAllowed        (* 60 *)
| EChannelCloseInitNotAllowed       (* 63 *)
| EInvalidIcaAddress                (* 69 *)
| EUnsupportedTxType (x : string)   (* 72 *)
| EInvalidConnection                (* 75 *)
| EUnknownDataType (x : string)     (* 78 *)
| EActiveChannelAlreadySet          (* 81 *)
| EInvalidChannelInContractState    (* 84 *)
| EIcaInfoNotSet                    (* 87 *)
| ENoChannelInitOptions             (* 90 *)
| EInvalidChannelStatus (expected actual : string)      (* 93 *)
| EUnsupportedPacketEncoding (x : string)               (* 99 *)
| EEmptyResponse (x : string)       (* 102 *)
| EUnknownReplyId (id : N)          (* 105 *)
(** cw_ownable::OwnershipError (src/types/error.rs:33.) *)
with own_err :=
| ONoOwner | ONotOwner | ONotPendingOwner | OTransferNotFound | OTransferExpired | OStd.

(** A call returns, returns an error, or aborts the VM (a Rust panic).
    ([Result<_, ContractError>], src/types/error.rs:10-106, e.g. src/contract.rs:20.) *)
Inductive outcome (A : Type) :=
| Ok (a : A)
| Err (e : cerr)
| Panic.
Arguments Ok {A}. Arguments Err {A}. Arguments Panic {A}.

(** The [?] operator, e.g. src/contract.rs:21. *)
Definition bindo {A B} (o : outcome A) (f : A -> outcome B) : outcome B :=
  match o with Ok a => f a | Err e => Err e | Panic => Panic end.
Notation "x <- e ;; k" := (bindo e (fun x => k))
  (at level 61, e at next level, right associativity).
Notation "' p <- e ;; k" := (bindo e (fun p => k))
  (at level 61, p pattern, e at next level, right associativity).

(** [Option::ok_or], e.g. src/contract.rs:150, src/types/state.rs:81-85. *)
Definition of_option {A} (o : option A) (e : cerr) : outcome A :=
  match o with Some a => Ok a | None => Err e end.

(** [Option<Result<T,E>>::transpose]
    (src/contract.rs:29, 256; src/ibc/relay.rs:112; src/types/query_msg.rs:586, 617.) *)
Definition otranspose {A} (o : option (outcome A)) : outcome (option A) :=
  match o with
  | None => Ok None
  | Some (Ok a) => Ok (Some a)
  | Some (Err e) => Err e
  | Some Panic => Panic
  end.

(** [iter().map(f).collect::<Result<Vec<_>,_>>()]
    (src/ibc/types/packet.rs:92-98, src/types/query_msg.rs:46-50, 484-487, 593-596.) *)
Fixpoint mapo {A B} (f : A -> outcome B) (l : list A) : outcome (list B) :=
  match l with
  | [] => Ok []
  | x :: r => y <- f x ;; ys <- mapo f r ;; Ok (y :: ys)
  end.

Lemma bindo_ok {A B} (o : outcome A) (f : A -> outcome B) b :
  bindo o f = Ok b <-> exists a, o = Ok a /\ f a = Ok b.
Proof.
  destruct o as [a|e|]; cbn; split.
  - intro H; exists a; auto.
  - intros (x & Hx & Hf). now inversion Hx; subst.
  - discriminate.
  - intros (x & Hx & _). discriminate.
  - discriminate.
  - intros (x & Hx & _). discriminate.
Qed.

(** ** cosmwasm_std: coins, IBC *)

(** cosmwasm_std::Coin (src/types/cosmos_msg.rs:91-94, src/types/query_msg.rs:396-401) *)
Record coin := Coin { c_denom : string; c_amount : N }.       (* Uint128 amount *)

(** (src/types/msg.rs:117, src/types/state.rs:195.) *)
Inductive order := Ordered | Unordered.                        (* IbcOrder *)
(** (src/types/msg.rs:117, src/types/state.rs:195.) *)
Definition order_eqb (a b : order) : bool :=
  match a, b with Ordered, Ordered | Unordered, Unordered => true | _, _ => false end.

(** cosmwasm_std::IbcEndpoint (src/ibc/handshake.rs:111, 155, 176). *)
Record endpoint := Endpoint { e_port : string; e_chan : string }.

(** IbcChannel (src/ibc/handshake.rs:99, 147; src/types/state.rs:166.) *)
Record channel := Channel {
  ch_endpoint : endpoint;
  ch_counterparty : endpoint;
  ch_order : order;
  ch_version : string;
  ch_connection : string
}.

(** IbcTimeout, IbcTimeoutBlock; timestamps are nanoseconds (u64)
    (src/types/cosmos_msg.rs:118-122, src/ibc/types/packet.rs:184-191.) *)
Record timeout_block := TimeoutBlock { tb_revision : N; tb_height : N }.
(** (src/types/cosmos_msg.rs:118-122, src/ibc/types/packet.rs:184-191.) *)
Record timeout := Timeout { to_block : option timeout_block; to_timestamp : option N }.

(** IbcPacket (src/ibc/relay.rs:34, 37, 64; src/types/callbacks.rs:33, 45.) *)
Record packet := Packet {
  p_data : string;
  p_src : endpoint;
  p_dest : endpoint;
  p_seq : N;
  p_timeout : timeout
}.

(** [PartialEq for IbcEndpoint], part of the comparison at src/ibc/handshake.rs:222, 245. *)
Definition endpoint_eqb (a b : endpoint) : bool :=
  String.eqb (e_port a) (e_port b) && String.eqb (e_chan a) (e_chan b).

(** [PartialEq for IbcChannel] (src/ibc/handshake.rs:222, 245.) *)
Definition channel_eqb (a b : channel) : bool :=
  endpoint_eqb (ch_endpoint a) (ch_endpoint b)
  && endpoint_eqb (ch_counterparty a) (ch_counterparty b)
  && order_eqb (ch_order a) (ch_order b)
  && String.eqb (ch_version a) (ch_version b)
  && String.eqb (ch_connection a) (ch_connection b).

Lemma endpoint_eqb_spec a b : endpoint_eqb a b = true <-> a = b.
Proof.
  destruct a as [p c], b as [p' c']. unfold endpoint_eqb; cbn.
  rewrite andb_true_iff, !String.eqb_eq. split; [intros [-> ->]; reflexivity|].
  intro H; inversion H; auto.
Qed.

Lemma channel_eqb_spec a b : channel_eqb a b = true <-> a = b.
Proof.
  destruct a, b. unfold channel_eqb; cbn.
  rewrite !andb_true_iff, !String.eqb_eq, !endpoint_eqb_spec. split.
  - intros ((((-> & ->) & H) & ->) & ->).
    destruct ch_order0, ch_order1; try discriminate; reflexivity.
  - intro H; inversion H; subst. destruct ch_order1; auto 6.
Qed.

(** ** cosmwasm_std: messages *)

(** cosmwasm_std::BankMsg (src/types/cosmos_msg.rs:84-99). *)
Inductive bank_msg :=
| BankSend (to_address : string) (amount : list coin)
| BankBurn (amount : list coin).

(** cosmwasm_std::IbcMsg (src/types/cosmos_msg.rs:101-127; built at src/contract.rs:182-184,
    src/ibc/types/packet.rs:188-192). *)
Inductive ibc_msg :=
| IbcTransfer (channel_id to_address : string) (amount : coin) (t : timeout) (memo : option string)
| IbcSendPacket (channel_id : string) (data : string) (t : timeout)
| IbcCloseChannel (channel_id : string).

(** cosmwasm_std::WasmMsg (src/types/cosmos_msg.rs:129-214; built at
    src/types/callbacks.rs:82-88, src/helpers.rs:53-183). *)
Inductive wasm_msg :=
| WasmExecute (contract_addr msg : string) (funds : list coin)
| WasmInstantiate (admin : option string) (code_id : N) (msg : string) (funds : list coin) (label : string)
| WasmInstantiate2 (admin : option string) (code_id : N) (label msg : string) (funds : list coin) (salt : string)
| WasmMigrate (contract_addr : string) (new_code_id : N) (msg : string)
| WasmUpdateAdmin (contract_addr admin : string)
| WasmClearAdmin (contract_addr : string).

(** cosmwasm_std::VoteOption (src/types/cosmos_msg.rs:217-224). *)
Inductive vote_option := VoteYes | VoteNo | VoteAbstain | VoteNoWithVeto.

(** The weight is a [Decimal]: a number of 10^-18 units. (src/types/cosmos_msg.rs:239-247.) *)
Record weighted_vote := WeightedVote { wv_option : vote_option; wv_weight : N }.

(** cosmwasm_std::GovMsg (src/types/cosmos_msg.rs:226-256). *)
Inductive gov_msg :=
| GovVote (proposal_id : N) (option : vote_option)
| GovVoteWeighted (proposal_id : N) (options : list weighted_vote).

(** cosmwasm_std::StakingMsg (src/types/cosmos_msg.rs:260-299). *)
Inductive staking_msg :=
| StDelegate (validator : string) (amount : coin)
| StUndelegate (validator : string) (amount : coin)
| StRedelegate (src_validator dst_validator : string) (amount : coin).

(** cosmwasm_std::DistributionMsg (src/types/cosmos_msg.rs:302-330). *)
Inductive dist_msg :=
| DistSetWithdrawAddress (address : string)
| DistWithdrawReward (validator : string)
| DistFundCommunityPool (amount : list coin).

(** cosmwasm_std::CosmosMsg (src/types/cosmos_msg.rs:38-57, src/types/msg.rs:49). *)
Inductive cosmos_msg :=
| MBank (m : bank_msg)
| MCustom                                        (* Custom(Empty) *)
| MStaking (m : staking_msg)
| MDistribution (m : dist_msg)
| MStargate (type_url value : string)
| MIbc (m : ibc_msg)
| MWasm (m : wasm_msg)
| MGov (m : gov_msg).

(** ** cosmwasm_std: queries *)

(** cosmwasm_std::PageRequest (src/types/query_msg.rs:254-260). *)
Record page_request := PageReq { pg_key : option string; pg_limit : N; pg_reverse : bool }.

(** cosmwasm_std::BankQuery (src/types/query_msg.rs:232-275). *)
Inductive bank_query :=
| QSupply (denom : string)
| QBalance (address denom : string)
| QAllBalances (address : string)
| QDenomMetadata (denom : string)
| QAllDenomMetadata (pagination : option page_request).

(** cosmwasm_std::WasmQuery (src/types/query_msg.rs:277-310). *)
Inductive wasm_query :=
| QSmart (contract_addr msg : string)
| QRaw (contract_addr key : string)
| QContractInfo (contract_addr : string)
| QCodeInfo (code_id : N).

(** cosmwasm_std::StakingQuery (src/types/query_msg.rs:313-365). *)
Inductive staking_query :=
| QBondedDenom
| QAllDelegations (delegator : string)
| QDelegation (delegator validator : string)
| QAllValidators
| QValidator (address : string).

(** cosmwasm_std::DistributionQuery (refused at src/types/query_msg.rs:24-26). *)
Inductive dist_query :=
| QDelegatorWithdrawAddress (a : string)
| QDelegationRewards (d v : string)
| QDelegationTotalRewards (d : string)
| QDelegatorValidators (d : string).

(** cosmwasm_std::IbcQuery (refused at src/types/query_msg.rs:19). *)
Inductive ibc_query :=
| QPortId
| QListChannels (port : option string)
| QChannel (chan : string) (port : option string).

(** cosmwasm_std::QueryRequest<Empty> (src/types/query_msg.rs:13-29, src/types/msg.rs:56). *)
Inductive query_request :=
| QBank (q : bank_query)
| QCustom                                        (* Custom(Empty) *)
| QStaking (q : staking_query)
| QDistribution (q : dist_query)
| QStargate (path data : string)
| QIbc (q : ibc_query)
| QWasm (q : wasm_query).

(** ** Responses *)

(** Attribute, Event (src/ibc/types/events.rs:29-41.) *)
Record event := Event { ev_type : string; ev_attrs : list (string * string) }.

(** SubMsg: a message, with [Some id] for [reply_on_success]. (src/contract.rs:216-221.) *)
Record submsg := SubMsg { sm_msg : cosmos_msg; sm_reply : option N }.

(** Response and IbcBasicResponse
    (src/contract.rs:47, 164, 186, 223; src/ibc/relay.rs:125-129, 154-158;
    src/ibc/handshake.rs:198-200.) *)
Record response := Response { r_msgs : list submsg; r_events : list event }.

(** [Response::default], [IbcBasicResponse::default] (src/contract.rs:117,
    src/ibc/handshake.rs:200). *)
Definition response_default : response := Response [] [].
(** (src/contract.rs:47, 164, 186; src/ibc/handshake.rs:198; src/ibc/relay.rs:126, 155, 188.) *)
Definition add_message (m : cosmos_msg) (r : response) : response :=
  Response (r_msgs r ++ [SubMsg m None]) (r_events r).
(** (src/ibc/relay.rs:127, 129, 156, 158.) *)
Definition add_event (e : event) (r : response) : response :=
  Response (r_msgs r) (r_events r ++ [e]).

(** Env: the block (height, time in nanoseconds) and the contract's address.
    (src/contract.rs:39, 156, 238; src/ibc/types/packet.rs:184-186.) *)
Record env := Env { env_height : N; env_time : N; env_contract : string }.

(** What the chain provides to the contract and the model does not define:
    - [addr_validate]: whether [Api::addr_validate] accepts an address
      (an accepted address is returned unchanged);
    - [uni_alnum]: [char::is_alphanumeric] on non-ASCII characters;
    - [bufany_missing]: what anybuf's [Bufany::uint64] returns for a field
      that is not present;
    - [decode_error path bytes]: the text of the library error raised when the
      answer [bytes] to the query [path] cannot be converted.
    (Addresses: src/contract.rs:24, 28, 255; alphanumeric: src/ibc/types/metadata.rs:164;
    Bufany: src/contract.rs:279-281; error text: src/types/query_msg.rs:52.) *)
Record api := Api {
  addr_validate : string -> bool;
  uni_alnum : N -> bool;
  bufany_missing : option N;
  decode_error : string -> string -> string
}.

(** ** Contract types *)

(** TxEncoding, src/ibc/types/metadata.rs:43-50 *)
Inductive tx_encoding := Protobuf | Proto3Json.

(** ChannelOpenInitOptions, src/types/msg.rs:106-118 *)
Record open_options := OpenOptions {
  oo_connection : string;
  oo_cp_connection : string;
  oo_cp_port : option string;
  oo_ordering : option order
}.

(** cw_utils::Expiration (src/contract.rs:238 through cw_ownable.) *)
Inductive expiration := AtHeight (h : N) | AtTime (t : N) | Never.

(** cw_ownable::Action (src/contract.rs:232-238.) *)
Inductive own_action :=
| TransferOwnership (new_owner : string) (expiry : option expiration)
| AcceptOwnership
| RenounceOwnership.

(** InstantiateMsg, src/types/msg.rs:10-21 *)
Record instantiate_msg := InstantiateMsg {
  im_owner : option string;
  im_options : open_options;
  im_callbacks : option string
}.

(** ExecuteMsg, src/types/msg.rs:28-71 (UpdateOwnership added by
    cw_ownable_execute) *)
Inductive execute_msg :=
| XCreateChannel (options : option open_options)
| XCloseChannel
| XSendCosmosMsgs (messages : list cosmos_msg) (queries : list query_request)
    (packet_memo : option string) (timeout_seconds : option N)
| XUpdateCallbackAddress (callback_address : option string)
| XUpdateOwnership (action : own_action).

(** QueryMsg, src/types/msg.rs:78-85 *)
Inductive query_msg := QGetChannel | QGetContractState | QOwnership.

(** IcaInfo, State: src/types/state.rs:105-109, 55-63 *)
Record ica_info := IcaInfo { ii_address : string; ii_channel : string; ii_encoding : tx_encoding }.
(** src/types/state.rs:55-63, see above. *)
Record contract_state := ContractState {
  cs_ica : option ica_info;
  cs_callback : option string
}.

(** ChannelStatus, ChannelState: src/types/state.rs:135-159, 164-169 *)
Inductive channel_status :=
| StUninitialized | StInit | StTryOpen | StOpen | StClosed | StFlushing | StFlushComplete.
(** Display of ChannelStatus, src/types/state.rs:199-211 *)
Definition status_text (s : channel_status) : string :=
  match s with
  | StUninitialized => "STATE_UNINITIALIZED_UNSPECIFIED"
  | StInit => "STATE_INIT"
  | StTryOpen => "STATE_TRYOPEN"
  | StOpen => "STATE_OPEN"
  | StClosed => "STATE_CLOSED"
  | StFlushing => "STATE_FLUSHING"
  | StFlushComplete => "STATE_FLUSHCOMPLETE"
  end.
(** src/types/state.rs:164-169, see above. *)
Record channel_state := ChannelState { cst_channel : channel; cst_status : channel_status }.

(** cw_ownable::Ownership (src/contract.rs:102.) *)
Record ownership := Ownership {
  ow_owner : option string;
  ow_pending : option string;
  ow_expiry : option expiration
}.

(** IcaMetadata, src/ibc/types/metadata.rs:22-39 *)
Record metadata := Metadata {
  md_version : string;
  md_controller : string;
  md_host : string;
  md_address : string;
  md_encoding : tx_encoding;
  md_tx_type : string
}.

(** acknowledgement::Data, src/ibc/types/packet.rs:211-218 *)
Inductive ack_data := AckResult (data : string) | AckError (err : string).

(** Query responses, src/types/query_msg.rs:100-211, and the cosmwasm_std
    types they contain. *)
Record denom_unit := DenomUnit { du_denom : string; du_exponent : N; du_aliases : list string }.
(** cosmwasm_std::DenomMetadata (src/types/query_msg.rs:403-422). *)
Record denom_metadata := DenomMetadata {
  dm_description : string; dm_units : list denom_unit; dm_base : string; dm_display : string;
  dm_name : string; dm_symbol : string; dm_uri : string; dm_uri_hash : string
}.
(** cosmwasm_std::ContractInfoResponse (src/types/query_msg.rs:161, 530-548). *)
Record contract_info := ContractInfo {
  ci_code_id : N; ci_creator : string; ci_admin : option string; ci_pinned : bool;
  ci_ibc_port : option string
}.
(** cosmwasm_std::Validator (src/types/query_msg.rs:425-442). *)
Record validator := Validator {
  v_address : string; v_commission : N; v_max_commission : N; v_max_change_rate : N
}.
(** Delegation, src/types/query_msg.rs:203-210. *)
Record delegation := Delegation { d_delegator : string; d_validator : string; d_amount : coin }.

(** BankQueryResponse, src/types/query_msg.rs:141-152. *)
Inductive bank_response :=
| RSupply (amount : coin)
| RBalance (amount : coin)
| RAllBalances (amount : list coin)
| RDenomMetadata (md : denom_metadata)
| RAllDenomMetadata (mds : list denom_metadata) (next_key : option string).

(** WasmQueryResponse, src/types/query_msg.rs:157-169, without CodeInfo, which is never built. *)
Inductive wasm_response :=
| RContractInfo (info : option contract_info)
| RRaw (data : option string)
| RSmart (data : string).

(** StakingQueryResponse, src/types/query_msg.rs:174-199. *)
Inductive staking_response :=
| RBondedDenom (denom : string)
| RAllDelegations (l : list delegation)
| RDelegation (d : option delegation)
| RAllValidators (l : list validator)
| RValidator (v : option validator).

(** IcaQueryResponse, src/types/query_msg.rs:121-136. *)
Inductive query_response :=
| RBank (r : bank_response)
| RStargate (data path : string)
| RWasm (r : wasm_response)
| RStaking (r : staking_response).

(** IcaQueryResult, src/types/query_msg.rs:105-116. *)
Inductive query_result :=
| QRSuccess (height : N) (responses : list query_response)
| QRError (err : string).

(** IcaControllerCallbackMsg, src/types/callbacks.rs:26-59 *)
Inductive callback_msg :=
| CbAck (ack : ack_data) (original : packet) (relayer : string) (result : option query_result)
| CbTimeout (original : packet) (relayer : string)
| CbOpenAck (ch : channel) (ica_address : string) (encoding : tx_encoding).
