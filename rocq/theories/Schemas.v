(** * Schemas: the protobuf messages the crate uses.

    Field numbers and types as generated by prost in cosmos-sdk-proto and
    ibc-proto (external crates, Cargo.toml:54-55, 59; transcribed from the public
    .proto files) and, for the query module, as written in the repository
    (src/types/query_msg.rs:661-702).  int64 fields are modelled by their
    64-bit pattern, enums and int32 by their 32-bit pattern. *)

From Verif Require Import Base Proto.
Local Open Scope N_scope.

(** Field attribute of prost (e.g. src/types/query_msg.rs:665-694). *)
Definition fstr (t : N) : N * (label * kind) := (t, (Single, KStr)).
(** Field attribute of prost (e.g. src/types/query_msg.rs:665-694). *)
Definition fbytes (t : N) : N * (label * kind) := (t, (Single, KBytes)).
(** Field attribute of prost (e.g. src/types/query_msg.rs:665-694). *)
Definition fu64 (t : N) : N * (label * kind) := (t, (Single, KU64)).
(** Field attribute of prost (e.g. src/types/query_msg.rs:665-694). *)
Definition fu32 (t : N) : N * (label * kind) := (t, (Single, KU32)).
(** Field attribute of prost (e.g. src/types/query_msg.rs:665-694). *)
Definition fbool (t : N) : N * (label * kind) := (t, (Single, KBool)).
(** Field attribute of prost (e.g. src/types/query_msg.rs:665-694). *)
Definition fmsg (t : N) (d : desc) : N * (label * kind) := (t, (Single, KMsg d)).
(** Field attribute of prost (e.g. src/types/query_msg.rs:665-694). *)
Definition rmsg (t : N) (d : desc) : N * (label * kind) := (t, (Repeated, KMsg d)).
(** Field attribute of prost (e.g. src/types/query_msg.rs:665-694). *)
Definition rstr (t : N) : N * (label * kind) := (t, (Repeated, KStr)).
(** Field attribute of prost (e.g. src/types/query_msg.rs:665-694). *)
Definition rbytes (t : N) : N * (label * kind) := (t, (Repeated, KBytes)).

(** cosmos.base, google.protobuf
    cosmos.base.v1beta1.Coin (src/types/cosmos_msg.rs:63, 76, src/types/query_msg.rs:396) *)
Definition d_coin : desc := [fstr 1; fstr 2].                       (* denom, amount *)
(** google.protobuf.Any (src/types/cosmos_msg.rs:4, src/ibc/types/packet.rs:61-64) *)
Definition d_any : desc := [fstr 1; fbytes 2].                      (* type_url, value *)
(** google.protobuf.Timestamp, inside Commission and Validator (src/types/query_msg.rs:426-434) *)
Definition d_timestamp : desc := [fu64 1; fu32 2].
(** google.protobuf.Duration, inside staking Params (src/types/query_msg.rs:647) *)
Definition d_duration : desc := [fu64 1; fu32 2].
(** cosmos.base.query.v1beta1.PageRequest (src/types/query_msg.rs:254-260) *)
Definition d_page_request : desc := [fbytes 1; fu64 2; fu64 3; fbool 4; fbool 5].
(** cosmos.base.query.v1beta1.PageResponse (src/types/query_msg.rs:508-509) *)
Definition d_page_response : desc := [fbytes 1; fu64 2].

(** ** Messages (src/types/cosmos_msg.rs) *)
Definition d_msg_send : desc := [fstr 1; fstr 2; rmsg 3 d_coin].
(** ibc.core.client.v1.Height, src/types/cosmos_msg.rs:118-121 *)
Definition d_height : desc := [fu64 1; fu64 2].
(** ibc.applications.transfer.v1.MsgTransfer, src/types/cosmos_msg.rs:109-124 *)
Definition d_msg_transfer : desc :=
  [fstr 1; fstr 2; fmsg 3 d_coin; fstr 4; fstr 5; fmsg 6 d_height; fu64 7; fstr 8].
(** cosmwasm.wasm.v1.MsgExecuteContract, src/types/cosmos_msg.rs:135-146 *)
Definition d_msg_execute : desc := [fstr 1; fstr 2; fbytes 3; rmsg 5 d_coin].
(** cosmwasm.wasm.v1.MsgInstantiateContract, src/types/cosmos_msg.rs:153-166 *)
Definition d_msg_instantiate : desc := [fstr 1; fstr 2; fu64 3; fstr 4; fbytes 5; rmsg 6 d_coin].
(** cosmwasm.wasm.v1.MsgInstantiateContract2, src/types/cosmos_msg.rs:196-211 *)
Definition d_msg_instantiate2 : desc :=
  [fstr 1; fstr 2; fu64 3; fstr 4; fbytes 5; rmsg 6 d_coin; fbytes 7; fbool 8].
(** cosmwasm.wasm.v1.MsgMigrateContract, src/types/cosmos_msg.rs:171-176 *)
Definition d_msg_migrate : desc := [fstr 1; fstr 2; fu64 3; fbytes 4].
(** cosmwasm.wasm.v1.MsgUpdateAdmin, src/types/cosmos_msg.rs:180-184 *)
Definition d_msg_update_admin : desc := [fstr 1; fstr 2; fstr 3].
(** cosmwasm.wasm.v1.MsgClearAdmin, src/types/cosmos_msg.rs:185-188 *)
Definition d_msg_clear_admin : desc := [fstr 1; fstr 3].
(** cosmos.gov.v1beta1.MsgVote, src/types/cosmos_msg.rs:230-234 *)
Definition d_msg_vote : desc := [fu64 1; fstr 2; fu32 3].
(** cosmos.gov.v1.WeightedVoteOption, src/types/cosmos_msg.rs:242-245 *)
Definition d_weighted_vote : desc := [fu32 1; fstr 2].
(** cosmos.gov.v1.MsgVoteWeighted, src/types/cosmos_msg.rs:249-254 *)
Definition d_msg_vote_weighted : desc := [fu64 1; fstr 2; rmsg 3 d_weighted_vote; fstr 4].
(** cosmos.staking.v1beta1.MsgDelegate, src/types/cosmos_msg.rs:263-270 *)
Definition d_msg_delegate : desc := [fstr 1; fstr 2; fmsg 3 d_coin].
(** cosmos.staking.v1beta1.MsgUndelegate, src/types/cosmos_msg.rs:273-280 *)
Definition d_msg_undelegate : desc := [fstr 1; fstr 2; fmsg 3 d_coin].
(** cosmos.staking.v1beta1.MsgBeginRedelegate, src/types/cosmos_msg.rs:287-295 *)
Definition d_msg_redelegate : desc := [fstr 1; fstr 2; fstr 3; fmsg 4 d_coin].
(** cosmos.distribution.v1beta1.MsgWithdrawDelegatorReward, src/types/cosmos_msg.rs:305-308 *)
Definition d_msg_withdraw_reward : desc := [fstr 1; fstr 2].
(** cosmos.distribution.v1beta1.MsgSetWithdrawAddress, src/types/cosmos_msg.rs:311-314 *)
Definition d_msg_set_withdraw : desc := [fstr 1; fstr 2].
(** cosmos.distribution.v1beta1.MsgFundCommunityPool, src/types/cosmos_msg.rs:317-326 *)
Definition d_msg_fund_pool : desc := [rmsg 1 d_coin; fstr 2].

(** ** ICA packet, acknowledgement and channel messages *)
(** CosmosTx, src/ibc/types/packet.rs:61-64 *)
Definition d_cosmos_tx : desc := [rmsg 1 d_any].
(** cosmos.base.abci.v1beta1.MsgData, inside TxMsgData (src/ibc/types/packet.rs:227) *)
Definition d_msg_data : desc := [fstr 1; fbytes 2].
(** cosmos.base.abci.v1beta1.TxMsgData, src/ibc/types/packet.rs:225-230 *)
Definition d_tx_msg_data : desc := [rmsg 1 d_msg_data; rmsg 2 d_any].
(** ibc.core.channel.v1.Counterparty, src/ibc/types/stargate.rs:81-84 *)
Definition d_counterparty : desc := [fstr 1; fstr 2].
(** ibc.core.channel.v1.Channel, src/ibc/types/stargate.rs:78-87 *)
Definition d_channel : desc := [fu32 1; fu32 2; fmsg 3 d_counterparty; rstr 4; fstr 5].
(** ibc.core.channel.v1.MsgChannelOpenInit, src/ibc/types/stargate.rs:60-90 *)
Definition d_msg_channel_open_init : desc := [fstr 1; fmsg 2 d_channel; fstr 3].

(** ** Query module (src/types/query_msg.rs:661-702) *)
Definition d_abci_query : desc := [fstr 1; fbytes 2].                              (* 675-684 *)
(** src/types/query_msg.rs:664-671 *)
Definition d_msg_module_query_safe : desc := [fstr 1; rmsg 2 d_abci_query].        (* 664-671 *)
(** src/types/query_msg.rs:688-696 *)
Definition d_msg_module_query_safe_response : desc := [fu64 1; rbytes 2].          (* 688-696 *)

(** ** Query requests and responses (src/types/query_msg.rs:213-656) *)
Definition d_q_balance : desc := [fstr 1; fstr 2].
(** QueryAllBalancesRequest, src/types/query_msg.rs:241-244 *)
Definition d_q_all_balances : desc := [fstr 1; fmsg 2 d_page_request].
(** QueryDenomMetadataRequest, src/types/query_msg.rs:250 *)
Definition d_q_denom_metadata : desc := [fstr 1].
(** QueryDenomsMetadataRequest, src/types/query_msg.rs:264 *)
Definition d_q_denoms_metadata : desc := [fmsg 1 d_page_request].
(** QuerySupplyOfRequest, src/types/query_msg.rs:270 *)
Definition d_q_supply_of : desc := [fstr 1].
(** QueryContractInfoRequest, src/types/query_msg.rs:299-301 *)
Definition d_q_contract_info : desc := [fstr 1].
(** QueryRawContractStateRequest, src/types/query_msg.rs:281-284 *)
Definition d_q_raw : desc := [fstr 1; fbytes 2].
(** QuerySmartContractStateRequest, src/types/query_msg.rs:290-293 *)
Definition d_q_smart : desc := [fstr 1; fbytes 2].
(** QueryValidatorRequest, src/types/query_msg.rs:322-324 *)
Definition d_q_validator : desc := [fstr 1].
(** QueryValidatorsRequest, src/types/query_msg.rs:330-333 *)
Definition d_q_validators : desc := [fstr 1; fmsg 2 d_page_request].
(** QueryDelegationRequest, src/types/query_msg.rs:342-345 *)
Definition d_q_delegation : desc := [fstr 1; fstr 2].
(** QueryDelegatorDelegationsRequest, src/types/query_msg.rs:351-354 *)
Definition d_q_delegator_delegations : desc := [fstr 1; fmsg 2 d_page_request].
(** QueryParamsRequest, src/types/query_msg.rs:360 *)
Definition d_q_params : desc := [].

(** QueryBalanceResponse, src/types/query_msg.rs:472-477 *)
Definition d_r_balance : desc := [fmsg 1 d_coin].
(** QueryAllBalancesResponse, src/types/query_msg.rs:481-488 *)
Definition d_r_all_balances : desc := [rmsg 1 d_coin; fmsg 2 d_page_response].
(** cosmos.bank.v1beta1.DenomUnit, src/types/query_msg.rs:415-419 *)
Definition d_denom_unit : desc := [fstr 1; fu32 2; rstr 3].
(** description, denom_units, base, display, name, symbol, uri, uri_hash
    (cosmos.bank.v1beta1.Metadata, src/types/query_msg.rs:403-422) *)
Definition d_metadata : desc :=
  [fstr 1; rmsg 2 d_denom_unit; fstr 3; fstr 4; fstr 5; fstr 6; fstr 7; fstr 8].
(** QueryDenomMetadataResponse, src/types/query_msg.rs:492-497 *)
Definition d_r_denom_metadata : desc := [fmsg 1 d_metadata].
(** QueryDenomsMetadataResponse, src/types/query_msg.rs:501-510 *)
Definition d_r_denoms_metadata : desc := [rmsg 1 d_metadata; fmsg 2 d_page_response].
(** QuerySupplyOfResponse, src/types/query_msg.rs:514-519 *)
Definition d_r_supply_of : desc := [fmsg 1 d_coin].
(** cosmwasm.wasm.v1.AbsoluteTxPosition, inside ContractInfo (src/types/query_msg.rs:531) *)
Definition d_absolute_tx_position : desc := [fu64 1; fu64 2].
(** code_id, creator, admin, label, created, ibc_port_id, extension
    (cosmwasm.wasm.v1.ContractInfo, src/types/query_msg.rs:531-547) *)
Definition d_contract_info : desc :=
  [fu64 1; fstr 2; fstr 3; fstr 4; fmsg 5 d_absolute_tx_position; fstr 6; fmsg 7 d_any].
(** QueryContractInfoResponse, src/types/query_msg.rs:529-548 *)
Definition d_r_contract_info : desc := [fstr 1; fmsg 2 d_contract_info].
(** QueryRawContractStateResponse, src/types/query_msg.rs:551-558 *)
Definition d_r_raw : desc := [fbytes 1].
(** QuerySmartContractStateResponse, src/types/query_msg.rs:561-564 *)
Definition d_r_smart : desc := [fbytes 1].
(** cosmos.staking.v1beta1.CommissionRates / Commission, src/types/query_msg.rs:430-434,
    438-440 *)
Definition d_commission_rates : desc := [fstr 1; fstr 2; fstr 3].     (* rate, max_rate, max_change_rate *)
(** cosmos.staking.v1beta1.CommissionRates / Commission, src/types/query_msg.rs:430-434,
    438-440 *)
Definition d_commission : desc := [fmsg 1 d_commission_rates; fmsg 2 d_timestamp].
(** cosmos.staking.v1beta1.Description, inside Validator (src/types/query_msg.rs:426) *)
Definition d_description : desc := [fstr 1; fstr 2; fstr 3; fstr 4; fstr 5].
(** operator_address, consensus_pubkey, jailed, status, tokens, delegator_shares,
    description, unbonding_height, unbonding_time, commission, min_self_delegation,
    unbonding_on_hold_ref_count, unbonding_ids
    (cosmos.staking.v1beta1.Validator, src/types/query_msg.rs:425-442) *)
Definition d_validator : desc :=
  [fstr 1; fmsg 2 d_any; fbool 3; fu32 4; fstr 5; fstr 6; fmsg 7 d_description; fu64 8;
   fmsg 9 d_timestamp; fmsg 10 d_commission; fstr 11; fu64 12; (13, (Single, KPack))].
(** QueryValidatorResponse, src/types/query_msg.rs:584-587 *)
Definition d_r_validator : desc := [fmsg 1 d_validator].
(** QueryValidatorsResponse, src/types/query_msg.rs:590-598 *)
Definition d_r_validators : desc := [rmsg 1 d_validator; fmsg 2 d_page_response].
(** cosmos.staking.v1beta1.Delegation / DelegationResponse, src/types/query_msg.rs:604-617,
    625-639 *)
Definition d_delegation : desc := [fstr 1; fstr 2; fstr 3].            (* delegator, validator, shares *)
(** cosmos.staking.v1beta1.Delegation / DelegationResponse, src/types/query_msg.rs:604-617,
    625-639 *)
Definition d_delegation_response : desc := [fmsg 1 d_delegation; fmsg 2 d_coin].
(** QueryDelegationResponse, src/types/query_msg.rs:601-619 *)
Definition d_r_delegation : desc := [fmsg 1 d_delegation_response].
(** QueryDelegatorDelegationsResponse, src/types/query_msg.rs:622-641 *)
Definition d_r_delegator_delegations : desc :=
  [rmsg 1 d_delegation_response; fmsg 2 d_page_response].
(** unbonding_time, max_validators, max_entries, historical_entries, bond_denom,
    min_commission_rate (cosmos.staking.v1beta1.Params, src/types/query_msg.rs:647-649) *)
Definition d_params : desc := [fmsg 1 d_duration; fu32 2; fu32 3; fu32 4; fstr 5; fstr 6].
(** QueryParamsResponse, src/types/query_msg.rs:644-651 *)
Definition d_r_params : desc := [fmsg 1 d_params].

(** MsgIBCSendResponse of wasmd: the data of the reply to [IbcMsg::SendPacket].
    (Read with anybuf at src/contract.rs:279-281.) *)
Definition d_send_packet_response : desc := [fu64 1].
