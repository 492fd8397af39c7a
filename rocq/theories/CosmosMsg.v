(** * CosmosMsg: src/types/cosmos_msg.rs, conversion of messages to [Any]. *)

From Verif Require Import Base Text Proto Schemas Types.
Local Open Scope string_scope.
Local Open Scope N_scope.

(** [cosmos_sdk_proto::Any] (src/types/cosmos_msg.rs:41-44.) *)
Record any := Any { a_url : string; a_value : string }.

(** [Any::from_msg]: the type URL is "/" and the full name of the message
    (prost::Name::type_url).  Encoding into a [Vec] cannot fail.
    (src/types/cosmos_msg.rs:86-326.) *)
Definition any_from_msg (name : string) (d : desc) (m : list (list pv)) : outcome any :=
  Ok (Any ("/" +++ name) (pb_encode d m)).

(** One scalar field of a message, as [Proto] represents it; none in /repo. *)
Definition str (s : string) : list pv := [VStr s].
(** One scalar field of a message, as [Proto] represents it; none in /repo. *)
Definition num (n : N) : list pv := [VNum n].

(** [ProtoCoin { denom, amount: coin.amount.to_string() }], cosmos_msg.rs:91-94 *)
Definition proto_coin (c : coin) : pv := VMsg [str (c_denom c); str (dec (c_amount c))].

(** convert_to_any::bank, cosmos_msg.rs:84-99 *)
Definition conv_bank (m : bank_msg) (from_address : string) : outcome any :=
  match m with
  | BankSend to_address amount =>
      any_from_msg "cosmos.bank.v1beta1.MsgSend" d_msg_send
        [str from_address; str to_address; map proto_coin amount]
  | BankBurn _ => Panic
  end.

(** convert_to_any::ibc, cosmos_msg.rs:101-127 *)
Definition conv_ibc (m : ibc_msg) (sender : string) : outcome any :=
  match m with
  | IbcTransfer channel_id to_address amount t memo =>
      any_from_msg "ibc.applications.transfer.v1.MsgTransfer" d_msg_transfer
        [str "transfer"; str channel_id; [proto_coin amount]; str sender; str to_address;
         match to_block t with
         | Some b => [VMsg [num (tb_revision b); num (tb_height b)]]
         | None => []
         end;
         num (unwrap_or (to_timestamp t) 0);
         str (unwrap_or memo "")]
  | IbcSendPacket _ _ _ => Panic
  | IbcCloseChannel _ => Panic
  end.

(** convert_to_any::wasm, cosmos_msg.rs:129-214 *)
Definition conv_wasm (m : wasm_msg) (sender : string) : outcome any :=
  match m with
  | WasmExecute contract_addr msg funds =>
      any_from_msg "cosmwasm.wasm.v1.MsgExecuteContract" d_msg_execute
        [str sender; str contract_addr; str msg; map proto_coin funds]
  | WasmInstantiate admin code_id msg funds label =>
      any_from_msg "cosmwasm.wasm.v1.MsgInstantiateContract" d_msg_instantiate
        [str sender; str (unwrap_or admin ""); num code_id; str label; str msg;
         map proto_coin funds]
  | WasmMigrate contract_addr new_code_id msg =>
      any_from_msg "cosmwasm.wasm.v1.MsgMigrateContract" d_msg_migrate
        [str sender; str contract_addr; num new_code_id; str msg]
  | WasmUpdateAdmin contract_addr admin =>
      any_from_msg "cosmwasm.wasm.v1.MsgUpdateAdmin" d_msg_update_admin
        [str sender; str admin; str contract_addr]
  | WasmClearAdmin contract_addr =>
      any_from_msg "cosmwasm.wasm.v1.MsgClearAdmin" d_msg_clear_admin
        [str sender; str contract_addr]
  | WasmInstantiate2 admin code_id label msg funds salt =>
      any_from_msg "cosmwasm.wasm.v1.MsgInstantiateContract2" d_msg_instantiate2
        [str sender; str (unwrap_or admin ""); num code_id; str label; str msg;
         map proto_coin funds; str salt; num 0]
  end.

(** convert_to_proto_vote_option, cosmos_msg.rs:217-224, with the enum numbers of
    cosmos.gov.v1beta1.VoteOption *)
Definition proto_vote (o : vote_option) : N :=
  match o with VoteYes => 1 | VoteAbstain => 2 | VoteNo => 3 | VoteNoWithVeto => 4 end.

(** convert_to_any::gov, cosmos_msg.rs:216-257 *)
Definition conv_gov (m : gov_msg) (voter : string) : outcome any :=
  match m with
  | GovVote proposal_id option =>
      any_from_msg "cosmos.gov.v1beta1.MsgVote" d_msg_vote
        [num proposal_id; str voter; num (proto_vote option)]
  | GovVoteWeighted proposal_id options =>
      any_from_msg "cosmos.gov.v1.MsgVoteWeighted" d_msg_vote_weighted
        [num proposal_id; str voter;
         map (fun o => VMsg [num (proto_vote (wv_option o));
                             str (decimal_to_string (wv_weight o))]) options;
         str ""]
  end.

(** convert_to_any::staking, cosmos_msg.rs:260-299 *)
Definition conv_staking (m : staking_msg) (delegator : string) : outcome any :=
  match m with
  | StDelegate validator amount =>
      any_from_msg "cosmos.staking.v1beta1.MsgDelegate" d_msg_delegate
        [str delegator; str validator; [proto_coin amount]]
  | StUndelegate validator amount =>
      any_from_msg "cosmos.staking.v1beta1.MsgUndelegate" d_msg_undelegate
        [str delegator; str validator; [proto_coin amount]]
  | StRedelegate src_validator dst_validator amount =>
      any_from_msg "cosmos.staking.v1beta1.MsgBeginRedelegate" d_msg_redelegate
        [str delegator; str src_validator; str dst_validator; [proto_coin amount]]
  end.

(** convert_to_any::distribution, cosmos_msg.rs:302-330 *)
Definition conv_dist (m : dist_msg) (sender : string) : outcome any :=
  match m with
  | DistWithdrawReward validator =>
      any_from_msg "cosmos.distribution.v1beta1.MsgWithdrawDelegatorReward" d_msg_withdraw_reward
        [str sender; str validator]
  | DistSetWithdrawAddress address =>
      any_from_msg "cosmos.distribution.v1beta1.MsgSetWithdrawAddress" d_msg_set_withdraw
        [str sender; str address]
  | DistFundCommunityPool amount =>
      any_from_msg "cosmos.distribution.v1beta1.MsgFundCommunityPool" d_msg_fund_pool
        [map proto_coin amount; str sender]
  end.

(** convert_to_proto_any, cosmos_msg.rs:38-57 *)
Definition convert_to_proto_any (m : cosmos_msg) (from_address : string) : outcome any :=
  match m with
  | MStargate type_url value => Ok (Any type_url value)
  | MBank b => conv_bank b from_address
  | MIbc i => conv_ibc i from_address
  | MWasm w => conv_wasm w from_address
  | MGov g => conv_gov g from_address
  | MStaking s => conv_staking s from_address
  | MDistribution d => conv_dist d from_address
  | MCustom => Panic
  end.
