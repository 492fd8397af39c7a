(** * Features: the library as other contracts build it.

    The contract is built with the features "export", "query" and "staking"
    (Cargo.toml:28-33); a contract that only uses the library may leave "query",
    "staking" or "export" out.  This file models the items that differ then:
    src/types/msg.rs:52-56, src/types/callbacks.rs:37-39 and
    src/ibc/types/packet.rs:79-171; without "staking" the enums CosmosMsg and
    QueryRequest of cosmwasm_std lack two variants each, and so do
    src/types/cosmos_msg.rs:38-57 and src/types/query_msg.rs:13-29. *)

From Verif Require Import Base Text Base64 Proto Schemas Json JsonCodec Types JsonTypes Store
  CosmosMsg QueryMsg PacketData.
Local Open Scope string_scope.
Local Open Scope list_scope.
Local Open Scope N_scope.

(** ** Without "query" *)

(** ExecuteMsg, src/types/msg.rs:24-71 without the field at lines 52-56. *)
Inductive plain_execute :=
| PCreateChannel (o : option open_options)
| PCloseChannel
| PSendCosmosMsgs (messages : list cosmos_msg) (packet_memo : option string) (timeout_seconds : option N)
| PUpdateCallbackAddress (c : option string)
| PUpdateOwnership (a : own_action).

(** Its JSON, src/types/msg.rs:24-71. *)
Definition jc_plain_execute : jcodec plain_execute :=
  jc_map (jc_enum
      (v_struct "create_channel" true (o_skip "channel_open_init_options" jc_options)
      |v v_struct "close_channel" true o_unit
      |v v_struct "send_cosmos_msgs" true
        (o_vec_null "messages" jc_cosmos_msg
         &o o_skip "packet_memo" jc_str &o o_skip "timeout_seconds" (jc_uint u64_lim))
      |v v_struct "update_callback_address" true (o_opt "callback_address" jc_str)
      |v v_one "update_ownership" jc_action))
    (fun m => match m with
      | PCreateChannel o => inl o
      | PCloseChannel => inr (inl tt)
      | PSendCosmosMsgs m p t => inr (inr (inl (m, (p, t))))
      | PUpdateCallbackAddress c => inr (inr (inr (inl c)))
      | PUpdateOwnership a => inr (inr (inr (inr a))) end)
    (fun s => match s with
      | inl o => PCreateChannel o
      | inr (inl _) => PCloseChannel
      | inr (inr (inl (m, (p, t)))) => PSendCosmosMsgs m p t
      | inr (inr (inr (inl c))) => PUpdateCallbackAddress c
      | inr (inr (inr (inr a))) => PUpdateOwnership a end).

(** IcaControllerCallbackMsg, src/types/callbacks.rs:16-59 without lines 37-39. *)
Inductive plain_callback :=
| PAck (a : ack_data) (p : packet) (relayer : string)
| PTimeout (p : packet) (relayer : string)
| POpenAck (c : channel) (address : string) (e : tx_encoding).

(** Its JSON, src/types/callbacks.rs:16-59 (plain serde derive, unknown fields
    allowed). *)
Definition jc_plain_callback : jcodec plain_callback :=
  jc_map (jc_enum
      (v_struct "on_acknowledgement_packet_callback" false
        (o_req "ica_acknowledgement" jc_ack &o o_req "original_packet" jc_packet &o o_req "relayer" jc_str)
      |v v_struct "on_timeout_packet_callback" false
        (o_req "original_packet" jc_packet &o o_req "relayer" jc_str)
      |v v_struct "on_channel_open_ack_callback" false
        (o_req "channel" jc_channel &o o_req "ica_address" jc_str
         &o o_req "tx_encoding" jc_encoding)))
    (fun c => match c with
      | PAck a p r => inl (a, (p, r))
      | PTimeout p r => inr (inl (p, r))
      | POpenAck c a e => inr (inr (c, (a, e))) end)
    (fun s => match s with
      | inl (a, (p, r)) => PAck a p r
      | inr (inl (p, r)) => PTimeout p r
      | inr (inr (c, (a, e))) => POpenAck c a e end).

(** ReceiverExecuteMsg, src/types/callbacks.rs:94-97. *)
Definition jc_plain_receiver : jcodec plain_callback :=
  jc_enum (v_one "receive_ica_callback" jc_plain_callback).

(** IcaPacketData::from_cosmos_msgs, src/ibc/types/packet.rs:148-171. *)
Definition plain_from_cosmos_msgs (messages : list cosmos_msg) (encoding : tx_encoding) (memo : option string)
  (ica_address : string) : outcome ica_packet :=
  match encoding with
  | Protobuf =>
      anys <- mapo (fun m => convert_to_proto_any m ica_address) messages ;;
      Ok (from_proto_anys anys memo)
  | Proto3Json => Err EStd
  end.

(** ** With "query" but without "export" *)

(** IcaPacketData::from_cosmos_msgs, src/ibc/types/packet.rs:79-134 without
    lines 81 and 114-116: no storage. *)
Definition lib_from_cosmos_msgs (messages : list cosmos_msg) (queries : list query_request)
  (encoding : tx_encoding) (memo : option string) (ica_address : string) : outcome ica_packet :=
  match encoding with
  | Protobuf =>
      anys <- mapo (fun m => convert_to_proto_any m ica_address) messages ;;
      match queries with
      | [] => Ok (from_proto_anys anys memo)
      | _ :: _ =>
          reqs <- mapo query_to_protobuf queries ;;
          q <- query_any ica_address reqs ;;
          Ok (from_proto_anys (anys ++ [q]) memo)
      end
  | Proto3Json => Err EStd
  end.

(** ** Without "staking" *)

(** cosmwasm_std::CosmosMsg without the variants of its feature "staking", as in
    src/types/cosmos_msg.rs:38-57 without lines 49-54. *)
Inductive lean_msg :=
| LmBank (m : bank_msg)
| LmCustom
| LmStargate (type_url value : string)
| LmIbc (m : ibc_msg)
| LmWasm (m : wasm_msg)
| LmGov (m : gov_msg).

(** Its JSON (cosmwasm_std; src/types/msg.rs:49). *)
Definition jc_lean_msg : jcodec lean_msg :=
  jc_map (jc_enum
      (v_one "bank" jc_bank_msg |v v_struct "custom" false o_unit
       |v v_struct "stargate" false (o_req "type_url" jc_str &o o_req "value" jc_bin)
       |v v_one "ibc" jc_ibc_msg |v v_one "wasm" jc_wasm_msg |v v_one "gov" jc_gov_msg))
    (fun m => match m with
      | LmBank m => inl m
      | LmCustom => inr (inl tt)
      | LmStargate t v => inr (inr (inl (t, v)))
      | LmIbc m => inr (inr (inr (inl m)))
      | LmWasm m => inr (inr (inr (inr (inl m))))
      | LmGov m => inr (inr (inr (inr (inr m)))) end)
    (fun s => match s with
      | inl m => LmBank m
      | inr (inl _) => LmCustom
      | inr (inr (inl (t, v))) => LmStargate t v
      | inr (inr (inr (inl m))) => LmIbc m
      | inr (inr (inr (inr (inl m)))) => LmWasm m
      | inr (inr (inr (inr (inr m)))) => LmGov m end).

(** cosmwasm_std::QueryRequest without the variants of its feature "staking", as
    in src/types/query_msg.rs:13-29 without lines 21-26. *)
Inductive lean_query :=
| LqBank (q : bank_query)
| LqCustom
| LqStargate (path data : string)
| LqIbc (q : ibc_query)
| LqWasm (q : wasm_query).

(** Its JSON (cosmwasm_std; src/types/msg.rs:56). *)
Definition jc_lean_query : jcodec lean_query :=
  jc_map (jc_enum
      (v_one "bank" jc_bank_query |v v_struct "custom" false o_unit
       |v v_struct "stargate" false (o_req "path" jc_str &o o_req "data" jc_bin)
       |v v_one "ibc" jc_ibc_query |v v_one "wasm" jc_wasm_query))
    (fun q => match q with
      | LqBank q => inl q
      | LqCustom => inr (inl tt)
      | LqStargate p d => inr (inr (inl (p, d)))
      | LqIbc q => inr (inr (inr (inl q)))
      | LqWasm q => inr (inr (inr (inr q))) end)
    (fun s => match s with
      | inl q => LqBank q
      | inr (inl _) => LqCustom
      | inr (inr (inl (p, d))) => LqStargate p d
      | inr (inr (inr (inl q))) => LqIbc q
      | inr (inr (inr (inr q))) => LqWasm q end).

(** ExecuteMsg, src/types/msg.rs:24-71, without "staking". *)
Inductive lean_execute :=
| LCreateChannel (o : option open_options)
| LCloseChannel
| LSendCosmosMsgs (messages : list lean_msg) (queries : list lean_query) (packet_memo : option string) (timeout_seconds : option N)
| LUpdateCallbackAddress (c : option string)
| LUpdateOwnership (a : own_action).

(** Its JSON, src/types/msg.rs:24-71. *)
Definition jc_lean_execute : jcodec lean_execute :=
  jc_map (jc_enum
      (v_struct "create_channel" true (o_skip "channel_open_init_options" jc_options)
      |v v_struct "close_channel" true o_unit
      |v v_struct "send_cosmos_msgs" true
        (o_vec_null "messages" jc_lean_msg &o o_vec_skip "queries" jc_lean_query
         &o o_skip "packet_memo" jc_str &o o_skip "timeout_seconds" (jc_uint u64_lim))
      |v v_struct "update_callback_address" true (o_opt "callback_address" jc_str)
      |v v_one "update_ownership" jc_action))
    (fun m => match m with
      | LCreateChannel o => inl o
      | LCloseChannel => inr (inl tt)
      | LSendCosmosMsgs m q p t => inr (inr (inl (m, (q, (p, t)))))
      | LUpdateCallbackAddress c => inr (inr (inr (inl c)))
      | LUpdateOwnership a => inr (inr (inr (inr a))) end)
    (fun s => match s with
      | inl o => LCreateChannel o
      | inr (inl _) => LCloseChannel
      | inr (inr (inl (m, (q, (p, t))))) => LSendCosmosMsgs m q p t
      | inr (inr (inr (inl c))) => LUpdateCallbackAddress c
      | inr (inr (inr (inr a))) => LUpdateOwnership a end).

(** ExecuteMsg, src/types/msg.rs:24-71, without "staking" and "query": the
    library without default features, as testing/contracts/cw-ica-owner uses it
    (testing/contracts/cw-ica-owner/Cargo.toml:32). *)
Inductive bare_execute :=
| BCreateChannel (o : option open_options)
| BCloseChannel
| BSendCosmosMsgs (messages : list lean_msg) (packet_memo : option string) (timeout_seconds : option N)
| BUpdateCallbackAddress (c : option string)
| BUpdateOwnership (a : own_action).

(** Its JSON, src/types/msg.rs:24-71. *)
Definition jc_bare_execute : jcodec bare_execute :=
  jc_map (jc_enum
      (v_struct "create_channel" true (o_skip "channel_open_init_options" jc_options)
      |v v_struct "close_channel" true o_unit
      |v v_struct "send_cosmos_msgs" true
        (o_vec_null "messages" jc_lean_msg
         &o o_skip "packet_memo" jc_str &o o_skip "timeout_seconds" (jc_uint u64_lim))
      |v v_struct "update_callback_address" true (o_opt "callback_address" jc_str)
      |v v_one "update_ownership" jc_action))
    (fun m => match m with
      | BCreateChannel o => inl o
      | BCloseChannel => inr (inl tt)
      | BSendCosmosMsgs m p t => inr (inr (inl (m, (p, t))))
      | BUpdateCallbackAddress c => inr (inr (inr (inl c)))
      | BUpdateOwnership a => inr (inr (inr (inr a))) end)
    (fun s => match s with
      | inl o => BCreateChannel o
      | inr (inl _) => BCloseChannel
      | inr (inr (inl (m, (p, t)))) => BSendCosmosMsgs m p t
      | inr (inr (inr (inl c))) => BUpdateCallbackAddress c
      | inr (inr (inr (inr a))) => BUpdateOwnership a end).

(** convert_to_proto_any, src/types/cosmos_msg.rs:38-57 without lines 49-54. *)
Definition lean_convert (m : lean_msg) (from_address : string) : outcome any :=
  match m with
  | LmStargate type_url value => Ok (Any type_url value)
  | LmBank b => conv_bank b from_address
  | LmIbc i => conv_ibc i from_address
  | LmWasm w => conv_wasm w from_address
  | LmGov g => conv_gov g from_address
  | LmCustom => Panic
  end.

(** query_to_protobuf, src/types/query_msg.rs:13-29 without lines 21-26. *)
Definition lean_query_to_protobuf (q : lean_query) : outcome abci :=
  match q with
  | LqBank b => req_bank b
  | LqStargate path data => Ok (path, data, true)
  | LqWasm w => req_wasm w
  | LqIbc _ => Panic
  | LqCustom => Panic
  end.

(** IcaPacketData::from_cosmos_msgs, src/ibc/types/packet.rs:79-134 without
    lines 81 and 114-116 ("staking" and "export" off; "export" needs "staking"). *)
Definition lean_from_cosmos_msgs (messages : list lean_msg) (queries : list lean_query)
  (encoding : tx_encoding) (memo : option string) (ica_address : string) : outcome ica_packet :=
  match encoding with
  | Protobuf =>
      anys <- mapo (fun m => lean_convert m ica_address) messages ;;
      match queries with
      | [] => Ok (from_proto_anys anys memo)
      | _ :: _ =>
          reqs <- mapo lean_query_to_protobuf queries ;;
          q <- query_any ica_address reqs ;;
          Ok (from_proto_anys (anys ++ [q]) memo)
      end
  | Proto3Json => Err EStd
  end.

(** IcaPacketData::from_cosmos_msgs, src/ibc/types/packet.rs:148-171, without
    "staking". *)
Definition bare_from_cosmos_msgs (messages : list lean_msg) (encoding : tx_encoding) (memo : option string)
  (ica_address : string) : outcome ica_packet :=
  match encoding with
  | Protobuf =>
      anys <- mapo (fun m => lean_convert m ica_address) messages ;;
      Ok (from_proto_anys anys memo)
  | Proto3Json => Err EStd
  end.
