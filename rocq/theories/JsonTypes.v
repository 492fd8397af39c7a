(** * JsonTypes: the JSON form (serde) of the types of the interface. *)

From Verif Require Import Base Utf8 Text Base64 Json JsonCodec Types.
Local Open Scope string_scope.
Local Open Scope N_scope.

Notation "a &o b" := (o_pair a b) (at level 60, right associativity).
Notation "a |v b" := (v_sum a b) (at level 70, right associativity).
Notation v_struct k deny o := (v_one k (jc_struct deny o)).

Ltac jmap := apply jc_map_ok; [ intros []; reflexivity | jok ].

(** ** cosmwasm_std *)

(** cosmwasm_std::Coin: in the messages of src/types/msg.rs:49 and the answers of
    src/types/query_msg.rs:143-147, 209. *)
Definition jc_coin : jcodec coin :=
  jc_map (jc_struct false (o_req "denom" jc_str &o o_req "amount" (jc_uint_str u128_lim)))
    (fun c => (c_denom c, c_amount c)) (fun '(d, a) => Coin d a).

(** [Vec<u8>]: an array of numbers (The data of the packet, src/ibc/types/packet.rs:41.) *)
Fixpoint bytes_to_list (s : string) : list N :=
  match s with "" => [] | String c r => bn c :: bytes_to_list r end.
(** (The data of the packet, src/ibc/types/packet.rs:41.) *)
Fixpoint list_to_bytes (l : list N) : string :=
  match l with [] => "" | n :: r => String (nb n) (list_to_bytes r) end.
(** (The data of the packet, src/ibc/types/packet.rs:41.) *)
Definition jc_bytes : jcodec string :=
  jc_map (jc_list (jc_uint 256)) bytes_to_list list_to_bytes.

(** IbcOrder (cosmwasm_std crate; src/types/msg.rs:117.) *)
Definition jc_order : jcodec order :=
  jc_map (jc_enum (v_unit "ORDER_UNORDERED" |v v_unit "ORDER_ORDERED"))
    (fun o => match o with Unordered => inl tt | Ordered => inr tt end)
    (fun s => match s with inl _ => Unordered | inr _ => Ordered end).

(** cosmwasm_std::IbcEndpoint, IbcChannel: src/types/state.rs:166, src/types/callbacks.rs:53. *)
Definition jc_endpoint : jcodec endpoint :=
  jc_map (jc_struct false (o_req "port_id" jc_str &o o_req "channel_id" jc_str))
    (fun e => (e_port e, e_chan e)) (fun '(p, c) => Endpoint p c).

(** cosmwasm_std::IbcEndpoint, IbcChannel: src/types/state.rs:166, src/types/callbacks.rs:53. *)
Definition jc_channel : jcodec channel :=
  jc_map (jc_struct false
      (o_req "endpoint" jc_endpoint &o o_req "counterparty_endpoint" jc_endpoint
       &o o_req "order" jc_order &o o_req "version" jc_str &o o_req "connection_id" jc_str))
    (fun c => (ch_endpoint c, (ch_counterparty c, (ch_order c, (ch_version c, ch_connection c)))))
    (fun '(a, (b, (c, (d, e)))) => Channel a b c d e).

(** Timestamp: nanoseconds as a string (cosmwasm_std crate, in IbcTimeout.) *)
Definition jc_timestamp : jcodec N := jc_uint_str u64_lim.

(** cosmwasm_std::IbcTimeoutBlock, IbcTimeout, IbcPacket: src/types/callbacks.rs:33, 45. *)
Definition jc_timeout_block : jcodec timeout_block :=
  jc_map (jc_struct false (o_req "revision" (jc_uint u64_lim) &o o_req "height" (jc_uint u64_lim)))
    (fun b => (tb_revision b, tb_height b)) (fun '(r, h) => TimeoutBlock r h).

(** cosmwasm_std::IbcTimeoutBlock, IbcTimeout, IbcPacket: src/types/callbacks.rs:33, 45. *)
Definition jc_timeout : jcodec timeout :=
  jc_map (jc_struct false (o_opt "block" jc_timeout_block &o o_opt "timestamp" jc_timestamp))
    (fun t => (to_block t, to_timestamp t)) (fun '(b, t) => Timeout b t).

(** cosmwasm_std::IbcTimeoutBlock, IbcTimeout, IbcPacket: src/types/callbacks.rs:33, 45. *)
Definition jc_packet : jcodec packet :=
  jc_map (jc_struct false
      (o_req "data" jc_bin &o o_req "src" jc_endpoint &o o_req "dest" jc_endpoint
       &o o_req "sequence" (jc_uint u64_lim) &o o_req "timeout" jc_timeout))
    (fun p => (p_data p, (p_src p, (p_dest p, (p_seq p, p_timeout p)))))
    (fun '(a, (b, (c, (d, e)))) => Packet a b c d e).

(** ** Contract types *)

(** TxEncoding, metadata.rs:42-50 *)
Definition jc_encoding : jcodec tx_encoding :=
  jc_map (jc_enum (v_unit "proto3" |v v_unit "proto3json"))
    (fun e => match e with Protobuf => inl tt | Proto3Json => inr tt end)
    (fun s => match s with inl _ => Protobuf | inr _ => Proto3Json end).

(** IcaMetadata, metadata.rs:21-39 *)
Definition jc_metadata : jcodec metadata :=
  jc_map (jc_struct true
      (o_req "version" jc_str &o o_req "controller_connection_id" jc_str
       &o o_req "host_connection_id" jc_str &o o_req "address" jc_str
       &o o_req "encoding" jc_encoding &o o_req "tx_type" jc_str))
    (fun m => (md_version m, (md_controller m, (md_host m, (md_address m, (md_encoding m, md_tx_type m))))))
    (fun '(a, (b, (c, (d, (e, f))))) => Metadata a b c d e f).

(** IcaPacketData, packet.rs:27-46: type, data, memo *)
Record ica_packet := IcaPacket { ip_type : N; ip_data : string; ip_memo : option string }.
(** src/ibc/types/packet.rs:27-46, written at src/ibc/types/packet.rs:190. *)
Definition jc_ica_packet : jcodec ica_packet :=
  jc_map (jc_struct true
      (o_req "type" (jc_uint u32_lim) &o o_req "data" jc_bytes &o o_skip "memo" jc_str))
    (fun p => (ip_type p, (ip_data p, ip_memo p))) (fun '(a, (b, c)) => IcaPacket a b c).

(** acknowledgement::Data, packet.rs:211-218 *)
Definition jc_ack : jcodec ack_data :=
  jc_map (jc_enum (v_one "result" jc_bin |v v_one "error" jc_str))
    (fun a => match a with AckResult d => inl d | AckError e => inr e end)
    (fun s => match s with inl d => AckResult d | inr e => AckError e end).

(** IcaInfo, ContractState: state.rs:53-63, 104-109 *)
Definition jc_ica_info : jcodec ica_info :=
  jc_map (jc_struct true
      (o_req "ica_address" jc_str &o o_req "channel_id" jc_str &o o_req "encoding" jc_encoding))
    (fun i => (ii_address i, (ii_channel i, ii_encoding i))) (fun '(a, (b, c)) => IcaInfo a b c).

(** src/types/state.rs:53-63 (plain serde derive), answer of src/contract.rs:100. *)
Definition jc_contract_state : jcodec contract_state :=
  jc_map (jc_struct false (o_opt "ica_info" jc_ica_info &o o_opt "callback_address" jc_str))
    (fun c => (cs_ica c, cs_callback c)) (fun '(a, b) => ContractState a b).

(** ChannelStatus, ChannelState: state.rs:134-169 *)
Definition jc_status : jcodec channel_status :=
  jc_map (jc_enum (v_unit "STATE_UNINITIALIZED_UNSPECIFIED" |v v_unit "STATE_INIT"
      |v v_unit "STATE_TRYOPEN" |v v_unit "STATE_OPEN" |v v_unit "STATE_CLOSED"
      |v v_unit "STATE_FLUSHING" |v v_unit "STATE_FLUSHCOMPLETE"))
    (fun s => match s with
      | StUninitialized => inl tt
      | StInit => inr (inl tt)
      | StTryOpen => inr (inr (inl tt))
      | StOpen => inr (inr (inr (inl tt)))
      | StClosed => inr (inr (inr (inr (inl tt))))
      | StFlushing => inr (inr (inr (inr (inr (inl tt)))))
      | StFlushComplete => inr (inr (inr (inr (inr (inr tt)))))
      end)
    (fun s => match s with
      | inl _ => StUninitialized
      | inr (inl _) => StInit
      | inr (inr (inl _)) => StTryOpen
      | inr (inr (inr (inl _))) => StOpen
      | inr (inr (inr (inr (inl _)))) => StClosed
      | inr (inr (inr (inr (inr (inl _))))) => StFlushing
      | inr (inr (inr (inr (inr (inr _))))) => StFlushComplete
      end).

(** src/types/state.rs:163-169, answer of src/contract.rs:101. *)
Definition jc_channel_state : jcodec channel_state :=
  jc_map (jc_struct true (o_req "channel" jc_channel &o o_req "channel_status" jc_status))
    (fun c => (cst_channel c, cst_status c)) (fun '(a, b) => ChannelState a b).

(** ChannelOpenInitOptions, msg.rs:96-118 (plain serde derive) *)
Definition jc_options : jcodec open_options :=
  jc_map (jc_struct false
      (o_req "connection_id" jc_str &o o_req "counterparty_connection_id" jc_str
       &o o_opt "counterparty_port_id" jc_str &o o_opt "channel_ordering" jc_order))
    (fun o => (oo_connection o, (oo_cp_connection o, (oo_cp_port o, oo_ordering o))))
    (fun '(a, (b, (c, d))) => OpenOptions a b c d).

(** cw_utils::Expiration (cw_utils crate, in the ownership of src/contract.rs:102.) *)
Definition jc_expiration : jcodec expiration :=
  jc_map (jc_enum (v_one "at_height" (jc_uint u64_lim) |v v_one "at_time" jc_timestamp
      |v v_struct "never" true o_unit))
    (fun e => match e with AtHeight h => inl h | AtTime t => inr (inl t) | Never => inr (inr tt) end)
    (fun s => match s with inl h => AtHeight h | inr (inl t) => AtTime t | inr (inr _) => Never end).

(** cw_ownable::Ownership (cw_ownable crate; src/contract.rs:102.) *)
Definition jc_ownership : jcodec ownership :=
  jc_map (jc_struct true (o_opt "owner" jc_str &o o_opt "pending_owner" jc_str
      &o o_opt "pending_expiry" jc_expiration))
    (fun o => (ow_owner o, (ow_pending o, ow_expiry o))) (fun '(a, (b, c)) => Ownership a b c).

(** cw_ownable::Action (cw_ownable crate; src/types/msg.rs:24, src/contract.rs:81.) *)
Definition jc_action : jcodec own_action :=
  jc_map (jc_enum (v_struct "transfer_ownership" true
        (o_req "new_owner" jc_str &o o_opt "expiry" jc_expiration)
      |v v_unit "accept_ownership" |v v_unit "renounce_ownership"))
    (fun a => match a with
      | TransferOwnership n e => inl (n, e)
      | AcceptOwnership => inr (inl tt)
      | RenounceOwnership => inr (inr tt) end)
    (fun s => match s with
      | inl (n, e) => TransferOwnership n e
      | inr (inl _) => AcceptOwnership
      | inr (inr _) => RenounceOwnership end).

(** ** Query responses, query_msg.rs:100-211 *)

(** cosmwasm_std::DenomUnit, DenomMetadata: src/types/query_msg.rs:149, 151. *)
Definition jc_denom_unit : jcodec denom_unit :=
  jc_map (jc_struct false (o_req "denom" jc_str &o o_req "exponent" (jc_uint u32_lim)
      &o o_vec_null "aliases" jc_str))
    (fun u => (du_denom u, (du_exponent u, du_aliases u))) (fun '(a, (b, c)) => DenomUnit a b c).

(** cosmwasm_std::DenomUnit, DenomMetadata: src/types/query_msg.rs:149, 151. *)
Definition jc_denom_metadata : jcodec denom_metadata :=
  jc_map (jc_struct false
      (o_req "description" jc_str &o o_vec_null "denom_units" jc_denom_unit &o o_req "base" jc_str
       &o o_req "display" jc_str &o o_req "name" jc_str &o o_req "symbol" jc_str
       &o o_req "uri" jc_str &o o_req "uri_hash" jc_str))
    (fun m => (dm_description m, (dm_units m, (dm_base m, (dm_display m, (dm_name m,
       (dm_symbol m, (dm_uri m, dm_uri_hash m))))))))
    (fun '(a, (b, (c, (d, (e, (f, (g, h))))))) => DenomMetadata a b c d e f g h).

(** cosmwasm_std::ContractInfoResponse: src/types/query_msg.rs:161. *)
Definition jc_contract_info : jcodec contract_info :=
  jc_map (jc_struct false
      (o_req "code_id" (jc_uint u64_lim) &o o_req "creator" jc_str &o o_opt "admin" jc_str
       &o o_req "pinned" jc_bool &o o_opt "ibc_port" jc_str))
    (fun c => (ci_code_id c, (ci_creator c, (ci_admin c, (ci_pinned c, ci_ibc_port c)))))
    (fun '(a, (b, (c, (d, e)))) => ContractInfo a b c d e).

(** cosmwasm_std::Validator: src/types/query_msg.rs:182, 184. *)
Definition jc_validator : jcodec validator :=
  jc_map (jc_struct false
      (o_req "address" jc_str &o o_req "commission" jc_decimal
       &o o_req "max_commission" jc_decimal &o o_req "max_change_rate" jc_decimal))
    (fun v => (v_address v, (v_commission v, (v_max_commission v, v_max_change_rate v))))
    (fun '(a, (b, (c, d))) => Validator a b c d).

(** src/types/query_msg.rs:202-210. *)
Definition jc_delegation : jcodec delegation :=
  jc_map (jc_struct true
      (o_req "delegator" jc_str &o o_req "validator" jc_str &o o_req "amount" jc_coin))
    (fun d => (d_delegator d, (d_validator d, d_amount d))) (fun '(a, (b, c)) => Delegation a b c).

(** BankQueryResponse (src/types/query_msg.rs:140-152.) *)
Definition jc_bank_response : jcodec bank_response :=
  jc_map (jc_enum (v_struct "supply" false (o_req "amount" jc_coin)
      |v v_struct "balance" false (o_req "amount" jc_coin)
      |v v_struct "all_balances" false (o_req "amount" (jc_list jc_coin))
      |v v_struct "denom_metadata" false (o_req "metadata" jc_denom_metadata)
      |v v_struct "all_denom_metadata" false
           (o_req "metadata" (jc_list jc_denom_metadata) &o o_opt "next_key" jc_bin)))
    (fun r => match r with
      | RSupply c => inl c
      | RBalance c => inr (inl c)
      | RAllBalances l => inr (inr (inl l))
      | RDenomMetadata m => inr (inr (inr (inl m)))
      | RAllDenomMetadata l k => inr (inr (inr (inr (l, k)))) end)
    (fun s => match s with
      | inl c => RSupply c
      | inr (inl c) => RBalance c
      | inr (inr (inl l)) => RAllBalances l
      | inr (inr (inr (inl m))) => RDenomMetadata m
      | inr (inr (inr (inr (l, k)))) => RAllDenomMetadata l k end).

(** WasmQueryResponse; the [CodeInfo] variant, which the contract never builds,
    is left out (src/types/query_msg.rs:156-169.) *)
Definition jc_wasm_response : jcodec wasm_response :=
  jc_map (jc_enum (v_one "contract_info" (jc_opt jc_contract_info)
      |v v_one "raw_contract_state" (jc_opt jc_bin)
      |v v_one "smart_contract_state" jc_bin))
    (fun r => match r with
      | RContractInfo i => inl i | RRaw d => inr (inl d) | RSmart d => inr (inr d) end)
    (fun s => match s with
      | inl i => RContractInfo i | inr (inl d) => RRaw d | inr (inr d) => RSmart d end).

(** StakingQueryResponse (src/types/query_msg.rs:173-199.) *)
Definition jc_staking_response : jcodec staking_response :=
  jc_map (jc_enum (v_struct "bonded_denom" false (o_req "denom" jc_str)
      |v v_struct "all_delegations" true (o_req "delegations" (jc_list jc_delegation))
      |v v_struct "delegation" true (o_opt "delegation" jc_delegation)
      |v v_struct "all_validators" false (o_req "validators" (jc_list jc_validator))
      |v v_struct "validator" false (o_opt "validator" jc_validator)))
    (fun r => match r with
      | RBondedDenom d => inl d
      | RAllDelegations l => inr (inl l)
      | RDelegation d => inr (inr (inl d))
      | RAllValidators l => inr (inr (inr (inl l)))
      | RValidator v => inr (inr (inr (inr v))) end)
    (fun s => match s with
      | inl d => RBondedDenom d
      | inr (inl l) => RAllDelegations l
      | inr (inr (inl d)) => RDelegation d
      | inr (inr (inr (inl l))) => RAllValidators l
      | inr (inr (inr (inr v))) => RValidator v end).

(** IcaQueryResponse (src/types/query_msg.rs:120-136.) *)
Definition jc_query_response : jcodec query_response :=
  jc_map (jc_enum (v_one "bank" jc_bank_response
      |v v_struct "stargate" true (o_req "data" jc_bin &o o_req "path" jc_str)
      |v v_one "wasm" jc_wasm_response |v v_one "staking" jc_staking_response))
    (fun r => match r with
      | RBank b => inl b
      | RStargate d p => inr (inl (d, p))
      | RWasm w => inr (inr (inl w))
      | RStaking s => inr (inr (inr s)) end)
    (fun s => match s with
      | inl b => RBank b
      | inr (inl (d, p)) => RStargate d p
      | inr (inr (inl w)) => RWasm w
      | inr (inr (inr s)) => RStaking s end).

(** IcaQueryResult (src/types/query_msg.rs:104-116.) *)
Definition jc_query_result : jcodec query_result :=
  jc_map (jc_enum (v_struct "success" true
        (o_req "height" (jc_uint u64_lim) &o o_req "responses" (jc_list jc_query_response))
      |v v_one "error" jc_str))
    (fun r => match r with QRSuccess h l => inl (h, l) | QRError e => inr e end)
    (fun s => match s with inl (h, l) => QRSuccess h l | inr e => QRError e end).

(** ** Callbacks, callbacks.rs:15-59, 94-97 *)

(** src/types/callbacks.rs:16-59 (plain serde derive; the "query" feature is on). *)
Definition jc_callback : jcodec callback_msg :=
  jc_map (jc_enum
      (v_struct "on_acknowledgement_packet_callback" false
        (o_req "ica_acknowledgement" jc_ack &o o_req "original_packet" jc_packet
         &o o_req "relayer" jc_str &o o_skip "query_result" jc_query_result)
      |v v_struct "on_timeout_packet_callback" false
        (o_req "original_packet" jc_packet &o o_req "relayer" jc_str)
      |v v_struct "on_channel_open_ack_callback" false
        (o_req "channel" jc_channel &o o_req "ica_address" jc_str
         &o o_req "tx_encoding" jc_encoding)))
    (fun c => match c with
      | CbAck a p r q => inl (a, (p, (r, q)))
      | CbTimeout p r => inr (inl (p, r))
      | CbOpenAck c a e => inr (inr (c, (a, e))) end)
    (fun s => match s with
      | inl (a, (p, (r, q))) => CbAck a p r q
      | inr (inl (p, r)) => CbTimeout p r
      | inr (inr (c, (a, e))) => CbOpenAck c a e end).

(** ReceiverExecuteMsg, callbacks.rs:94-97 *)
Definition jc_receiver : jcodec callback_msg :=
  jc_enum (v_one "receive_ica_callback" jc_callback).

(** ** Pending query paths, state.rs:37, 42: Vec<(String, bool)> *)
Definition jc_paths : jcodec (list (string * bool)) := jc_list (jc_tup jc_str jc_bool).

(** cw2::ContractVersion (cw2 crate; src/contract.rs:21, 113, 315.) *)
Definition jc_version : jcodec (string * string) :=
  jc_struct true (o_req "contract" jc_str &o o_req "version" jc_str).

(** ** Messages *)

(** cosmwasm_std::BankMsg, in src/types/msg.rs:49. *)
Definition jc_bank_msg : jcodec bank_msg :=
  jc_map (jc_enum (v_struct "send" false (o_req "to_address" jc_str &o o_req "amount" (jc_list jc_coin))
      |v v_struct "burn" false (o_req "amount" (jc_list jc_coin))))
    (fun m => match m with BankSend t a => inl (t, a) | BankBurn a => inr a end)
    (fun s => match s with inl (t, a) => BankSend t a | inr a => BankBurn a end).

(** cosmwasm_std::IbcMsg, in src/types/msg.rs:49. *)
Definition jc_ibc_msg : jcodec ibc_msg :=
  jc_map (jc_enum
      (v_struct "transfer" false
        (o_req "channel_id" jc_str &o o_req "to_address" jc_str &o o_req "amount" jc_coin
         &o o_req "timeout" jc_timeout &o o_opt "memo" jc_str)
      |v v_struct "send_packet" false
        (o_req "channel_id" jc_str &o o_req "data" jc_bin &o o_req "timeout" jc_timeout)
      |v v_struct "close_channel" false (o_req "channel_id" jc_str)))
    (fun m => match m with
      | IbcTransfer c t a o k => inl (c, (t, (a, (o, k))))
      | IbcSendPacket c d t => inr (inl (c, (d, t)))
      | IbcCloseChannel c => inr (inr c) end)
    (fun s => match s with
      | inl (c, (t, (a, (o, k)))) => IbcTransfer c t a o k
      | inr (inl (c, (d, t))) => IbcSendPacket c d t
      | inr (inr c) => IbcCloseChannel c end).

(** cosmwasm_std::WasmMsg, in src/types/msg.rs:49. *)
Definition jc_wasm_msg : jcodec wasm_msg :=
  jc_map (jc_enum
      (v_struct "execute" false
        (o_req "contract_addr" jc_str &o o_req "msg" jc_bin &o o_req "funds" (jc_list jc_coin))
      |v v_struct "instantiate" false
        (o_opt "admin" jc_str &o o_req "code_id" (jc_uint u64_lim) &o o_req "msg" jc_bin
         &o o_req "funds" (jc_list jc_coin) &o o_req "label" jc_str)
      |v v_struct "instantiate2" false
        (o_opt "admin" jc_str &o o_req "code_id" (jc_uint u64_lim) &o o_req "label" jc_str
         &o o_req "msg" jc_bin &o o_req "funds" (jc_list jc_coin) &o o_req "salt" jc_bin)
      |v v_struct "migrate" false
        (o_req "contract_addr" jc_str &o o_req "new_code_id" (jc_uint u64_lim) &o o_req "msg" jc_bin)
      |v v_struct "update_admin" false (o_req "contract_addr" jc_str &o o_req "admin" jc_str)
      |v v_struct "clear_admin" false (o_req "contract_addr" jc_str)))
    (fun m => match m with
      | WasmExecute c m f => inl (c, (m, f))
      | WasmInstantiate a c m f l => inr (inl (a, (c, (m, (f, l)))))
      | WasmInstantiate2 a c l m f s => inr (inr (inl (a, (c, (l, (m, (f, s)))))))
      | WasmMigrate c n m => inr (inr (inr (inl (c, (n, m)))))
      | WasmUpdateAdmin c a => inr (inr (inr (inr (inl (c, a)))))
      | WasmClearAdmin c => inr (inr (inr (inr (inr c)))) end)
    (fun s => match s with
      | inl (c, (m, f)) => WasmExecute c m f
      | inr (inl (a, (c, (m, (f, l))))) => WasmInstantiate a c m f l
      | inr (inr (inl (a, (c, (l, (m, (f, s))))))) => WasmInstantiate2 a c l m f s
      | inr (inr (inr (inl (c, (n, m))))) => WasmMigrate c n m
      | inr (inr (inr (inr (inl (c, a))))) => WasmUpdateAdmin c a
      | inr (inr (inr (inr (inr c)))) => WasmClearAdmin c end).

(** cosmwasm_std::VoteOption, WeightedVoteOption, GovMsg, in src/types/msg.rs:49. *)
Definition jc_vote_option : jcodec vote_option :=
  jc_map (jc_enum (v_unit "yes" |v v_unit "no" |v v_unit "abstain" |v v_unit "no_with_veto"))
    (fun o => match o with
      | VoteYes => inl tt | VoteNo => inr (inl tt) | VoteAbstain => inr (inr (inl tt))
      | VoteNoWithVeto => inr (inr (inr tt)) end)
    (fun s => match s with
      | inl _ => VoteYes | inr (inl _) => VoteNo | inr (inr (inl _)) => VoteAbstain
      | inr (inr (inr _)) => VoteNoWithVeto end).

(** cosmwasm_std::VoteOption, WeightedVoteOption, GovMsg, in src/types/msg.rs:49. *)
Definition jc_weighted_vote : jcodec weighted_vote :=
  jc_map (jc_struct false (o_req "option" jc_vote_option &o o_req "weight" jc_decimal))
    (fun w => (wv_option w, wv_weight w)) (fun '(o, w) => WeightedVote o w).

(** cosmwasm_std::VoteOption, WeightedVoteOption, GovMsg, in src/types/msg.rs:49. *)
Definition jc_gov_msg : jcodec gov_msg :=
  jc_map (jc_enum
      (v_struct "vote" false (o_req "proposal_id" (jc_uint u64_lim) &o o_req "option" jc_vote_option)
      |v v_struct "vote_weighted" false
        (o_req "proposal_id" (jc_uint u64_lim) &o o_req "options" (jc_list jc_weighted_vote))))
    (fun m => match m with GovVote p o => inl (p, o) | GovVoteWeighted p o => inr (p, o) end)
    (fun s => match s with inl (p, o) => GovVote p o | inr (p, o) => GovVoteWeighted p o end).

(** cosmwasm_std::StakingMsg, in src/types/msg.rs:49. *)
Definition jc_staking_msg : jcodec staking_msg :=
  jc_map (jc_enum
      (v_struct "delegate" false (o_req "validator" jc_str &o o_req "amount" jc_coin)
      |v v_struct "undelegate" false (o_req "validator" jc_str &o o_req "amount" jc_coin)
      |v v_struct "redelegate" false
        (o_req "src_validator" jc_str &o o_req "dst_validator" jc_str &o o_req "amount" jc_coin)))
    (fun m => match m with
      | StDelegate v a => inl (v, a) | StUndelegate v a => inr (inl (v, a))
      | StRedelegate s d a => inr (inr (s, (d, a))) end)
    (fun s => match s with
      | inl (v, a) => StDelegate v a | inr (inl (v, a)) => StUndelegate v a
      | inr (inr (s, (d, a))) => StRedelegate s d a end).

(** cosmwasm_std::DistributionMsg, in src/types/msg.rs:49. *)
Definition jc_dist_msg : jcodec dist_msg :=
  jc_map (jc_enum
      (v_struct "set_withdraw_address" false (o_req "address" jc_str)
      |v v_struct "withdraw_delegator_reward" false (o_req "validator" jc_str)
      |v v_struct "fund_community_pool" false (o_req "amount" (jc_list jc_coin))))
    (fun m => match m with
      | DistSetWithdrawAddress a => inl a | DistWithdrawReward v => inr (inl v)
      | DistFundCommunityPool a => inr (inr a) end)
    (fun s => match s with
      | inl a => DistSetWithdrawAddress a | inr (inl v) => DistWithdrawReward v
      | inr (inr a) => DistFundCommunityPool a end).

(** cosmwasm_std::CosmosMsg, src/types/msg.rs:49. *)
Definition jc_cosmos_msg : jcodec cosmos_msg :=
  jc_map (jc_enum
      (v_one "bank" jc_bank_msg |v v_struct "custom" false o_unit |v v_one "staking" jc_staking_msg
       |v v_one "distribution" jc_dist_msg
       |v v_struct "stargate" false (o_req "type_url" jc_str &o o_req "value" jc_bin)
       |v v_one "ibc" jc_ibc_msg |v v_one "wasm" jc_wasm_msg |v v_one "gov" jc_gov_msg))
    (fun m => match m with
      | MBank m => inl m
      | MCustom => inr (inl tt)
      | MStaking m => inr (inr (inl m))
      | MDistribution m => inr (inr (inr (inl m)))
      | MStargate t v => inr (inr (inr (inr (inl (t, v)))))
      | MIbc m => inr (inr (inr (inr (inr (inl m)))))
      | MWasm m => inr (inr (inr (inr (inr (inr (inl m))))))
      | MGov m => inr (inr (inr (inr (inr (inr (inr m)))))) end)
    (fun s => match s with
      | inl m => MBank m
      | inr (inl _) => MCustom
      | inr (inr (inl m)) => MStaking m
      | inr (inr (inr (inl m))) => MDistribution m
      | inr (inr (inr (inr (inl (t, v))))) => MStargate t v
      | inr (inr (inr (inr (inr (inl m))))) => MIbc m
      | inr (inr (inr (inr (inr (inr (inl m)))))) => MWasm m
      | inr (inr (inr (inr (inr (inr (inr m)))))) => MGov m end).

(** cosmwasm_std::PageRequest, BankQuery, in src/types/msg.rs:56. *)
Definition jc_page_request : jcodec page_request :=
  jc_map (jc_struct false
      (o_opt "key" jc_bin &o o_req "limit" (jc_uint u32_lim) &o o_req "reverse" jc_bool))
    (fun p => (pg_key p, (pg_limit p, pg_reverse p))) (fun '(a, (b, c)) => PageReq a b c).

(** cosmwasm_std::PageRequest, BankQuery, in src/types/msg.rs:56. *)
Definition jc_bank_query : jcodec bank_query :=
  jc_map (jc_enum
      (v_struct "supply" false (o_req "denom" jc_str)
      |v v_struct "balance" false (o_req "address" jc_str &o o_req "denom" jc_str)
      |v v_struct "all_balances" false (o_req "address" jc_str)
      |v v_struct "denom_metadata" false (o_req "denom" jc_str)
      |v v_struct "all_denom_metadata" false (o_opt "pagination" jc_page_request)))
    (fun q => match q with
      | QSupply d => inl d | QBalance a d => inr (inl (a, d)) | QAllBalances a => inr (inr (inl a))
      | QDenomMetadata d => inr (inr (inr (inl d)))
      | QAllDenomMetadata p => inr (inr (inr (inr p))) end)
    (fun s => match s with
      | inl d => QSupply d | inr (inl (a, d)) => QBalance a d | inr (inr (inl a)) => QAllBalances a
      | inr (inr (inr (inl d))) => QDenomMetadata d
      | inr (inr (inr (inr p))) => QAllDenomMetadata p end).

(** cosmwasm_std::WasmQuery, in src/types/msg.rs:56. *)
Definition jc_wasm_query : jcodec wasm_query :=
  jc_map (jc_enum
      (v_struct "smart" false (o_req "contract_addr" jc_str &o o_req "msg" jc_bin)
      |v v_struct "raw" false (o_req "contract_addr" jc_str &o o_req "key" jc_bin)
      |v v_struct "contract_info" false (o_req "contract_addr" jc_str)
      |v v_struct "code_info" false (o_req "code_id" (jc_uint u64_lim))))
    (fun q => match q with
      | QSmart c m => inl (c, m) | QRaw c k => inr (inl (c, k))
      | QContractInfo c => inr (inr (inl c)) | QCodeInfo c => inr (inr (inr c)) end)
    (fun s => match s with
      | inl (c, m) => QSmart c m | inr (inl (c, k)) => QRaw c k
      | inr (inr (inl c)) => QContractInfo c | inr (inr (inr c)) => QCodeInfo c end).

(** cosmwasm_std::StakingQuery, in src/types/msg.rs:56. *)
Definition jc_staking_query : jcodec staking_query :=
  jc_map (jc_enum
      (v_struct "bonded_denom" false o_unit
      |v v_struct "all_delegations" false (o_req "delegator" jc_str)
      |v v_struct "delegation" false (o_req "delegator" jc_str &o o_req "validator" jc_str)
      |v v_struct "all_validators" false o_unit
      |v v_struct "validator" false (o_req "address" jc_str)))
    (fun q => match q with
      | QBondedDenom => inl tt | QAllDelegations d => inr (inl d)
      | QDelegation d v => inr (inr (inl (d, v))) | QAllValidators => inr (inr (inr (inl tt)))
      | QValidator a => inr (inr (inr (inr a))) end)
    (fun s => match s with
      | inl _ => QBondedDenom | inr (inl d) => QAllDelegations d
      | inr (inr (inl (d, v))) => QDelegation d v | inr (inr (inr (inl _))) => QAllValidators
      | inr (inr (inr (inr a))) => QValidator a end).

(** cosmwasm_std::DistributionQuery, in src/types/msg.rs:56. *)
Definition jc_dist_query : jcodec dist_query :=
  jc_map (jc_enum
      (v_struct "delegator_withdraw_address" false (o_req "delegator_address" jc_str)
      |v v_struct "delegation_rewards" false
        (o_req "delegator_address" jc_str &o o_req "validator_address" jc_str)
      |v v_struct "delegation_total_rewards" false (o_req "delegator_address" jc_str)
      |v v_struct "delegator_validators" false (o_req "delegator_address" jc_str)))
    (fun q => match q with
      | QDelegatorWithdrawAddress a => inl a | QDelegationRewards d v => inr (inl (d, v))
      | QDelegationTotalRewards d => inr (inr (inl d))
      | QDelegatorValidators d => inr (inr (inr d)) end)
    (fun s => match s with
      | inl a => QDelegatorWithdrawAddress a | inr (inl (d, v)) => QDelegationRewards d v
      | inr (inr (inl d)) => QDelegationTotalRewards d
      | inr (inr (inr d)) => QDelegatorValidators d end).

(** cosmwasm_std::IbcQuery, in src/types/msg.rs:56. *)
Definition jc_ibc_query : jcodec ibc_query :=
  jc_map (jc_enum
      (v_struct "port_id" false o_unit
      |v v_struct "list_channels" false (o_opt "port_id" jc_str)
      |v v_struct "channel" false (o_req "channel_id" jc_str &o o_opt "port_id" jc_str)))
    (fun q => match q with
      | QPortId => inl tt | QListChannels p => inr (inl p) | QChannel c p => inr (inr (c, p)) end)
    (fun s => match s with
      | inl _ => QPortId | inr (inl p) => QListChannels p | inr (inr (c, p)) => QChannel c p end).

(** cosmwasm_std::QueryRequest, src/types/msg.rs:56. *)
Definition jc_query_request : jcodec query_request :=
  jc_map (jc_enum
      (v_one "bank" jc_bank_query |v v_struct "custom" false o_unit
       |v v_one "staking" jc_staking_query |v v_one "distribution" jc_dist_query
       |v v_struct "stargate" false (o_req "path" jc_str &o o_req "data" jc_bin)
       |v v_one "ibc" jc_ibc_query |v v_one "wasm" jc_wasm_query))
    (fun q => match q with
      | QBank q => inl q
      | QCustom => inr (inl tt)
      | QStaking q => inr (inr (inl q))
      | QDistribution q => inr (inr (inr (inl q)))
      | QStargate p d => inr (inr (inr (inr (inl (p, d)))))
      | QIbc q => inr (inr (inr (inr (inr (inl q)))))
      | QWasm q => inr (inr (inr (inr (inr (inr q))))) end)
    (fun s => match s with
      | inl q => QBank q
      | inr (inl _) => QCustom
      | inr (inr (inl q)) => QStaking q
      | inr (inr (inr (inl q))) => QDistribution q
      | inr (inr (inr (inr (inl (p, d))))) => QStargate p d
      | inr (inr (inr (inr (inr (inl q))))) => QIbc q
      | inr (inr (inr (inr (inr (inr q))))) => QWasm q end).

(** InstantiateMsg, msg.rs:9-21 *)
Definition jc_instantiate_msg : jcodec instantiate_msg :=
  jc_map (jc_struct true
      (o_skip "owner" jc_str &o o_req "channel_open_init_options" jc_options
       &o o_skip "send_callbacks_to" jc_str))
    (fun m => (im_owner m, (im_options m, im_callbacks m)))
    (fun '(a, (b, c)) => InstantiateMsg a b c).

(** ExecuteMsg, msg.rs:24-71 *)
Definition jc_execute_msg : jcodec execute_msg :=
  jc_map (jc_enum
      (v_struct "create_channel" true (o_skip "channel_open_init_options" jc_options)
      |v v_struct "close_channel" true o_unit
      |v v_struct "send_cosmos_msgs" true
        (o_vec_null "messages" jc_cosmos_msg &o o_vec_skip "queries" jc_query_request
         &o o_skip "packet_memo" jc_str &o o_skip "timeout_seconds" (jc_uint u64_lim))
      |v v_struct "update_callback_address" true (o_opt "callback_address" jc_str)
      |v v_one "update_ownership" jc_action))
    (fun m => match m with
      | XCreateChannel o => inl o
      | XCloseChannel => inr (inl tt)
      | XSendCosmosMsgs m q p t => inr (inr (inl (m, (q, (p, t)))))
      | XUpdateCallbackAddress c => inr (inr (inr (inl c)))
      | XUpdateOwnership a => inr (inr (inr (inr a))) end)
    (fun s => match s with
      | inl o => XCreateChannel o
      | inr (inl _) => XCloseChannel
      | inr (inr (inl (m, (q, (p, t))))) => XSendCosmosMsgs m q p t
      | inr (inr (inr (inl c))) => XUpdateCallbackAddress c
      | inr (inr (inr (inr a))) => XUpdateOwnership a end).

(** QueryMsg, msg.rs:74-85 *)
Definition jc_query_msg : jcodec query_msg :=
  jc_map (jc_enum (v_struct "get_channel" true o_unit |v v_struct "get_contract_state" true o_unit
      |v v_struct "ownership" true o_unit))
    (fun q => match q with
      | QGetChannel => inl tt | QGetContractState => inr (inl tt) | QOwnership => inr (inr tt) end)
    (fun s => match s with
      | inl _ => QGetChannel | inr (inl _) => QGetContractState | inr (inr _) => QOwnership end).

(** MigrateMsg, msg.rs:88-89 *)
Definition jc_migrate_msg : jcodec unit := jc_struct true o_unit.

(** ** All of these codecs are faithful *)

Lemma jc_coin_ok : jcodec_ok jc_coin. Proof. jmap. Qed.
Lemma bytes_roundtrip s : list_to_bytes (bytes_to_list s) = s.
Proof. induction s as [|c s IH]; cbn; [reflexivity|]. now rewrite nb_bn, IH. Qed.
Lemma jc_bytes_ok : jcodec_ok jc_bytes.
Proof. apply jc_map_ok; [apply bytes_roundtrip | jok]. Qed.
Lemma jc_order_ok : jcodec_ok jc_order. Proof. jmap. Qed.
Global Hint Resolve jc_coin_ok jc_bytes_ok jc_order_ok : jcodec.
Lemma jc_endpoint_ok : jcodec_ok jc_endpoint. Proof. jmap. Qed.
Global Hint Resolve jc_endpoint_ok : jcodec.
Lemma jc_channel_ok : jcodec_ok jc_channel. Proof. jmap. Qed.
Lemma jc_timestamp_ok : jcodec_ok jc_timestamp. Proof. apply jc_uint_str_ok. Qed.
Lemma jc_timeout_block_ok : jcodec_ok jc_timeout_block. Proof. jmap. Qed.
Global Hint Resolve jc_channel_ok jc_timestamp_ok jc_timeout_block_ok : jcodec.
Lemma jc_timeout_ok : jcodec_ok jc_timeout. Proof. jmap. Qed.
Global Hint Resolve jc_timeout_ok : jcodec.
Lemma jc_packet_ok : jcodec_ok jc_packet. Proof. jmap. Qed.
Lemma jc_encoding_ok : jcodec_ok jc_encoding. Proof. jmap. Qed.
Global Hint Resolve jc_packet_ok jc_encoding_ok : jcodec.
Lemma jc_metadata_ok : jcodec_ok jc_metadata. Proof. jmap. Qed.
Lemma jc_ica_packet_ok : jcodec_ok jc_ica_packet. Proof. jmap. Qed.
Lemma jc_ack_ok : jcodec_ok jc_ack. Proof. jmap. Qed.
Lemma jc_ica_info_ok : jcodec_ok jc_ica_info. Proof. jmap. Qed.
Global Hint Resolve jc_metadata_ok jc_ica_packet_ok jc_ack_ok jc_ica_info_ok : jcodec.
Lemma jc_contract_state_ok : jcodec_ok jc_contract_state. Proof. jmap. Qed.
Lemma jc_status_ok : jcodec_ok jc_status. Proof. jmap. Qed.
Global Hint Resolve jc_contract_state_ok jc_status_ok : jcodec.
Lemma jc_channel_state_ok : jcodec_ok jc_channel_state. Proof. jmap. Qed.
Lemma jc_options_ok : jcodec_ok jc_options. Proof. jmap. Qed.
Lemma jc_expiration_ok : jcodec_ok jc_expiration. Proof. jmap. Qed.
Global Hint Resolve jc_channel_state_ok jc_options_ok jc_expiration_ok : jcodec.
Lemma jc_ownership_ok : jcodec_ok jc_ownership. Proof. jmap. Qed.
Lemma jc_action_ok : jcodec_ok jc_action. Proof. jmap. Qed.
Lemma jc_denom_unit_ok : jcodec_ok jc_denom_unit. Proof. jmap. Qed.
Global Hint Resolve jc_ownership_ok jc_action_ok jc_denom_unit_ok : jcodec.
Lemma jc_denom_metadata_ok : jcodec_ok jc_denom_metadata. Proof. jmap. Qed.
Lemma jc_contract_info_ok : jcodec_ok jc_contract_info. Proof. jmap. Qed.
Lemma jc_validator_ok : jcodec_ok jc_validator. Proof. jmap. Qed.
Lemma jc_delegation_ok : jcodec_ok jc_delegation. Proof. jmap. Qed.
Global Hint Resolve jc_denom_metadata_ok jc_contract_info_ok jc_validator_ok jc_delegation_ok : jcodec.
Lemma jc_bank_response_ok : jcodec_ok jc_bank_response. Proof. jmap. Qed.
Lemma jc_wasm_response_ok : jcodec_ok jc_wasm_response. Proof. jmap. Qed.
Lemma jc_staking_response_ok : jcodec_ok jc_staking_response. Proof. jmap. Qed.
Global Hint Resolve jc_bank_response_ok jc_wasm_response_ok jc_staking_response_ok : jcodec.
Lemma jc_query_response_ok : jcodec_ok jc_query_response. Proof. jmap. Qed.
Global Hint Resolve jc_query_response_ok : jcodec.
Lemma jc_query_result_ok : jcodec_ok jc_query_result. Proof. jmap. Qed.
Global Hint Resolve jc_query_result_ok : jcodec.
Lemma jc_callback_ok : jcodec_ok jc_callback. Proof. jmap. Qed.
Global Hint Resolve jc_callback_ok : jcodec.
Lemma jc_receiver_ok : jcodec_ok jc_receiver. Proof. unfold jc_receiver. jok. Qed.
Lemma jc_paths_ok : jcodec_ok jc_paths. Proof. unfold jc_paths. jok. Qed.
Lemma jc_version_ok : jcodec_ok jc_version. Proof. unfold jc_version. jok. Qed.
Lemma jc_bank_msg_ok : jcodec_ok jc_bank_msg. Proof. jmap. Qed.
Lemma jc_ibc_msg_ok : jcodec_ok jc_ibc_msg. Proof. jmap. Qed.
Lemma jc_wasm_msg_ok : jcodec_ok jc_wasm_msg. Proof. jmap. Qed.
Lemma jc_vote_option_ok : jcodec_ok jc_vote_option. Proof. jmap. Qed.
Global Hint Resolve jc_bank_msg_ok jc_ibc_msg_ok jc_wasm_msg_ok jc_vote_option_ok : jcodec.
Lemma jc_weighted_vote_ok : jcodec_ok jc_weighted_vote. Proof. jmap. Qed.
Global Hint Resolve jc_weighted_vote_ok : jcodec.
Lemma jc_gov_msg_ok : jcodec_ok jc_gov_msg. Proof. jmap. Qed.
Lemma jc_staking_msg_ok : jcodec_ok jc_staking_msg. Proof. jmap. Qed.
Lemma jc_dist_msg_ok : jcodec_ok jc_dist_msg. Proof. jmap. Qed.
Global Hint Resolve jc_gov_msg_ok jc_staking_msg_ok jc_dist_msg_ok : jcodec.
Lemma jc_cosmos_msg_ok : jcodec_ok jc_cosmos_msg. Proof. jmap. Qed.
Lemma jc_page_request_ok : jcodec_ok jc_page_request. Proof. jmap. Qed.
Global Hint Resolve jc_cosmos_msg_ok jc_page_request_ok : jcodec.
Lemma jc_bank_query_ok : jcodec_ok jc_bank_query. Proof. jmap. Qed.
Lemma jc_wasm_query_ok : jcodec_ok jc_wasm_query. Proof. jmap. Qed.
Lemma jc_staking_query_ok : jcodec_ok jc_staking_query. Proof. jmap. Qed.
Lemma jc_dist_query_ok : jcodec_ok jc_dist_query. Proof. jmap. Qed.
Lemma jc_ibc_query_ok : jcodec_ok jc_ibc_query. Proof. jmap. Qed.
Global Hint Resolve jc_bank_query_ok jc_wasm_query_ok jc_staking_query_ok jc_dist_query_ok jc_ibc_query_ok : jcodec.
Lemma jc_query_request_ok : jcodec_ok jc_query_request. Proof. jmap. Qed.
Lemma jc_instantiate_msg_ok : jcodec_ok jc_instantiate_msg. Proof. jmap. Qed.
Global Hint Resolve jc_query_request_ok jc_instantiate_msg_ok : jcodec.
Lemma jc_execute_msg_ok : jcodec_ok jc_execute_msg. Proof. jmap. Qed.
Lemma jc_query_msg_ok : jcodec_ok jc_query_msg. Proof. jmap. Qed.
Lemma jc_migrate_msg_ok : jcodec_ok jc_migrate_msg. Proof. unfold jc_migrate_msg. jok. Qed.
