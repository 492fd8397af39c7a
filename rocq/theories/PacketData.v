(** * PacketData: src/ibc/types/packet.rs, events.rs and src/types/callbacks.rs. *)

From Verif Require Import Base Text Base64 Proto Schemas Json JsonCodec Types JsonTypes Store
  CosmosMsg QueryMsg.
Local Open Scope string_scope.
Local Open Scope list_scope.
Local Open Scope N_scope.

(** packet.rs:16 *)
Definition DEFAULT_TIMEOUT_SECONDS : N := 600.

(** IcaPacketData::new, from_proto_anys: packet.rs:51-65 *)
Definition proto_any (x : any) : pv := VMsg [str (a_url x); str (a_value x)].
(** src/ibc/types/packet.rs:61-65. *)
Definition from_proto_anys (l : list any) (memo : option string) : ica_packet :=
  IcaPacket 1 (pb_encode d_cosmos_tx [map proto_any l]) memo.

(** The MsgModuleQuerySafe appended for the queries, packet.rs:118-125, with the
    name of query_msg.rs:698-701 *)
Definition query_any (signer : string) (reqs : list abci) : outcome any :=
  any_from_msg "ibc.applications.interchain_accounts.host.v1.MsgModuleQuerySafe"
    d_msg_module_query_safe
    [str signer; map (fun '(path, data, _) => VMsg [str path; str data]) reqs].

(** IcaPacketData::from_cosmos_msgs, packet.rs:80-134: the packet, and the paths
    saved in QUERY when there are queries.  (The fold over the queries panics
    at the first unsupported one.) *)
Definition from_cosmos_msgs (s : cstore) (messages : list cosmos_msg)
  (queries : list query_request) (encoding : tx_encoding) (memo : option string)
  (ica_address : string) : outcome (cstore * ica_packet) :=
  match encoding with
  | Protobuf =>
      anys <- mapo (fun m => convert_to_proto_any m ica_address) messages ;;
      match queries with
      | [] => Ok (s, from_proto_anys anys memo)
      | _ :: _ =>
          reqs <- mapo query_to_protobuf queries ;;
          let s := set_query (Some (map (fun '(path, _, sg) => (path, sg)) reqs)) s in
          q <- query_any ica_address reqs ;;
          Ok (s, from_proto_anys (anys ++ [q]) memo)
      end
  | Proto3Json => Err EStd
  end.

(** [Timestamp::plus_seconds]: 64-bit arithmetic with overflow checks
    (cosmwasm_std crate, called at src/ibc/types/packet.rs:184-187.) *)
Definition plus_seconds (t secs : N) : outcome N :=
  if secs * 1000000000 <? u64_lim then
    if t + secs * 1000000000 <? u64_lim then Ok (t + secs * 1000000000) else Panic
  else Panic.

(** IcaPacketData::to_ibc_msg, packet.rs:178-193 *)
Definition to_ibc_msg (p : ica_packet) (e : env) (channel_id : string)
  (timeout_seconds : option N) : outcome ibc_msg :=
  t <- plus_seconds (env_time e) (unwrap_or timeout_seconds DEFAULT_TIMEOUT_SECONDS) ;;
  Ok (IbcSendPacket channel_id (to_json jc_ica_packet p) (Timeout None (Some t))).

(** ** Acknowledgements *)

(** Data::to_tx_msg_data, packet.rs:225-230: the [msg_responses] of the TxMsgData *)
Definition to_tx_msg_data (a : ack_data) : outcome (list any) :=
  match a with
  | AckResult data =>
      m <- pb_dec d_tx_msg_data data ;;
      Ok (map (fun f => Any (get_str f 0) (get_str f 1)) (get_msgs m 1))
  | AckError _ => Err EStd
  end.

(** MsgModuleQuerySafeResponse::decode (src/ibc/types/packet.rs:246, 265.) *)
Definition decode_mqs_response (s : string) : outcome mqs_response :=
  m <- pb_dec d_msg_module_query_safe_response s ;;
  Ok (MqsResponse (get_num m 0) (get_strs m 1)).

(** [slice::last] (src/ibc/types/packet.rs:261.) *)
Fixpoint last_opt {A} (l : list A) : option A :=
  match l with [] => None | [x] => Some x | _ :: r => last_opt r end.

(** Data::decode_module_query_safe_resp, packet.rs:237-249 *)
Definition decode_resp_at (a : ack_data) (index : nat) : outcome mqs_response :=
  l <- to_tx_msg_data a ;;
  x <- of_option (nth_error l index) EStd ;;
  decode_mqs_response (a_value x).

(** Data::decode_module_query_safe_resp_last_index, packet.rs:257-268 *)
Definition decode_resp_last (a : ack_data) : outcome mqs_response :=
  l <- to_tx_msg_data a ;;
  x <- of_option (last_opt l) EStd ;;
  decode_mqs_response (a_value x).

(** ** Events, events.rs:20-63 *)

(** attributes::from_packet, src/ibc/types/events.rs:49-62. *)
Definition packet_attrs (p : packet) : list (string * string) :=
  [("packet_sequence", dec (p_seq p)); ("packet_src_port", e_port (p_src p));
   ("packet_src_channel", e_chan (p_src p))].
(** packet_ack::success, src/ibc/types/events.rs:29-33. *)
Definition event_success (p : packet) (resp : string) : event :=
  Event "acknowledge_packet" (packet_attrs p ++ [("packet_ack_base64", b64_enc resp)]).
(** packet_ack::error, src/ibc/types/events.rs:37-41. *)
Definition event_error (p : packet) (err : string) : event :=
  Event "acknowledge_packet" (packet_attrs p ++ [("error", err)]).

(** ** Callbacks: into_json_binary, into_cosmos_msg, callbacks.rs:67-89 *)

(** src/types/callbacks.rs:67-89. *)
Definition callback_cosmos_msg (cb : callback_msg) (contract_addr : string) : cosmos_msg :=
  MWasm (WasmExecute contract_addr (to_json jc_receiver cb) []).
