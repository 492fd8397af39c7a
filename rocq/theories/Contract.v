(** * Contract: the entry points, src/contract.rs, src/ibc/handshake.rs and
    src/ibc/relay.rs.

    Each entry point maps the store to the new store and the response.  On an
    error or a panic the chain discards the store, so none is returned. *)

From Verif Require Import Base Proto Schemas Json JsonCodec Types JsonTypes Store
  CosmosMsg QueryMsg Metadata Stargate PacketData Ownable Semver.
Local Open Scope string_scope.
Local Open Scope N_scope.

(** src/types/keys.rs:6, 9 (CARGO_PKG_VERSION, Cargo.toml:3) and 16 *)
Definition CONTRACT_NAME := "crates.io:cw-ica-controller".
(** src/types/keys.rs:9 and Cargo.toml:3. *)
Definition CONTRACT_VERSION := "0.20.0".
(** src/types/keys.rs:16. *)
Definition SEND_QUERY_PACKET : N := 1.

(** ChannelState::is_open, close, is_ordered: src/types/state.rs:183-196 *)
Definition is_open (c : channel_state) : bool :=
  match cst_status c with StOpen => true | _ => false end.
(** src/types/state.rs:188-190. *)
Definition close_cs (c : channel_state) : channel_state := ChannelState (cst_channel c) StClosed.
(** src/types/state.rs:194-196. *)
Definition is_ordered (c : channel_state) : bool :=
  match ch_order (cst_channel c) with Ordered => true | _ => false end.

(** ContractState::get_ica_info, state.rs:81-85 *)
Definition get_ica_info (c : contract_state) : outcome ica_info := of_option (cs_ica c) EIcaInfoNotSet.

(** [opt.map(|a| deps.api.addr_validate(&a)).transpose()?] (src/contract.rs:26-29, 254-256.) *)
Definition validate_opt (a : api) (o : option string) : outcome (option string) :=
  match o with
  | None => Ok None
  | Some x => if addr_validate a x then Ok (Some x) else Err EStd
  end.

(** The message of contract.rs:38-45 and 155-162 *)
Definition open_init_msg (e : env) (o : open_options) : cosmos_msg :=
  new_channel_open_init (env_contract e) (oo_connection o) (oo_cp_port o) (oo_cp_connection o)
    None (oo_ordering o).

(** instantiate, contract.rs:15-48 *)
Definition instantiate (a : api) (e : env) (sender : string) (m : instantiate_msg)
  : outcome (cstore * response) :=
  let s := set_version (Some (CONTRACT_NAME, CONTRACT_VERSION)) empty_store in
  s <- initialize_owner a (unwrap_or (im_owner m) sender) s ;;
  cb <- validate_opt a (im_callbacks m) ;;
  let s := set_state (Some (ContractState None cb)) s in
  let s := set_options (Some (im_options m)) s in
  let s := set_allow_open (Some true) s in
  Ok (s, add_message (open_init_msg e (im_options m)) response_default).

(** execute::create_channel, contract.rs:136-165 *)
Definition create_channel (s : cstore) (e : env) (sender : string) (options : option open_options)
  : outcome (cstore * response) :=
  _ <- assert_owner s sender ;;
  ' (s, o) <- match options with
    | Some new => Ok (set_options (Some new) s, new)
    | None => o <- of_option (st_options s) ENoChannelInitOptions ;; Ok (s, o)
    end ;;
  let s := set_allow_open (Some true) s in
  Ok (s, add_message (open_init_msg e o) response_default).

(** execute::close_channel, contract.rs:169-187 *)
Definition close_channel (s : cstore) (sender : string) : outcome (cstore * response) :=
  _ <- assert_owner s sender ;;
  cs <- load (st_channel s) ;;
  if negb (is_open cs) then Err (EInvalidChannelStatus (status_text StOpen) (status_text (cst_status cs)))
  else
    let s := set_allow_close (Some true) s in
    Ok (s, add_message (MIbc (IbcCloseChannel (e_chan (ch_endpoint (cst_channel cs)))))
             response_default).

(** execute::send_cosmos_msgs, contract.rs:191-224 *)
Definition send_cosmos_msgs (s : cstore) (e : env) (sender : string) (messages : list cosmos_msg)
  (queries : list query_request) (memo : option string) (timeout_seconds : option N)
  : outcome (cstore * response) :=
  _ <- assert_owner s sender ;;
  st <- load (st_state s) ;;
  info <- get_ica_info st ;;
  ' (s, p) <- from_cosmos_msgs s messages queries (ii_encoding info) memo (ii_address info) ;;
  m <- to_ibc_msg p e (ii_channel info) timeout_seconds ;;
  Ok (s, Response
    [SubMsg (MIbc m) (match queries with [] => None | _ :: _ => Some SEND_QUERY_PACKET end)] []).

(** execute::update_ownership, contract.rs:228-241 *)
Definition update_ownership (a : api) (s : cstore) (e : env) (sender : string) (act : own_action)
  : outcome (cstore * response) :=
  match act with
  | RenounceOwnership => Err EOwnershipCannotBeRenounced
  | _ => s <- ownable_update a e sender act s ;; Ok (s, response_default)
  end.

(** execute::update_callback_address, contract.rs:245-261 *)
Definition update_callback_address (a : api) (s : cstore) (sender : string) (cb : option string)
  : outcome (cstore * response) :=
  _ <- assert_owner s sender ;;
  st <- load (st_state s) ;;
  cb <- validate_opt a cb ;;
  Ok (set_state (Some (ContractState (cs_ica st) cb)) s, response_default).

(** execute, contract.rs:53-83 *)
Definition execute (a : api) (s : cstore) (e : env) (sender : string) (m : execute_msg)
  : outcome (cstore * response) :=
  match m with
  | XCreateChannel o => create_channel s e sender o
  | XCloseChannel => close_channel s sender
  | XUpdateCallbackAddress cb => update_callback_address a s sender cb
  | XSendCosmosMsgs ms qs memo t => send_cosmos_msgs s e sender ms qs memo t
  | XUpdateOwnership act => update_ownership a s e sender act
  end.

(** anybuf [Bufany::deserialize(..)?.uint64(1)]: the last value of field 1;
    [None] (a value of another type) makes [unwrap] panic.  Groups, which
    anybuf rejects, are skipped here. (src/contract.rs:279-281.) *)
Definition bufany_uint64_1 (a : api) (data : string) : outcome N :=
  fs <- of_option (dfields data) EBufany ;;
  match last_opt (filter (fun f => fst f =? 1) fs) with
  | None => match bufany_missing a with Some n => Ok n | None => Panic end
  | Some (_, WVar n) => Ok n
  | Some _ => Panic
  end.

(** SubMsgResult: the response data, or an error (src/contract.rs:274, 277, 290.) *)
Inductive submsg_result := SubOk (data : option string) | SubErr (err : string).

(** reply::send_query_packet, contract.rs:271-292 *)
Definition reply_send_query_packet (a : api) (s : cstore) (r : submsg_result)
  : outcome (cstore * response) :=
  match r with
  | SubOk data =>
      sequence <- bufany_uint64_1 a (unwrap_or data "") ;;
      st <- load (st_state s) ;;
      info <- get_ica_info st ;;
      paths <- load (st_query s) ;;
      let s := set_query None s in
      let s := set_pending (ii_channel info) sequence (Some paths) s in
      Ok (s, response_default)
  | SubErr _ => Panic
  end.

(** reply, contract.rs:88-93 *)
Definition reply (a : api) (s : cstore) (id : N) (r : submsg_result)
  : outcome (cstore * response) :=
  if id =? SEND_QUERY_PACKET then reply_send_query_packet a s r else Err (EUnknownReplyId id).

(** query, contract.rs:98-104, 299-306: JSON of the answer *)
Definition query (s : cstore) (q : query_msg) : outcome string :=
  match q with
  | QGetContractState => st <- load (st_state s) ;; Ok (to_json jc_contract_state st)
  | QGetChannel => c <- load (st_channel s) ;; Ok (to_json jc_channel_state c)
  | QOwnership => o <- load (st_owner s) ;; Ok (to_json jc_ownership o)
  end.

(** migrate::validate_semver, contract.rs:314-332.  The previous version is shown as
    it is stored: the crate's Display writes a parsed version back. *)
Definition validate_semver (s : cstore) : outcome unit :=
  ' (name, ver) <- load (st_version s) ;;
  if negb (String.eqb name CONTRACT_NAME) then Err (EInvalidMigrationVersion CONTRACT_NAME name)
  else
    version <- of_option (parse_version CONTRACT_VERSION) ESemver ;;
    prev <- of_option (parse_version ver) ESemver ;;
    if version_ge prev version then Err (EInvalidMigrationVersion ("> " +++ ver) CONTRACT_VERSION) else Ok tt.

(** migrate::validate_channel_encoding, contract.rs:335-349 *)
Definition validate_channel_encoding (s : cstore) : outcome unit :=
  st <- load (st_state s) ;;
  match cs_ica st with
  | Some info => match ii_encoding info with Protobuf => Ok tt | x => Err (EUnsupportedPacketEncoding (encoding_text x)) end
  | None => Ok tt
  end.

(** migrate, contract.rs:109-118 *)
Definition migrate (s : cstore) : outcome (cstore * response) :=
  _ <- validate_semver s ;;
  _ <- validate_channel_encoding s ;;
  Ok (set_version (Some (CONTRACT_NAME, CONTRACT_VERSION)) s, response_default).

(** ** Handshake *)

(** src/ibc/handshake.rs:122, 163 *)
Definition NOT_METADATA := "cannot unmarshal ICS-27 interchain accounts metadata".

(** ibc_channel_open::init, handshake.rs:97-141: the returned version *)
Definition on_open_init (a : api) (s : cstore) (ch : channel) : outcome (cstore * string) :=
  if negb (flag (st_allow_open s)) then Err EChannelOpenInitNotAllowed
  else
    let s := set_allow_open (Some false) s in
    if negb (String.eqb (e_port (ch_counterparty ch)) HOST_PORT_ID) then Err EInvalidHostPort
    else
      md <- (if sempty (ch_version ch) then metadata_from_channel s ch
             else of_option (metadata_from_string (ch_version ch)) (EUnknownDataType NOT_METADATA)) ;;
      _ <- validate_metadata a md ch ;;
      if match st_channel s with Some c => is_open c | None => false end
      then Err EActiveChannelAlreadySet
      else Ok (s, metadata_to_string md).

(** ibc_channel_open, handshake.rs:28-37 *)
Inductive channel_open_msg := MOpenInit (ch : channel) | MOpenTry (ch : channel) (cp_version : string).
(** src/ibc/handshake.rs:28-37. *)
Definition ibc_channel_open (a : api) (s : cstore) (m : channel_open_msg)
  : outcome (cstore * string) :=
  match m with
  | MOpenInit ch => on_open_init a s ch
  | MOpenTry _ _ => Panic
  end.

(** ibc_channel_open::on_acknowledgement, handshake.rs:145-202 *)
Definition on_open_ack (a : api) (s : cstore) (ch : channel) (cp_version : string)
  : outcome (cstore * response) :=
  st <- load (st_state s) ;;
  if String.eqb (e_port (ch_endpoint ch)) HOST_PORT_ID then Err EInvalidControllerPort
  else
    md <- of_option (metadata_from_string cp_version) (EUnknownDataType NOT_METADATA) ;;
    _ <- validate_metadata a md ch ;;
    if sempty (md_address md) then Err EInvalidIcaAddress
    else
      let info := IcaInfo (md_address md) (e_chan (ch_endpoint ch)) (md_encoding md) in
      let s := set_state (Some (ContractState (Some info) (cs_callback st))) s in
      let ch := Channel (ch_endpoint ch) (ch_counterparty ch) (ch_order ch) cp_version
                  (ch_connection ch) in
      let s := set_channel (Some (ChannelState ch StOpen)) s in
      match cs_callback st with
      | Some cb =>
          Ok (s, add_message (callback_cosmos_msg (CbOpenAck ch (md_address md) (md_encoding md)) cb)
                   response_default)
      | None => Ok (s, response_default)
      end.

(** ibc_channel_connect, handshake.rs:51-63 *)
Inductive channel_connect_msg := MOpenAck (ch : channel) (cp_version : string) | MOpenConfirm (ch : channel).
(** src/ibc/handshake.rs:51-63. *)
Definition ibc_channel_connect (a : api) (s : cstore) (m : channel_connect_msg)
  : outcome (cstore * response) :=
  match m with
  | MOpenAck ch v => on_open_ack a s ch v
  | MOpenConfirm _ => Panic
  end.

(** The common part of ibc_channel_close::init and confirm, handshake.rs:220-237, 243-260 *)
Definition close_recorded (s : cstore) (ch : channel) : outcome (cstore * response) :=
  cs <- load (st_channel s) ;;
  if negb (channel_eqb (cst_channel cs) ch) then Err EInvalidChannelInContractState
  else if negb (is_open cs) then Err (EInvalidChannelStatus (status_text StOpen) (status_text (cst_status cs)))
  else Ok (set_channel (Some (close_cs cs)) s, response_default).

(** ibc_channel_close::init, handshake.rs:210-238 *)
Definition on_close_init (s : cstore) (ch : channel) : outcome (cstore * response) :=
  if negb (flag (st_allow_close s)) then Err EChannelCloseInitNotAllowed
  else close_recorded (set_allow_close (Some false) s) ch.

(** ibc_channel_close::confirm, handshake.rs:242-261 *)
Definition on_close_confirm (s : cstore) (ch : channel) : outcome (cstore * response) :=
  close_recorded s ch.

(** ibc_channel_close, handshake.rs:76-85 *)
Inductive channel_close_msg := MCloseInit (ch : channel) | MCloseConfirm (ch : channel).
(** src/ibc/handshake.rs:76-85. *)
Definition ibc_channel_close (s : cstore) (m : channel_close_msg) : outcome (cstore * response) :=
  match m with
  | MCloseInit ch => on_close_init s ch
  | MCloseConfirm ch => on_close_confirm s ch
  end.

(** ** Packets *)

(** Response with an optional callback and an event, relay.rs:116-130, 145-159 *)
Definition respond (cb : option string) (m : callback_msg) (ev : event) : response :=
  match cb with
  | Some addr => add_event ev (add_message (callback_cosmos_msg m addr) response_default)
  | None => add_event ev response_default
  end.

(** ibc_packet_ack::success, relay.rs:95-131 *)
Definition ack_success (a : api) (s : cstore) (p : packet) (relayer res : string)
  : outcome (cstore * response) :=
  let ev := event_success p res in
  let ack := AckResult res in
  qr <- otranspose (option_map
          (fun paths => r <- decode_resp_last ack ;; Ok (result_from_response a paths r))
          (st_pending s (e_chan (p_src p)) (p_seq p))) ;;
  let s := set_pending (e_chan (p_src p)) (p_seq p) None s in
  st <- load (st_state s) ;;
  Ok (s, respond (cs_callback st) (CbAck ack p relayer qr) ev).

(** ibc_packet_ack::error, relay.rs:136-160 *)
Definition ack_error (s : cstore) (p : packet) (relayer err : string)
  : outcome (cstore * response) :=
  st <- load (st_state s) ;;
  Ok (s, respond (cs_callback st) (CbAck (AckError err) p relayer (Some (QRError err)))
           (event_error p err)).

(** ibc_packet_ack, relay.rs:26-40; [ack] are the acknowledgement bytes *)
Definition ibc_packet_ack (a : api) (s : cstore) (ack : string) (p : packet) (relayer : string)
  : outcome (cstore * response) :=
  d <- of_option (from_json jc_ack ack) EStd ;;
  match d with
  | AckResult res => ack_success a s p relayer res
  | AckError err => ack_error s p relayer err
  end.

(** ibc_packet_timeout::callback, relay.rs:172-192 *)
Definition timeout_callback (s : cstore) (p : packet) (relayer : string)
  : outcome (cstore * response) :=
  st <- load (st_state s) ;;
  let s := set_pending (e_chan (p_src p)) (p_seq p) None s in
  match cs_callback st with
  | Some addr =>
      Ok (s, add_message (callback_cosmos_msg (CbTimeout p relayer) addr) response_default)
  | None => Ok (s, response_default)
  end.

(** ibc_packet_timeout, relay.rs:52-65 *)
Definition ibc_packet_timeout (s : cstore) (p : packet) (relayer : string)
  : outcome (cstore * response) :=
  cs <- load (st_channel s) ;;
  let s := if is_ordered cs then set_channel (Some (close_cs cs)) s else s in
  timeout_callback s p relayer.

(** ibc_packet_receive, relay.rs:73-81 *)
Definition ibc_packet_receive (s : cstore) (p : packet) (relayer : string)
  : outcome (cstore * response) := Panic.
