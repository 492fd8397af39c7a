(** * HistorySpec: the histories the contract allows.

    An abstract machine whose only state is the log of what has happened
    (newest first).  It knows nothing of the contract's storage.  [block c l new]
    says that [new] may be added to the history [l] by one action; the new items
    are explained by the old ones alone.  [History.v] proves that every history
    of the chain is a history of this machine. *)

From Verif Require Import Base Utf8 Base64 Text JsonCodec Types JsonTypes HostSpec AnswerSpec Chain ChainSpec.
Local Open Scope string_scope.
Local Open Scope list_scope.
Local Open Scope N_scope.

(** The channel a GetChannel query reports, with its status (true: open): the
    channel of the last completed handshake, reported open until it is closed
    or, if it is ordered, until {e any} packet times out. *)
Fixpoint recorded (l : list logitem) : option (channel * bool) :=
  match l with
  | [] => None
  | LChanOpen ch :: _ => Some (ch, true)
  | LChanClosed id :: r =>
      match recorded r with
      | Some (ch, b) => if on_chan id ch then Some (ch, false) else Some (ch, b)
      | None => None
      end
  | LTimeout _ _ :: r =>
      match recorded r with
      | Some (ch, b) => if order_eqb (ch_order ch) Ordered then Some (ch, false) else Some (ch, b)
      | None => None
      end
  | _ :: r => recorded r
  end.
Definition recorded_open_in (l : list logitem) : bool :=
  match recorded l with Some (_, b) => b | None => false end.

(** Packets sent, and packets acknowledged, on a channel. *)
Fixpoint sends (l : list logitem) (id : string) : N :=
  match l with
  | [] => 0
  | LSent _ _ _ p :: r => if String.eqb (e_chan (p_src p)) id then 1 + sends r id else sends r id
  | _ :: r => sends r id
  end.
Fixpoint acks (l : list logitem) (id : string) : N :=
  match l with
  | [] => 0
  | LAck p _ _ :: r => if String.eqb (e_chan (p_src p)) id then 1 + acks r id else acks r id
  | _ :: r => acks r id
  end.

(** The environment of a call: the contract's own address, 64-bit block data. *)
Definition env_here (c : cfg) (e : env) : Prop :=
  env_contract e = c_self c /\ env_height e < u64_lim /\ env_time e < u64_lim.

Definition valid_address (c : cfg) (o : option string) : Prop :=
  match o with Some x => addr_validate (c_api c) x = true | None => True end.

(** The contract's port, and the attributes of the acknowledgement events. *)
Definition own_port (c : cfg) : string := "wasm." +++ c_self c.
Definition ack_event (p : packet) (last : string * string) : event :=
  Event "acknowledge_packet"
    [("packet_sequence", dec (p_seq p)); ("packet_src_port", e_port (p_src p));
     ("packet_src_channel", e_chan (p_src p)); last].

(** The version a host may answer with: proposed by the rules of ICS-27, with
    an account address of at most 128 bytes, all alphanumeric. *)
Definition alphanumeric (c : cfg) (cp : N) : Prop :=
  48 <= cp <= 57 \/ 65 <= cp <= 90 \/ 97 <= cp <= 122 \/ (128 <= cp /\ uni_alnum (c_api c) cp = true).
Definition account_address (c : cfg) (x : string) : Prop :=
  x <> "" /\ slen x <= 128 /\ exists l, utf8_cps x = Some l /\ Forall (alphanumeric c) l.
Definition agreed_version (c : cfg) (conn : string) (md : metadata) : Prop :=
  md_version md = "ics27-1" /\ md_controller md = conn /\ md_encoding md = Protobuf /\
  md_tx_type md = "sdk_multi_msg" /\ account_address c (md_address md).

(** The query result of a success acknowledgement for the queries [qs]. *)
Definition reply_of (qs : list query_request) (res : string) (qr : option query_result) : Prop :=
  match qs with
  | [] => qr = None
  | _ => exists h bs r, query_safe_response res = Some (h, bs) /\ result_spec qs h bs r /\ qr = Some r
  end.

(** At most one callback, to the callback address, with a message that can be
    read back. *)
Definition callback (l : list logitem) (m : callback_msg) (i : list logitem) : Prop :=
  jval jc_receiver m /\
  i = match callback_of l with Some addr => [LCall addr (to_json jc_receiver m)] | None => [] end.

(** What the owner or, for ownership, the nominee may make happen. *)
Inductive user_block (c : cfg) (l : list logitem) : list logitem -> Prop :=
| B_inst e sender m id :
    l = [] -> env_here c e -> utf8 sender -> jval jc_instantiate_msg m ->
    valid_address c (Some (unwrap_or (im_owner m) sender)) -> valid_address c (im_callbacks m) ->
    unwrap_or (oo_cp_port (im_options m)) "icahost" = "icahost" -> utf8 id -> slen id <= 64 ->
    user_block c l [LChanInit id; LInstantiated e sender m]
| B_create e sender opts id :
    env_here c e -> utf8 sender -> jval jc_execute_msg (XCreateChannel opts) ->
    owner_of l = Some sender -> recorded_open_in l = false -> requested l id = None -> utf8 id -> slen id <= 64 ->
    user_block c l [LChanInit id; LExecuted e sender (XCreateChannel opts)]
| B_close e sender ch :
    env_here c e -> utf8 sender -> owner_of l = Some sender ->
    recorded l = Some (ch, true) -> chan_open l (e_chan (ch_endpoint ch)) = true ->
    user_block c l [LChanClosed (e_chan (ch_endpoint ch)); LExecuted e sender XCloseChannel]
| B_send e sender ms qs memo t p ch md anys :
    env_here c e -> utf8 sender -> jval jc_execute_msg (XSendCosmosMsgs ms qs memo t) ->
    owner_of l = Some sender ->
    last_opened l = Some ch -> chan_open l (e_chan (ch_endpoint ch)) = true ->
    from_json jc_metadata (ch_version ch) = Some md -> agreed_version c (ch_connection ch) md ->
    Forall supported ms -> Forall qsupported qs -> Forall wf_query qs ->
    jval jc_packet p ->
    p_src p = ch_endpoint ch -> p_dest p = ch_counterparty ch ->
    p_seq p = sends l (e_chan (ch_endpoint ch)) + 1 ->
    sent_by l (e_chan (p_src p)) (p_seq p) = None ->
    p_timeout p = Timeout None (Some (env_time e + unwrap_or t 600 * 10 ^ 9)) ->
    host_packet (p_data p) = Some (anys, unwrap_or memo "") ->
    packet_spec (md_address md) ms qs anys ->
    user_block c l [LSent e sender (XSendCosmosMsgs ms qs memo t) p; LExecuted e sender (XSendCosmosMsgs ms qs memo t)]
| B_callback e sender cb :
    env_here c e -> utf8 sender -> jval jc_execute_msg (XUpdateCallbackAddress cb) ->
    owner_of l = Some sender -> valid_address c cb ->
    user_block c l [LExecuted e sender (XUpdateCallbackAddress cb)]
| B_nominate e sender n x :
    env_here c e -> utf8 sender -> jval jc_execute_msg (XUpdateOwnership (TransferOwnership n x)) ->
    owner_of l = Some sender -> valid_address c (Some n) ->
    user_block c l [LExecuted e sender (XUpdateOwnership (TransferOwnership n x))]
| B_accept e sender x :
    env_here c e -> utf8 sender -> nominee_of l = Some (sender, x) -> ~ lapsed x e ->
    user_block c l [LExecuted e sender (XUpdateOwnership AcceptOwnership)]
| B_migrate : l <> [] -> user_block c l [LMigrated].

(** What a relayer may make happen. *)
Inductive relayer_block (c : cfg) (l : list logitem) : list logitem -> Prop :=
| B_open_ack id o ch md i :
    requested l id = Some o -> opened l id = None ->
    ch_endpoint ch = Endpoint (own_port c) id -> e_port (ch_counterparty ch) = "icahost" ->
    utf8 (e_chan (ch_counterparty ch)) ->
    ch_order ch = unwrap_or (oo_ordering o) Ordered -> ch_connection ch = oo_connection o ->
    from_json jc_metadata (ch_version ch) = Some md -> agreed_version c (oo_connection o) md ->
    callback l (CbOpenAck ch (md_address md) Protobuf) i ->
    relayer_block c l (i ++ [LChanOpen ch])
| B_close_confirm ch :
    recorded l = Some (ch, true) -> chan_open l (e_chan (ch_endpoint ch)) = true ->
    relayer_block c l [LChanClosed (e_chan (ch_endpoint ch))]
| B_ack p ack d relayer qr last i :
    utf8 relayer ->
    unresolved l (e_chan (p_src p)) (p_seq p) = Some p ->
    chan_open l (e_chan (p_src p)) = true ->
    (chan_ordered l (e_chan (p_src p)) = true -> p_seq p = acks l (e_chan (p_src p)) + 1) ->
    from_json jc_ack ack = Some d ->
    match d with
    | AckResult res =>
        last = ("packet_ack_base64", b64_enc res) /\
        reply_of (outstanding l (e_chan (p_src p)) (p_seq p)) res qr
    | AckError err => last = ("error", err) /\ qr = Some (QRError err)
    end ->
    callback l (CbAck d p relayer qr) i ->
    relayer_block c l (i ++ [LEvent (ack_event p last); LAck p ack relayer])
| B_timeout p relayer i :
    utf8 relayer ->
    unresolved l (e_chan (p_src p)) (p_seq p) = Some p ->
    callback l (CbTimeout p relayer) i ->
    relayer_block c l (i ++ [LTimeout p relayer]).

Definition block c l new : Prop := user_block c l new \/ relayer_block c l new.

Inductive hist (c : cfg) : list logitem -> Prop :=
| hist_nil : hist c []
| hist_block l new : hist c l -> block c l new -> hist c (new ++ l).

(** ** What the state queries report *)

Definition account_of (l : list logitem) : option ica_info :=
  match last_opened l with
  | Some ch =>
      match from_json jc_metadata (ch_version ch) with
      | Some md => Some (IcaInfo (md_address md) (e_chan (ch_endpoint ch)) Protobuf)
      | None => None
      end
  | None => None
  end.

(** The three queries, as sent over the wire. *)
Definition get_contract_state : string := "{""get_contract_state"":{}}".
Definition get_channel : string := "{""get_channel"":{}}".
Definition get_ownership : string := "{""ownership"":{}}".

(** The answers to them, decoded. *)
Definition state_reported (w : world) (st : contract_state) : Prop :=
  exists t, ask w get_contract_state = Some t /\ from_json jc_contract_state t = Some st.
Definition channel_reported (w : world) (ch : channel) (st : channel_status) : Prop :=
  exists t, ask w get_channel = Some t /\ from_json jc_channel_state t = Some (ChannelState ch st).
Definition owner_reported (w : world) (o : ownership) : Prop :=
  exists t, ask w get_ownership = Some t /\ from_json jc_ownership t = Some o.
