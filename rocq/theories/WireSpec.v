(** * WireSpec: the JSON a user sends and receives, written out.

    One tree per message and answer, with its keys and tags spelled out.  This
    is what the contract's schema (and ICS-27, for the metadata) promises to
    clients; nothing here uses the codecs of the model ([JsonTypes]). *)

From Verif Require Import Base Text Base64 Json Types TextSpec.
Local Open Scope string_scope.
Local Open Scope list_scope.

(** A field that is left out, or null, when there is no value. *)
Definition field_if (k : string) (o : option json) : list (string * json) :=
  match o with Some v => [(k, v)] | None => [] end.
Definition or_null (o : option json) : json := match o with Some v => v | None => JNull end.
(** Binary data and large numbers are strings. *)
Definition jb64 (s : string) : json := JStr (b64_enc s).
Definition jdec_str (n : N) : json := JStr (dec n).
Definition opt {A} (f : A -> json) (o : option A) : json := or_null (option_map f o).
Definition tagged (k : string) (v : json) : json := JObj [(k, v)].

(** ** Common types *)

Definition wire_coin (c : coin) : json :=
  JObj [("denom", JStr (c_denom c)); ("amount", jdec_str (c_amount c))].
Definition wire_coins (l : list coin) : json := JArr (map wire_coin l).
Definition wire_order (o : order) : json :=
  JStr match o with Ordered => "ORDER_ORDERED" | Unordered => "ORDER_UNORDERED" end.
Definition wire_endpoint (e : endpoint) : json :=
  JObj [("port_id", JStr (e_port e)); ("channel_id", JStr (e_chan e))].
Definition wire_channel (c : channel) : json :=
  JObj [("endpoint", wire_endpoint (ch_endpoint c));
        ("counterparty_endpoint", wire_endpoint (ch_counterparty c));
        ("order", wire_order (ch_order c)); ("version", JStr (ch_version c));
        ("connection_id", JStr (ch_connection c))].
Definition wire_timeout (t : timeout) : json :=
  JObj [("block", opt (fun b => JObj [("revision", JNum (tb_revision b)); ("height", JNum (tb_height b))]) (to_block t));
        ("timestamp", opt jdec_str (to_timestamp t))].
Definition wire_packet (p : packet) : json :=
  JObj [("data", jb64 (p_data p)); ("src", wire_endpoint (p_src p)); ("dest", wire_endpoint (p_dest p));
        ("sequence", JNum (p_seq p)); ("timeout", wire_timeout (p_timeout p))].
Definition wire_encoding (e : tx_encoding) : json :=
  JStr match e with Protobuf => "proto3" | Proto3Json => "proto3json" end.
Definition wire_expiration (e : expiration) : json :=
  match e with
  | AtHeight h => tagged "at_height" (JNum h)
  | AtTime t => tagged "at_time" (jdec_str t)
  | Never => tagged "never" (JObj [])
  end.

(** ** The channel version of ICS-27 *)

Definition wire_metadata (m : metadata) : json :=
  JObj [("version", JStr (md_version m)); ("controller_connection_id", JStr (md_controller m));
        ("host_connection_id", JStr (md_host m)); ("address", JStr (md_address m));
        ("encoding", wire_encoding (md_encoding m)); ("tx_type", JStr (md_tx_type m))].

(** ** Messages to the contract *)

Definition wire_options (o : open_options) : json :=
  JObj [("connection_id", JStr (oo_connection o)); ("counterparty_connection_id", JStr (oo_cp_connection o));
        ("counterparty_port_id", opt JStr (oo_cp_port o)); ("channel_ordering", opt wire_order (oo_ordering o))].
Definition wire_instantiate (m : instantiate_msg) : json :=
  JObj (field_if "owner" (option_map JStr (im_owner m)) ++
        [("channel_open_init_options", wire_options (im_options m))] ++
        field_if "send_callbacks_to" (option_map JStr (im_callbacks m))).

Definition wire_bank_msg (m : bank_msg) : json :=
  match m with
  | BankSend t a => tagged "send" (JObj [("to_address", JStr t); ("amount", wire_coins a)])
  | BankBurn a => tagged "burn" (JObj [("amount", wire_coins a)])
  end.
Definition wire_ibc_msg (m : ibc_msg) : json :=
  match m with
  | IbcTransfer c t a o k => tagged "transfer" (JObj [("channel_id", JStr c); ("to_address", JStr t);
      ("amount", wire_coin a); ("timeout", wire_timeout o); ("memo", opt JStr k)])
  | IbcSendPacket c d t => tagged "send_packet" (JObj [("channel_id", JStr c); ("data", jb64 d); ("timeout", wire_timeout t)])
  | IbcCloseChannel c => tagged "close_channel" (JObj [("channel_id", JStr c)])
  end.
Definition wire_wasm_msg (m : wasm_msg) : json :=
  match m with
  | WasmExecute c m f => tagged "execute" (JObj [("contract_addr", JStr c); ("msg", jb64 m); ("funds", wire_coins f)])
  | WasmInstantiate a c m f l => tagged "instantiate" (JObj [("admin", opt JStr a); ("code_id", JNum c);
      ("msg", jb64 m); ("funds", wire_coins f); ("label", JStr l)])
  | WasmInstantiate2 a c l m f s => tagged "instantiate2" (JObj [("admin", opt JStr a); ("code_id", JNum c);
      ("label", JStr l); ("msg", jb64 m); ("funds", wire_coins f); ("salt", jb64 s)])
  | WasmMigrate c n m => tagged "migrate" (JObj [("contract_addr", JStr c); ("new_code_id", JNum n); ("msg", jb64 m)])
  | WasmUpdateAdmin c a => tagged "update_admin" (JObj [("contract_addr", JStr c); ("admin", JStr a)])
  | WasmClearAdmin c => tagged "clear_admin" (JObj [("contract_addr", JStr c)])
  end.
Definition wire_vote (o : vote_option) : json :=
  JStr match o with VoteYes => "yes" | VoteNo => "no" | VoteAbstain => "abstain" | VoteNoWithVeto => "no_with_veto" end.
Definition wire_gov_msg (m : gov_msg) : json :=
  match m with
  | GovVote p o => tagged "vote" (JObj [("proposal_id", JNum p); ("option", wire_vote o)])
  | GovVoteWeighted p l => tagged "vote_weighted" (JObj [("proposal_id", JNum p);
      ("options", JArr (map (fun w => JObj [("option", wire_vote (wv_option w)); ("weight", JStr (decimal_to_string (wv_weight w)))]) l))])
  end.
Definition wire_staking_msg (m : staking_msg) : json :=
  match m with
  | StDelegate v a => tagged "delegate" (JObj [("validator", JStr v); ("amount", wire_coin a)])
  | StUndelegate v a => tagged "undelegate" (JObj [("validator", JStr v); ("amount", wire_coin a)])
  | StRedelegate s d a => tagged "redelegate" (JObj [("src_validator", JStr s); ("dst_validator", JStr d); ("amount", wire_coin a)])
  end.
Definition wire_dist_msg (m : dist_msg) : json :=
  match m with
  | DistSetWithdrawAddress a => tagged "set_withdraw_address" (JObj [("address", JStr a)])
  | DistWithdrawReward v => tagged "withdraw_delegator_reward" (JObj [("validator", JStr v)])
  | DistFundCommunityPool a => tagged "fund_community_pool" (JObj [("amount", wire_coins a)])
  end.
Definition wire_cosmos_msg (m : cosmos_msg) : json :=
  match m with
  | MBank m => tagged "bank" (wire_bank_msg m)
  | MCustom => tagged "custom" (JObj [])
  | MStaking m => tagged "staking" (wire_staking_msg m)
  | MDistribution m => tagged "distribution" (wire_dist_msg m)
  | MStargate t v => tagged "stargate" (JObj [("type_url", JStr t); ("value", jb64 v)])
  | MIbc m => tagged "ibc" (wire_ibc_msg m)
  | MWasm m => tagged "wasm" (wire_wasm_msg m)
  | MGov m => tagged "gov" (wire_gov_msg m)
  end.

Definition wire_bank_query (q : bank_query) : json :=
  match q with
  | QSupply d => tagged "supply" (JObj [("denom", JStr d)])
  | QBalance a d => tagged "balance" (JObj [("address", JStr a); ("denom", JStr d)])
  | QAllBalances a => tagged "all_balances" (JObj [("address", JStr a)])
  | QDenomMetadata d => tagged "denom_metadata" (JObj [("denom", JStr d)])
  | QAllDenomMetadata p => tagged "all_denom_metadata" (JObj [("pagination",
      opt (fun p => JObj [("key", opt jb64 (pg_key p)); ("limit", JNum (pg_limit p)); ("reverse", JBool (pg_reverse p))]) p)])
  end.
Definition wire_wasm_query (q : wasm_query) : json :=
  match q with
  | QSmart c m => tagged "smart" (JObj [("contract_addr", JStr c); ("msg", jb64 m)])
  | QRaw c k => tagged "raw" (JObj [("contract_addr", JStr c); ("key", jb64 k)])
  | QContractInfo c => tagged "contract_info" (JObj [("contract_addr", JStr c)])
  | QCodeInfo c => tagged "code_info" (JObj [("code_id", JNum c)])
  end.
Definition wire_staking_query (q : staking_query) : json :=
  match q with
  | QBondedDenom => tagged "bonded_denom" (JObj [])
  | QAllDelegations d => tagged "all_delegations" (JObj [("delegator", JStr d)])
  | QDelegation d v => tagged "delegation" (JObj [("delegator", JStr d); ("validator", JStr v)])
  | QAllValidators => tagged "all_validators" (JObj [])
  | QValidator a => tagged "validator" (JObj [("address", JStr a)])
  end.
Definition wire_dist_query (q : dist_query) : json :=
  match q with
  | QDelegatorWithdrawAddress a => tagged "delegator_withdraw_address" (JObj [("delegator_address", JStr a)])
  | QDelegationRewards d v => tagged "delegation_rewards" (JObj [("delegator_address", JStr d); ("validator_address", JStr v)])
  | QDelegationTotalRewards d => tagged "delegation_total_rewards" (JObj [("delegator_address", JStr d)])
  | QDelegatorValidators d => tagged "delegator_validators" (JObj [("delegator_address", JStr d)])
  end.
Definition wire_ibc_query (q : ibc_query) : json :=
  match q with
  | QPortId => tagged "port_id" (JObj [])
  | QListChannels p => tagged "list_channels" (JObj [("port_id", opt JStr p)])
  | QChannel c p => tagged "channel" (JObj [("channel_id", JStr c); ("port_id", opt JStr p)])
  end.
Definition wire_query_request (q : query_request) : json :=
  match q with
  | QBank q => tagged "bank" (wire_bank_query q)
  | QCustom => tagged "custom" (JObj [])
  | QStaking q => tagged "staking" (wire_staking_query q)
  | QDistribution q => tagged "distribution" (wire_dist_query q)
  | QStargate p d => tagged "stargate" (JObj [("path", JStr p); ("data", jb64 d)])
  | QIbc q => tagged "ibc" (wire_ibc_query q)
  | QWasm q => tagged "wasm" (wire_wasm_query q)
  end.

Definition wire_action (a : own_action) : json :=
  match a with
  | TransferOwnership n e =>
      tagged "transfer_ownership" (JObj [("new_owner", JStr n); ("expiry", opt wire_expiration e)])
  | AcceptOwnership => JStr "accept_ownership"
  | RenounceOwnership => JStr "renounce_ownership"
  end.
Definition wire_execute (m : execute_msg) : json :=
  match m with
  | XCreateChannel o =>
      tagged "create_channel" (JObj (field_if "channel_open_init_options" (option_map wire_options o)))
  | XCloseChannel => tagged "close_channel" (JObj [])
  | XSendCosmosMsgs ms qs memo t =>
      tagged "send_cosmos_msgs" (JObj
        ([("messages", JArr (map wire_cosmos_msg ms))] ++
         field_if "queries" match qs with [] => None | _ => Some (JArr (map wire_query_request qs)) end ++
         field_if "packet_memo" (option_map JStr memo) ++
         field_if "timeout_seconds" (option_map JNum t)))
  | XUpdateCallbackAddress c =>
      tagged "update_callback_address" (JObj [("callback_address", opt JStr c)])
  | XUpdateOwnership a => tagged "update_ownership" (wire_action a)
  end.
Definition wire_query (q : query_msg) : json :=
  match q with
  | QGetChannel => tagged "get_channel" (JObj [])
  | QGetContractState => tagged "get_contract_state" (JObj [])
  | QOwnership => tagged "ownership" (JObj [])
  end.
Definition wire_migrate : json := JObj [].

(** ** Answers to queries *)

Definition wire_status (s : channel_status) : json :=
  JStr match s with
    | StUninitialized => "STATE_UNINITIALIZED_UNSPECIFIED" | StInit => "STATE_INIT"
    | StTryOpen => "STATE_TRYOPEN" | StOpen => "STATE_OPEN" | StClosed => "STATE_CLOSED"
    | StFlushing => "STATE_FLUSHING" | StFlushComplete => "STATE_FLUSHCOMPLETE" end.
Definition wire_channel_state (s : channel_state) : json :=
  JObj [("channel", wire_channel (cst_channel s)); ("channel_status", wire_status (cst_status s))].
Definition wire_contract_state (s : contract_state) : json :=
  JObj [("ica_info", opt (fun i => JObj [("ica_address", JStr (ii_address i)); ("channel_id", JStr (ii_channel i));
          ("encoding", wire_encoding (ii_encoding i))]) (cs_ica s));
        ("callback_address", opt JStr (cs_callback s))].
Definition wire_ownership (o : ownership) : json :=
  JObj [("owner", opt JStr (ow_owner o)); ("pending_owner", opt JStr (ow_pending o));
        ("pending_expiry", opt wire_expiration (ow_expiry o))].

(** ** Callbacks *)

Definition wire_ack (a : ack_data) : json :=
  match a with AckResult d => tagged "result" (jb64 d) | AckError e => tagged "error" (JStr e) end.
Definition wire_denom_metadata (m : denom_metadata) : json :=
  JObj [("description", JStr (dm_description m));
        ("denom_units", JArr (map (fun u => JObj [("denom", JStr (du_denom u)); ("exponent", JNum (du_exponent u));
            ("aliases", JArr (map JStr (du_aliases u)))]) (dm_units m)));
        ("base", JStr (dm_base m)); ("display", JStr (dm_display m)); ("name", JStr (dm_name m));
        ("symbol", JStr (dm_symbol m)); ("uri", JStr (dm_uri m)); ("uri_hash", JStr (dm_uri_hash m))].
Definition wire_validator (v : validator) : json :=
  JObj [("address", JStr (v_address v)); ("commission", JStr (decimal_to_string (v_commission v)));
        ("max_commission", JStr (decimal_to_string (v_max_commission v)));
        ("max_change_rate", JStr (decimal_to_string (v_max_change_rate v)))].
Definition wire_delegation (d : delegation) : json :=
  JObj [("delegator", JStr (d_delegator d)); ("validator", JStr (d_validator d)); ("amount", wire_coin (d_amount d))].
Definition wire_bank_response (r : bank_response) : json :=
  match r with
  | RSupply c => tagged "supply" (JObj [("amount", wire_coin c)])
  | RBalance c => tagged "balance" (JObj [("amount", wire_coin c)])
  | RAllBalances l => tagged "all_balances" (JObj [("amount", wire_coins l)])
  | RDenomMetadata m => tagged "denom_metadata" (JObj [("metadata", wire_denom_metadata m)])
  | RAllDenomMetadata l k => tagged "all_denom_metadata"
      (JObj [("metadata", JArr (map wire_denom_metadata l)); ("next_key", opt jb64 k)])
  end.
Definition wire_contract_info (c : contract_info) : json :=
  JObj [("code_id", JNum (ci_code_id c)); ("creator", JStr (ci_creator c)); ("admin", opt JStr (ci_admin c));
        ("pinned", JBool (ci_pinned c)); ("ibc_port", opt JStr (ci_ibc_port c))].
Definition wire_wasm_response (r : wasm_response) : json :=
  match r with
  | RContractInfo i => tagged "contract_info" (opt wire_contract_info i)
  | RRaw d => tagged "raw_contract_state" (opt jb64 d)
  | RSmart d => tagged "smart_contract_state" (jb64 d)
  end.
Definition wire_staking_response (r : staking_response) : json :=
  match r with
  | RBondedDenom d => tagged "bonded_denom" (JObj [("denom", JStr d)])
  | RAllDelegations l => tagged "all_delegations" (JObj [("delegations", JArr (map wire_delegation l))])
  | RDelegation d => tagged "delegation" (JObj [("delegation", opt wire_delegation d)])
  | RAllValidators l => tagged "all_validators" (JObj [("validators", JArr (map wire_validator l))])
  | RValidator v => tagged "validator" (JObj [("validator", opt wire_validator v)])
  end.
Definition wire_query_response (r : query_response) : json :=
  match r with
  | RBank r => tagged "bank" (wire_bank_response r)
  | RStargate d p => tagged "stargate" (JObj [("data", jb64 d); ("path", JStr p)])
  | RWasm r => tagged "wasm" (wire_wasm_response r)
  | RStaking r => tagged "staking" (wire_staking_response r)
  end.
Definition wire_query_result (r : query_result) : json :=
  match r with
  | QRSuccess h l => tagged "success" (JObj [("height", JNum h); ("responses", JArr (map wire_query_response l))])
  | QRError e => tagged "error" (JStr e)
  end.
Definition wire_callback (c : callback_msg) : json :=
  tagged "receive_ica_callback"
  match c with
  | CbAck a p r q => tagged "on_acknowledgement_packet_callback" (JObj
      ([("ica_acknowledgement", wire_ack a); ("original_packet", wire_packet p); ("relayer", JStr r)] ++
       field_if "query_result" (option_map wire_query_result q)))
  | CbTimeout p r => tagged "on_timeout_packet_callback" (JObj [("original_packet", wire_packet p); ("relayer", JStr r)])
  | CbOpenAck c a e => tagged "on_channel_open_ack_callback" (JObj
      [("channel", wire_channel c); ("ica_address", JStr a); ("tx_encoding", wire_encoding e)])
  end.

(** ** What is read as a message

    Fields may come in any order and not twice; an optional one may be left out
    or be null.  [closed]: no others are allowed. *)

Definition fields_once (ks : list string) (l : list (string * json)) : Prop :=
  forall k, In k ks -> (count_occ string_dec (map fst l) k <= 1)%nat.
Definition closed (ks : list string) (l : list (string * json)) : Prop := incl (map fst l) ks.
Definition field {A} (l : list (string * json)) (k : string) (P : json -> A -> Prop) (a : A) : Prop :=
  exists v, In (k, v) l /\ P v a.
Definition maybe {A} (l : list (string * json)) (k : string) (P : json -> A -> Prop) (o : option A) : Prop :=
  match o with
  | Some a => exists v, In (k, v) l /\ v <> JNull /\ P v a
  | None => ~ In k (map fst l) \/ In (k, JNull) l
  end.

Definition reads_str (j : json) (s : string) : Prop := j = JStr s.
Definition reads_u64 (j : json) (n : N) : Prop := j = JNum n /\ (n < 2 ^ 64)%N.
(** A unit variant: its name, or an object with a null. *)
Definition reads_unit (k : string) (j : json) : Prop := j = JStr k \/ j = tagged k JNull.
Definition reads_order (j : json) (o : order) : Prop :=
  reads_unit match o with Ordered => "ORDER_ORDERED" | Unordered => "ORDER_UNORDERED" end j.

Definition reads_options (j : json) (o : open_options) : Prop :=
  exists l, j = JObj l /\
    fields_once ["connection_id"; "counterparty_connection_id"; "counterparty_port_id"; "channel_ordering"] l /\
    field l "connection_id" reads_str (oo_connection o) /\
    field l "counterparty_connection_id" reads_str (oo_cp_connection o) /\
    maybe l "counterparty_port_id" reads_str (oo_cp_port o) /\
    maybe l "channel_ordering" reads_order (oo_ordering o).

Definition reads_instantiate (j : json) (m : instantiate_msg) : Prop :=
  let ks := ["owner"; "channel_open_init_options"; "send_callbacks_to"] in
  exists l, j = JObj l /\ fields_once ks l /\ closed ks l /\
    maybe l "owner" reads_str (im_owner m) /\
    field l "channel_open_init_options" reads_options (im_options m) /\
    maybe l "send_callbacks_to" reads_str (im_callbacks m).

Definition reads_expiration (j : json) (e : expiration) : Prop :=
  match e with
  | AtHeight h => exists v, j = tagged "at_height" v /\ reads_u64 v h
  | AtTime t => exists s, j = tagged "at_time" (JStr s) /\ uint_text (2 ^ 64) s t
  | Never => j = tagged "never" (JObj [])
  end.
Definition reads_action (j : json) (a : own_action) : Prop :=
  match a with
  | TransferOwnership n e => let ks := ["new_owner"; "expiry"] in
      exists l, j = tagged "transfer_ownership" (JObj l) /\ fields_once ks l /\ closed ks l /\
        field l "new_owner" reads_str n /\ maybe l "expiry" reads_expiration e
  | AcceptOwnership => reads_unit "accept_ownership" j
  | RenounceOwnership => reads_unit "renounce_ownership" j
  end.

(** [M] and [Q] say what is read as a Cosmos message and as a query. *)
Definition reads_execute (M : json -> cosmos_msg -> Prop) (Q : json -> query_request -> Prop)
    (j : json) (m : execute_msg) : Prop :=
  match m with
  | XCreateChannel o => let ks := ["channel_open_init_options"] in
      exists l, j = tagged "create_channel" (JObj l) /\ fields_once ks l /\ closed ks l /\
        maybe l "channel_open_init_options" reads_options o
  | XCloseChannel => j = tagged "close_channel" (JObj [])
  | XSendCosmosMsgs ms qs memo t => let ks := ["messages"; "queries"; "packet_memo"; "timeout_seconds"] in
      exists l, j = tagged "send_cosmos_msgs" (JObj l) /\ fields_once ks l /\ closed ks l /\
        (In ("messages", JNull) l /\ ms = [] \/
         exists v, In ("messages", JArr v) l /\ Forall2 M v ms) /\
        ((~ In "queries" (map fst l) \/ In ("queries", JNull) l) /\ qs = [] \/
         exists v, In ("queries", JArr v) l /\ Forall2 Q v qs) /\
        maybe l "packet_memo" reads_str memo /\
        maybe l "timeout_seconds" reads_u64 t
  | XUpdateCallbackAddress c => let ks := ["callback_address"] in
      exists l, j = tagged "update_callback_address" (JObj l) /\ fields_once ks l /\ closed ks l /\
        maybe l "callback_address" reads_str c
  | XUpdateOwnership a => exists v, j = tagged "update_ownership" v /\ reads_action v a
  end.

Definition reads_encoding (j : json) (e : tx_encoding) : Prop :=
  reads_unit match e with Protobuf => "proto3" | Proto3Json => "proto3json" end j.
Definition reads_metadata (j : json) (m : metadata) : Prop :=
  let ks := ["version"; "controller_connection_id"; "host_connection_id"; "address"; "encoding"; "tx_type"] in
  exists l, j = JObj l /\ fields_once ks l /\ closed ks l /\
    field l "version" reads_str (md_version m) /\ field l "controller_connection_id" reads_str (md_controller m) /\
    field l "host_connection_id" reads_str (md_host m) /\ field l "address" reads_str (md_address m) /\
    field l "encoding" reads_encoding (md_encoding m) /\ field l "tx_type" reads_str (md_tx_type m).
Definition reads_ack (j : json) (a : ack_data) : Prop :=
  match a with
  | AckResult d => exists s, j = tagged "result" (JStr s) /\ base64_text s d
  | AckError e => j = tagged "error" (JStr e)
  end.
