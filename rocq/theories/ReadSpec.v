(** * ReadSpec: which JSON is read as which Cosmos message and query.

    Continues [WireSpec] for the types of cosmwasm_std that a user sends inside
    [send_cosmos_msgs], and says which text is read as which message of the
    contract.  Nothing here uses the codecs or the parsers of the model. *)

From Verif Require Import Base Json Types TextSpec WireSpec.
Local Open Scope string_scope.
Local Open Scope list_scope.
Local Open Scope N_scope.

(** ** Parts *)

(** Binary data in base64, and numbers as decimal text. *)
Definition reads_bin (j : json) (d : string) : Prop := exists s, j = JStr s /\ base64_text s d.
Definition reads_decimal (j : json) (n : N) : Prop := exists s, j = JStr s /\ decimal_text s n.
Definition reads_uint_text (lim : N) (j : json) (n : N) : Prop := exists s, j = JStr s /\ uint_text lim s n.
Definition reads_uint (lim : N) (j : json) (n : N) : Prop := j = JNum n /\ n < lim.
Definition reads_bool (j : json) (b : bool) : Prop := j = JBool b.
Definition reads_list {A} (P : json -> A -> Prop) (j : json) (xs : list A) : Prop :=
  exists l, j = JArr l /\ Forall2 P l xs.
(** An object with these fields, each at most once, and maybe others. *)
Definition object (ks : list string) (P : list (string * json) -> Prop) (j : json) : Prop :=
  exists l, j = JObj l /\ fields_once ks l /\ P l.
(** An object with the name of the variant as its only key. *)
Definition variant (k : string) (P : json -> Prop) (j : json) : Prop := exists v, j = tagged k v /\ P v.
Definition anything (l : list (string * json)) : Prop := True.

(** ** Cosmos messages *)

Definition reads_coin (j : json) (c : coin) : Prop :=
  object ["denom"; "amount"] (fun l =>
    field l "denom" reads_str (c_denom c) /\ field l "amount" (reads_uint_text (2 ^ 128)) (c_amount c)) j.
Definition reads_coins : json -> list coin -> Prop := reads_list reads_coin.
Definition reads_timeout_block (j : json) (b : timeout_block) : Prop :=
  object ["revision"; "height"] (fun l =>
    field l "revision" (reads_uint (2 ^ 64)) (tb_revision b) /\ field l "height" (reads_uint (2 ^ 64)) (tb_height b)) j.
Definition reads_timeout (j : json) (t : timeout) : Prop :=
  object ["block"; "timestamp"] (fun l =>
    maybe l "block" reads_timeout_block (to_block t) /\
    maybe l "timestamp" (reads_uint_text (2 ^ 64)) (to_timestamp t)) j.

Definition reads_bank_msg (j : json) (m : bank_msg) : Prop :=
  match m with
  | BankSend t a => variant "send" (object ["to_address"; "amount"] (fun l =>
      field l "to_address" reads_str t /\ field l "amount" reads_coins a)) j
  | BankBurn a => variant "burn" (object ["amount"] (fun l => field l "amount" reads_coins a)) j
  end.
Definition reads_ibc_msg (j : json) (m : ibc_msg) : Prop :=
  match m with
  | IbcTransfer c t a o k => variant "transfer"
      (object ["channel_id"; "to_address"; "amount"; "timeout"; "memo"] (fun l =>
        field l "channel_id" reads_str c /\ field l "to_address" reads_str t /\ field l "amount" reads_coin a /\
        field l "timeout" reads_timeout o /\ maybe l "memo" reads_str k)) j
  | IbcSendPacket c d t => variant "send_packet" (object ["channel_id"; "data"; "timeout"] (fun l =>
        field l "channel_id" reads_str c /\ field l "data" reads_bin d /\ field l "timeout" reads_timeout t)) j
  | IbcCloseChannel c => variant "close_channel" (object ["channel_id"] (fun l => field l "channel_id" reads_str c)) j
  end.
Definition reads_wasm_msg (j : json) (m : wasm_msg) : Prop :=
  match m with
  | WasmExecute c m f => variant "execute" (object ["contract_addr"; "msg"; "funds"] (fun l =>
      field l "contract_addr" reads_str c /\ field l "msg" reads_bin m /\ field l "funds" reads_coins f)) j
  | WasmInstantiate a c m f b => variant "instantiate" (object ["admin"; "code_id"; "msg"; "funds"; "label"] (fun l =>
      maybe l "admin" reads_str a /\ field l "code_id" (reads_uint (2 ^ 64)) c /\ field l "msg" reads_bin m /\
      field l "funds" reads_coins f /\ field l "label" reads_str b)) j
  | WasmInstantiate2 a c b m f s => variant "instantiate2"
      (object ["admin"; "code_id"; "label"; "msg"; "funds"; "salt"] (fun l =>
      maybe l "admin" reads_str a /\ field l "code_id" (reads_uint (2 ^ 64)) c /\ field l "label" reads_str b /\
      field l "msg" reads_bin m /\ field l "funds" reads_coins f /\ field l "salt" reads_bin s)) j
  | WasmMigrate c n m => variant "migrate" (object ["contract_addr"; "new_code_id"; "msg"] (fun l =>
      field l "contract_addr" reads_str c /\ field l "new_code_id" (reads_uint (2 ^ 64)) n /\ field l "msg" reads_bin m)) j
  | WasmUpdateAdmin c a => variant "update_admin" (object ["contract_addr"; "admin"] (fun l =>
      field l "contract_addr" reads_str c /\ field l "admin" reads_str a)) j
  | WasmClearAdmin c => variant "clear_admin" (object ["contract_addr"] (fun l => field l "contract_addr" reads_str c)) j
  end.
Definition reads_vote (j : json) (o : vote_option) : Prop :=
  reads_unit match o with VoteYes => "yes" | VoteNo => "no" | VoteAbstain => "abstain" | VoteNoWithVeto => "no_with_veto" end j.
Definition reads_weighted_vote (j : json) (w : weighted_vote) : Prop :=
  object ["option"; "weight"] (fun l =>
    field l "option" reads_vote (wv_option w) /\ field l "weight" reads_decimal (wv_weight w)) j.
Definition reads_gov_msg (j : json) (m : gov_msg) : Prop :=
  match m with
  | GovVote p o => variant "vote" (object ["proposal_id"; "option"] (fun l =>
      field l "proposal_id" (reads_uint (2 ^ 64)) p /\ field l "option" reads_vote o)) j
  | GovVoteWeighted p os => variant "vote_weighted" (object ["proposal_id"; "options"] (fun l =>
      field l "proposal_id" (reads_uint (2 ^ 64)) p /\ field l "options" (reads_list reads_weighted_vote) os)) j
  end.
Definition reads_staking_msg (j : json) (m : staking_msg) : Prop :=
  match m with
  | StDelegate v a => variant "delegate" (object ["validator"; "amount"] (fun l =>
      field l "validator" reads_str v /\ field l "amount" reads_coin a)) j
  | StUndelegate v a => variant "undelegate" (object ["validator"; "amount"] (fun l =>
      field l "validator" reads_str v /\ field l "amount" reads_coin a)) j
  | StRedelegate s d a => variant "redelegate" (object ["src_validator"; "dst_validator"; "amount"] (fun l =>
      field l "src_validator" reads_str s /\ field l "dst_validator" reads_str d /\ field l "amount" reads_coin a)) j
  end.
Definition reads_dist_msg (j : json) (m : dist_msg) : Prop :=
  match m with
  | DistSetWithdrawAddress a => variant "set_withdraw_address" (object ["address"] (fun l => field l "address" reads_str a)) j
  | DistWithdrawReward v => variant "withdraw_delegator_reward" (object ["validator"] (fun l => field l "validator" reads_str v)) j
  | DistFundCommunityPool a => variant "fund_community_pool" (object ["amount"] (fun l => field l "amount" reads_coins a)) j
  end.
Definition reads_cosmos_msg (j : json) (m : cosmos_msg) : Prop :=
  match m with
  | MBank m => variant "bank" (fun v => reads_bank_msg v m) j
  | MCustom => variant "custom" (object [] anything) j
  | MStaking m => variant "staking" (fun v => reads_staking_msg v m) j
  | MDistribution m => variant "distribution" (fun v => reads_dist_msg v m) j
  | MStargate t b => variant "stargate" (object ["type_url"; "value"] (fun l =>
      field l "type_url" reads_str t /\ field l "value" reads_bin b)) j
  | MIbc m => variant "ibc" (fun v => reads_ibc_msg v m) j
  | MWasm m => variant "wasm" (fun v => reads_wasm_msg v m) j
  | MGov m => variant "gov" (fun v => reads_gov_msg v m) j
  end.

(** ** Queries *)

Definition reads_page (j : json) (p : page_request) : Prop :=
  object ["key"; "limit"; "reverse"] (fun l =>
    maybe l "key" reads_bin (pg_key p) /\ field l "limit" (reads_uint (2 ^ 32)) (pg_limit p) /\
    field l "reverse" reads_bool (pg_reverse p)) j.
Definition reads_bank_query (j : json) (q : bank_query) : Prop :=
  match q with
  | QSupply d => variant "supply" (object ["denom"] (fun l => field l "denom" reads_str d)) j
  | QBalance a d => variant "balance" (object ["address"; "denom"] (fun l =>
      field l "address" reads_str a /\ field l "denom" reads_str d)) j
  | QAllBalances a => variant "all_balances" (object ["address"] (fun l => field l "address" reads_str a)) j
  | QDenomMetadata d => variant "denom_metadata" (object ["denom"] (fun l => field l "denom" reads_str d)) j
  | QAllDenomMetadata p => variant "all_denom_metadata" (object ["pagination"] (fun l => maybe l "pagination" reads_page p)) j
  end.
Definition reads_wasm_query (j : json) (q : wasm_query) : Prop :=
  match q with
  | QSmart c m => variant "smart" (object ["contract_addr"; "msg"] (fun l =>
      field l "contract_addr" reads_str c /\ field l "msg" reads_bin m)) j
  | QRaw c k => variant "raw" (object ["contract_addr"; "key"] (fun l =>
      field l "contract_addr" reads_str c /\ field l "key" reads_bin k)) j
  | QContractInfo c => variant "contract_info" (object ["contract_addr"] (fun l => field l "contract_addr" reads_str c)) j
  | QCodeInfo c => variant "code_info" (object ["code_id"] (fun l => field l "code_id" (reads_uint (2 ^ 64)) c)) j
  end.
Definition reads_staking_query (j : json) (q : staking_query) : Prop :=
  match q with
  | QBondedDenom => variant "bonded_denom" (object [] anything) j
  | QAllDelegations d => variant "all_delegations" (object ["delegator"] (fun l => field l "delegator" reads_str d)) j
  | QDelegation d v => variant "delegation" (object ["delegator"; "validator"] (fun l =>
      field l "delegator" reads_str d /\ field l "validator" reads_str v)) j
  | QAllValidators => variant "all_validators" (object [] anything) j
  | QValidator a => variant "validator" (object ["address"] (fun l => field l "address" reads_str a)) j
  end.
Definition reads_dist_query (j : json) (q : dist_query) : Prop :=
  match q with
  | QDelegatorWithdrawAddress a => variant "delegator_withdraw_address" (object ["delegator_address"] (fun l =>
      field l "delegator_address" reads_str a)) j
  | QDelegationRewards d v => variant "delegation_rewards" (object ["delegator_address"; "validator_address"] (fun l =>
      field l "delegator_address" reads_str d /\ field l "validator_address" reads_str v)) j
  | QDelegationTotalRewards d => variant "delegation_total_rewards" (object ["delegator_address"] (fun l =>
      field l "delegator_address" reads_str d)) j
  | QDelegatorValidators d => variant "delegator_validators" (object ["delegator_address"] (fun l =>
      field l "delegator_address" reads_str d)) j
  end.
Definition reads_ibc_query (j : json) (q : ibc_query) : Prop :=
  match q with
  | QPortId => variant "port_id" (object [] anything) j
  | QListChannels p => variant "list_channels" (object ["port_id"] (fun l => maybe l "port_id" reads_str p)) j
  | QChannel c p => variant "channel" (object ["channel_id"; "port_id"] (fun l =>
      field l "channel_id" reads_str c /\ maybe l "port_id" reads_str p)) j
  end.
Definition reads_query_request (j : json) (q : query_request) : Prop :=
  match q with
  | QBank q => variant "bank" (fun v => reads_bank_query v q) j
  | QCustom => variant "custom" (object [] anything) j
  | QStaking q => variant "staking" (fun v => reads_staking_query v q) j
  | QDistribution q => variant "distribution" (fun v => reads_dist_query v q) j
  | QStargate p d => variant "stargate" (object ["path"; "data"] (fun l =>
      field l "path" reads_str p /\ field l "data" reads_bin d)) j
  | QIbc q => variant "ibc" (fun v => reads_ibc_query v q) j
  | QWasm q => variant "wasm" (fun v => reads_wasm_query v q) j
  end.

(** ** Callbacks *)

Definition reads_endpoint (j : json) (e : endpoint) : Prop :=
  object ["port_id"; "channel_id"] (fun l =>
    field l "port_id" reads_str (e_port e) /\ field l "channel_id" reads_str (e_chan e)) j.
Definition reads_channel (j : json) (c : channel) : Prop :=
  object ["endpoint"; "counterparty_endpoint"; "order"; "version"; "connection_id"] (fun l =>
    field l "endpoint" reads_endpoint (ch_endpoint c) /\
    field l "counterparty_endpoint" reads_endpoint (ch_counterparty c) /\
    field l "order" reads_order (ch_order c) /\ field l "version" reads_str (ch_version c) /\
    field l "connection_id" reads_str (ch_connection c)) j.
Definition reads_packet (j : json) (p : packet) : Prop :=
  object ["data"; "src"; "dest"; "sequence"; "timeout"] (fun l =>
    field l "data" reads_bin (p_data p) /\ field l "src" reads_endpoint (p_src p) /\
    field l "dest" reads_endpoint (p_dest p) /\ field l "sequence" (reads_uint (2 ^ 64)) (p_seq p) /\
    field l "timeout" reads_timeout (p_timeout p)) j.

(** A list, or null for the empty one. *)
Definition vector {A} (l : list (string * json)) (k : string) (P : json -> A -> Prop) (xs : list A) : Prop :=
  In (k, JNull) l /\ xs = [] \/ exists v, In (k, JArr v) l /\ Forall2 P v xs.
Definition reads_opt {A} (P : json -> A -> Prop) (j : json) (o : option A) : Prop :=
  match o with Some a => j <> JNull /\ P j a | None => j = JNull end.
(** No other fields. *)
Definition exact_object (ks : list string) (P : list (string * json) -> Prop) (j : json) : Prop :=
  exists l, j = JObj l /\ fields_once ks l /\ closed ks l /\ P l.

Definition reads_denom_unit (j : json) (u : denom_unit) : Prop :=
  object ["denom"; "exponent"; "aliases"] (fun l =>
    field l "denom" reads_str (du_denom u) /\ field l "exponent" (reads_uint (2 ^ 32)) (du_exponent u) /\
    vector l "aliases" reads_str (du_aliases u)) j.
Definition reads_denom_metadata (j : json) (m : denom_metadata) : Prop :=
  object ["description"; "denom_units"; "base"; "display"; "name"; "symbol"; "uri"; "uri_hash"] (fun l =>
    field l "description" reads_str (dm_description m) /\ vector l "denom_units" reads_denom_unit (dm_units m) /\
    field l "base" reads_str (dm_base m) /\ field l "display" reads_str (dm_display m) /\
    field l "name" reads_str (dm_name m) /\ field l "symbol" reads_str (dm_symbol m) /\
    field l "uri" reads_str (dm_uri m) /\ field l "uri_hash" reads_str (dm_uri_hash m)) j.
Definition reads_contract_info (j : json) (c : contract_info) : Prop :=
  object ["code_id"; "creator"; "admin"; "pinned"; "ibc_port"] (fun l =>
    field l "code_id" (reads_uint (2 ^ 64)) (ci_code_id c) /\ field l "creator" reads_str (ci_creator c) /\
    maybe l "admin" reads_str (ci_admin c) /\ field l "pinned" reads_bool (ci_pinned c) /\
    maybe l "ibc_port" reads_str (ci_ibc_port c)) j.
Definition reads_validator (j : json) (v : validator) : Prop :=
  object ["address"; "commission"; "max_commission"; "max_change_rate"] (fun l =>
    field l "address" reads_str (v_address v) /\ field l "commission" reads_decimal (v_commission v) /\
    field l "max_commission" reads_decimal (v_max_commission v) /\
    field l "max_change_rate" reads_decimal (v_max_change_rate v)) j.
Definition reads_delegation (j : json) (d : delegation) : Prop :=
  exact_object ["delegator"; "validator"; "amount"] (fun l =>
    field l "delegator" reads_str (d_delegator d) /\ field l "validator" reads_str (d_validator d) /\
    field l "amount" reads_coin (d_amount d)) j.
Definition reads_bank_response (j : json) (r : bank_response) : Prop :=
  match r with
  | RSupply c => variant "supply" (object ["amount"] (fun l => field l "amount" reads_coin c)) j
  | RBalance c => variant "balance" (object ["amount"] (fun l => field l "amount" reads_coin c)) j
  | RAllBalances cs => variant "all_balances" (object ["amount"] (fun l => field l "amount" reads_coins cs)) j
  | RDenomMetadata m => variant "denom_metadata" (object ["metadata"] (fun l => field l "metadata" reads_denom_metadata m)) j
  | RAllDenomMetadata ms k => variant "all_denom_metadata" (object ["metadata"; "next_key"] (fun l =>
      field l "metadata" (reads_list reads_denom_metadata) ms /\ maybe l "next_key" reads_bin k)) j
  end.
Definition reads_wasm_response (j : json) (r : wasm_response) : Prop :=
  match r with
  | RContractInfo i => variant "contract_info" (fun v => reads_opt reads_contract_info v i) j
  | RRaw d => variant "raw_contract_state" (fun v => reads_opt reads_bin v d) j
  | RSmart d => variant "smart_contract_state" (fun v => reads_bin v d) j
  end.
Definition reads_staking_response (j : json) (r : staking_response) : Prop :=
  match r with
  | RBondedDenom d => variant "bonded_denom" (object ["denom"] (fun l => field l "denom" reads_str d)) j
  | RAllDelegations ds => variant "all_delegations" (exact_object ["delegations"] (fun l =>
      field l "delegations" (reads_list reads_delegation) ds)) j
  | RDelegation d => variant "delegation" (exact_object ["delegation"] (fun l => maybe l "delegation" reads_delegation d)) j
  | RAllValidators vs => variant "all_validators" (object ["validators"] (fun l =>
      field l "validators" (reads_list reads_validator) vs)) j
  | RValidator v => variant "validator" (object ["validator"] (fun l => maybe l "validator" reads_validator v)) j
  end.
Definition reads_query_response (j : json) (r : query_response) : Prop :=
  match r with
  | RBank r => variant "bank" (fun v => reads_bank_response v r) j
  | RStargate d p => variant "stargate" (exact_object ["data"; "path"] (fun l =>
      field l "data" reads_bin d /\ field l "path" reads_str p)) j
  | RWasm r => variant "wasm" (fun v => reads_wasm_response v r) j
  | RStaking r => variant "staking" (fun v => reads_staking_response v r) j
  end.
Definition reads_query_result (j : json) (r : query_result) : Prop :=
  match r with
  | QRSuccess h rs => variant "success" (exact_object ["height"; "responses"] (fun l =>
      field l "height" (reads_uint (2 ^ 64)) h /\ field l "responses" (reads_list reads_query_response) rs)) j
  | QRError e => variant "error" (fun v => reads_str v e) j
  end.
Definition reads_callback (j : json) (m : callback_msg) : Prop :=
  variant "receive_ica_callback" (fun v =>
    match m with
    | CbAck a p r q => variant "on_acknowledgement_packet_callback"
        (object ["ica_acknowledgement"; "original_packet"; "relayer"; "query_result"] (fun l =>
          field l "ica_acknowledgement" reads_ack a /\ field l "original_packet" reads_packet p /\
          field l "relayer" reads_str r /\ maybe l "query_result" reads_query_result q)) v
    | CbTimeout p r => variant "on_timeout_packet_callback" (object ["original_packet"; "relayer"] (fun l =>
        field l "original_packet" reads_packet p /\ field l "relayer" reads_str r)) v
    | CbOpenAck c a e => variant "on_channel_open_ack_callback" (object ["channel"; "ica_address"; "tx_encoding"] (fun l =>
        field l "channel" reads_channel c /\ field l "ica_address" reads_str a /\ field l "tx_encoding" reads_encoding e)) v
    end) j.

(** ** Texts *)

(** Text that is read as a message, where [P] says which tree is. *)
Definition text_of {A} (P : json -> A -> Prop) (t : string) (a : A) : Prop := exists j, json_text t j /\ P j a.
