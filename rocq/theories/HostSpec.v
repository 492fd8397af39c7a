(** * HostSpec: what the other side reads and writes.

    An independent specification of the protobuf messages of the Cosmos SDK,
    wasmd and ibc-go that the host chain decodes (its own descriptors, field
    numbers from the public .proto files), of the meaning of every supported
    message and query, and of the ICS-27 packet format.  It uses the wire
    format and JSON syntax ([Proto], [Json], [Text]) and the cosmwasm_std types
    ([Types]), but none of the contract's conversion functions. *)

From Verif Require Import Base Utf8 Text Base64 Proto Json Types.
Local Open Scope string_scope.
Local Open Scope list_scope.
Local Open Scope N_scope.

(** ** Descriptors *)

Definition s_ (t : N) : N * (label * kind) := (t, (Single, KStr)).
Definition b_ (t : N) : N * (label * kind) := (t, (Single, KBytes)).
Definition u_ (t : N) : N * (label * kind) := (t, (Single, KU64)).
Definition i_ (t : N) : N * (label * kind) := (t, (Single, KU32)).
Definition f_ (t : N) : N * (label * kind) := (t, (Single, KBool)).
Definition m_ (t : N) (d : desc) : N * (label * kind) := (t, (Single, KMsg d)).
Definition ms_ (t : N) (d : desc) : N * (label * kind) := (t, (Repeated, KMsg d)).
Definition ss_ (t : N) : N * (label * kind) := (t, (Repeated, KStr)).
Definition bs_ (t : N) : N * (label * kind) := (t, (Repeated, KBytes)).

Definition h_coin := [s_ 1 (* denom *); s_ 2 (* amount *)].
Definition h_any := [s_ 1 (* type_url *); b_ 2 (* value *)].
(** cosmos.bank.v1beta1.MsgSend: from_address, to_address, amount *)
Definition h_send := [s_ 1; s_ 2; ms_ 3 h_coin].
(** ibc.applications.transfer.v1.MsgTransfer: source_port, source_channel, token, sender,
    receiver, timeout_height, timeout_timestamp, memo *)
Definition h_transfer := [s_ 1; s_ 2; m_ 3 h_coin; s_ 4; s_ 5; m_ 6 [u_ 1; u_ 2]; u_ 7; s_ 8].
(** cosmwasm.wasm.v1: MsgExecuteContract sender, contract, msg, funds *)
Definition h_execute := [s_ 1; s_ 2; b_ 3; ms_ 5 h_coin].
(** MsgInstantiateContract sender, admin, code_id, label, msg, funds *)
Definition h_instantiate := [s_ 1; s_ 2; u_ 3; s_ 4; b_ 5; ms_ 6 h_coin].
(** MsgInstantiateContract2 ..., salt, fix_msg *)
Definition h_instantiate2 := [s_ 1; s_ 2; u_ 3; s_ 4; b_ 5; ms_ 6 h_coin; b_ 7; f_ 8].
(** MsgMigrateContract sender, contract, code_id, msg *)
Definition h_migrate := [s_ 1; s_ 2; u_ 3; b_ 4].
(** MsgUpdateAdmin sender, new_admin, contract *)
Definition h_update_admin := [s_ 1; s_ 2; s_ 3].
(** MsgClearAdmin sender, contract *)
Definition h_clear_admin := [s_ 1; s_ 3].
(** cosmos.gov.v1beta1.MsgVote proposal_id, voter, option *)
Definition h_vote := [u_ 1; s_ 2; i_ 3].
(** cosmos.gov.v1.MsgVoteWeighted proposal_id, voter, options (option, weight), metadata *)
Definition h_vote_weighted := [u_ 1; s_ 2; ms_ 3 [i_ 1; s_ 2]; s_ 4].
(** cosmos.staking.v1beta1 *)
Definition h_delegate := [s_ 1; s_ 2; m_ 3 h_coin].
Definition h_redelegate := [s_ 1; s_ 2; s_ 3; m_ 4 h_coin].
(** cosmos.distribution.v1beta1 *)
Definition h_withdraw := [s_ 1 (* delegator *); s_ 2 (* validator *)].
Definition h_set_withdraw := [s_ 1 (* delegator *); s_ 2 (* withdraw address *)].
Definition h_fund := [ms_ 1 h_coin; s_ 2 (* depositor *)].
(** ibc.applications.interchain_accounts.host.v1.MsgModuleQuerySafe signer, requests (path, data) *)
Definition h_query_safe := [s_ 1; ms_ 2 [s_ 1; b_ 2]].
(** ibc.applications.interchain_accounts.v1.CosmosTx messages *)
Definition h_cosmos_tx := [ms_ 1 h_any].

(** ** Messages as the host understands them *)

Definition coins := list (string * N).

Inductive host_msg :=
| HSend (from to : string) (amount : coins)
| HTransfer (port chan : string) (token : string * N) (sender receiver : string)
    (height : option (N * N)) (timestamp : N) (memo : string)
| HExecute (sender contract msg : string) (funds : coins)
| HInstantiate (sender admin : string) (code_id : N) (label msg : string) (funds : coins)
| HInstantiate2 (sender admin : string) (code_id : N) (label msg : string) (funds : coins)
    (salt : string) (fix_msg : bool)
| HMigrate (sender contract : string) (code_id : N) (msg : string)
| HUpdateAdmin (sender new_admin contract : string)
| HClearAdmin (sender contract : string)
| HVote (proposal : N) (voter : string) (option : N)
| HVoteWeighted (proposal : N) (voter : string) (options : list (N * N)) (metadata : string)
| HDelegate (delegator validator : string) (amount : string * N)
| HUndelegate (delegator validator : string) (amount : string * N)
| HRedelegate (delegator src dst : string) (amount : string * N)
| HWithdrawReward (delegator validator : string)
| HSetWithdrawAddress (delegator address : string)
| HFundPool (amount : coins) (depositor : string)
| HQuerySafe (signer : string) (requests : list (string * string)).

(** The account that must have signed the message (the SDK's signer field). *)
Definition host_signer (m : host_msg) : string :=
  match m with
  | HSend a _ _ => a
  | HTransfer _ _ _ a _ _ _ _ => a
  | HExecute a _ _ _ => a
  | HInstantiate a _ _ _ _ _ => a
  | HInstantiate2 a _ _ _ _ _ _ _ => a
  | HMigrate a _ _ _ => a
  | HUpdateAdmin a _ _ => a
  | HClearAdmin a _ => a
  | HVote _ a _ => a
  | HVoteWeighted _ a _ _ => a
  | HDelegate a _ _ => a
  | HUndelegate a _ _ => a
  | HRedelegate a _ _ _ => a
  | HWithdrawReward a _ => a
  | HSetWithdrawAddress a _ => a
  | HFundPool _ a => a
  | HQuerySafe a _ => a
  end.

(** math.Int: decimal digits.  LegacyDec: digits, optionally a point and at most
    18 decimals; in units of 10^-18. *)
Definition host_int (s : string) : option N := if all_chars is_digit s then pdec s else None.
Definition host_dec (s : string) : option N :=
  match split_on "." s with
  | [w] => n <-? host_int w ;; Some (n * 10 ^ 18)
  | [w; f] =>
      n <-? host_int w ;; m <-? host_int f ;;
      if (String.length f <=? 18)%nat
      then Some (n * 10 ^ 18 + m * 10 ^ N.of_nat (18 - String.length f)) else None
  | _ => None
  end.

Definition rd_coin (v : pv) : option (string * N) :=
  match v with
  | VMsg [[VStr d]; [VStr a]] => n <-? host_int a ;; Some (d, n)
  | _ => None
  end.
Definition rd_coins (l : list pv) : option coins := omap rd_coin l.
Definition rd_weighted (v : pv) : option (N * N) :=
  match v with
  | VMsg [[VNum o]; [VStr w]] => n <-? host_dec w ;; Some (o, n)
  | _ => None
  end.
Definition rd_request (v : pv) : option (string * string) :=
  match v with
  | VMsg [[VStr p]; [VStr d]] => Some (p, d)
  | _ => None
  end.

(** Decoding of an [Any] by the host, by type URL. *)
Definition host_decode (url bytes : string) : option host_msg :=
  if String.eqb url "/cosmos.bank.v1beta1.MsgSend" then
    m <-? pb_decode h_send bytes ;;
    match m with
    | [[VStr f]; [VStr t]; cs] => c <-? rd_coins cs ;; Some (HSend f t c)
    | _ => None
    end
  else if String.eqb url "/ibc.applications.transfer.v1.MsgTransfer" then
    m <-? pb_decode h_transfer bytes ;;
    match m with
    | [[VStr p]; [VStr c]; [t]; [VStr s]; [VStr r]; h; [VNum ts]; [VStr memo]] =>
        tok <-? rd_coin t ;;
        hh <-? match h with
               | [] => Some None
               | [VMsg [[VNum a]; [VNum b]]] => Some (Some (a, b))
               | _ => None
               end ;;
        Some (HTransfer p c tok s r hh ts memo)
    | _ => None
    end
  else if String.eqb url "/cosmwasm.wasm.v1.MsgExecuteContract" then
    m <-? pb_decode h_execute bytes ;;
    match m with
    | [[VStr s]; [VStr c]; [VStr msg]; fs] => f <-? rd_coins fs ;; Some (HExecute s c msg f)
    | _ => None
    end
  else if String.eqb url "/cosmwasm.wasm.v1.MsgInstantiateContract" then
    m <-? pb_decode h_instantiate bytes ;;
    match m with
    | [[VStr s]; [VStr a]; [VNum id]; [VStr l]; [VStr msg]; fs] =>
        f <-? rd_coins fs ;; Some (HInstantiate s a id l msg f)
    | _ => None
    end
  else if String.eqb url "/cosmwasm.wasm.v1.MsgInstantiateContract2" then
    m <-? pb_decode h_instantiate2 bytes ;;
    match m with
    | [[VStr s]; [VStr a]; [VNum id]; [VStr l]; [VStr msg]; fs; [VStr salt]; [VNum fix_]] =>
        f <-? rd_coins fs ;; Some (HInstantiate2 s a id l msg f salt (negb (fix_ =? 0)))
    | _ => None
    end
  else if String.eqb url "/cosmwasm.wasm.v1.MsgMigrateContract" then
    m <-? pb_decode h_migrate bytes ;;
    match m with
    | [[VStr s]; [VStr c]; [VNum id]; [VStr msg]] => Some (HMigrate s c id msg)
    | _ => None
    end
  else if String.eqb url "/cosmwasm.wasm.v1.MsgUpdateAdmin" then
    m <-? pb_decode h_update_admin bytes ;;
    match m with
    | [[VStr s]; [VStr a]; [VStr c]] => Some (HUpdateAdmin s a c)
    | _ => None
    end
  else if String.eqb url "/cosmwasm.wasm.v1.MsgClearAdmin" then
    m <-? pb_decode h_clear_admin bytes ;;
    match m with
    | [[VStr s]; [VStr c]] => Some (HClearAdmin s c)
    | _ => None
    end
  else if String.eqb url "/cosmos.gov.v1beta1.MsgVote" then
    m <-? pb_decode h_vote bytes ;;
    match m with
    | [[VNum p]; [VStr v]; [VNum o]] => Some (HVote p v o)
    | _ => None
    end
  else if String.eqb url "/cosmos.gov.v1.MsgVoteWeighted" then
    m <-? pb_decode h_vote_weighted bytes ;;
    match m with
    | [[VNum p]; [VStr v]; os; [VStr md]] =>
        o <-? omap rd_weighted os ;; Some (HVoteWeighted p v o md)
    | _ => None
    end
  else if String.eqb url "/cosmos.staking.v1beta1.MsgDelegate" then
    m <-? pb_decode h_delegate bytes ;;
    match m with
    | [[VStr d]; [VStr v]; [c]] => a <-? rd_coin c ;; Some (HDelegate d v a)
    | _ => None
    end
  else if String.eqb url "/cosmos.staking.v1beta1.MsgUndelegate" then
    m <-? pb_decode h_delegate bytes ;;
    match m with
    | [[VStr d]; [VStr v]; [c]] => a <-? rd_coin c ;; Some (HUndelegate d v a)
    | _ => None
    end
  else if String.eqb url "/cosmos.staking.v1beta1.MsgBeginRedelegate" then
    m <-? pb_decode h_redelegate bytes ;;
    match m with
    | [[VStr d]; [VStr v]; [VStr v2]; [c]] => a <-? rd_coin c ;; Some (HRedelegate d v v2 a)
    | _ => None
    end
  else if String.eqb url "/cosmos.distribution.v1beta1.MsgWithdrawDelegatorReward" then
    m <-? pb_decode h_withdraw bytes ;;
    match m with
    | [[VStr d]; [VStr v]] => Some (HWithdrawReward d v)
    | _ => None
    end
  else if String.eqb url "/cosmos.distribution.v1beta1.MsgSetWithdrawAddress" then
    m <-? pb_decode h_set_withdraw bytes ;;
    match m with
    | [[VStr d]; [VStr v]] => Some (HSetWithdrawAddress d v)
    | _ => None
    end
  else if String.eqb url "/cosmos.distribution.v1beta1.MsgFundCommunityPool" then
    m <-? pb_decode h_fund bytes ;;
    match m with
    | [cs; [VStr d]] => c <-? rd_coins cs ;; Some (HFundPool c d)
    | _ => None
    end
  else if String.eqb url "/ibc.applications.interchain_accounts.host.v1.MsgModuleQuerySafe" then
    m <-? pb_decode h_query_safe bytes ;;
    match m with
    | [[VStr s]; rs] => r <-? omap rd_request rs ;; Some (HQuerySafe s r)
    | _ => None
    end
  else None.

(** ** What each message of the user means for the account [a] *)

Definition amt (c : coin) : string * N := (c_denom c, c_amount c).

(** cosmos.gov.v1beta1.VoteOption *)
Definition vote_number (o : vote_option) : N :=
  match o with VoteYes => 1 | VoteAbstain => 2 | VoteNo => 3 | VoteNoWithVeto => 4 end.

(** [None]: not supported. Stargate messages are handled separately. *)
Definition meaning (m : cosmos_msg) (a : string) : option host_msg :=
  match m with
  | MBank (BankSend to cs) => Some (HSend a to (map amt cs))
  | MBank (BankBurn _) => None
  | MIbc (IbcTransfer chan to c t memo) =>
      Some (HTransfer "transfer" chan (amt c) a to
              (option_map (fun b => (tb_revision b, tb_height b)) (to_block t))
              (unwrap_or (to_timestamp t) 0) (unwrap_or memo ""))
  | MIbc _ => None
  | MWasm (WasmExecute c msg fs) => Some (HExecute a c msg (map amt fs))
  | MWasm (WasmInstantiate adm id msg fs l) =>
      Some (HInstantiate a (unwrap_or adm "") id l msg (map amt fs))
  | MWasm (WasmInstantiate2 adm id l msg fs salt) =>
      Some (HInstantiate2 a (unwrap_or adm "") id l msg (map amt fs) salt false)
  | MWasm (WasmMigrate c id msg) => Some (HMigrate a c id msg)
  | MWasm (WasmUpdateAdmin c adm) => Some (HUpdateAdmin a adm c)
  | MWasm (WasmClearAdmin c) => Some (HClearAdmin a c)
  | MGov (GovVote p o) => Some (HVote p a (vote_number o))
  | MGov (GovVoteWeighted p os) =>
      Some (HVoteWeighted p a (map (fun o => (vote_number (wv_option o), wv_weight o)) os) "")
  | MStaking (StDelegate v c) => Some (HDelegate a v (amt c))
  | MStaking (StUndelegate v c) => Some (HUndelegate a v (amt c))
  | MStaking (StRedelegate v v' c) => Some (HRedelegate a v v' (amt c))
  | MDistribution (DistWithdrawReward v) => Some (HWithdrawReward a v)
  | MDistribution (DistSetWithdrawAddress w) => Some (HSetWithdrawAddress a w)
  | MDistribution (DistFundCommunityPool cs) => Some (HFundPool (map amt cs) a)
  | MStargate _ _ => None
  | MCustom => None
  end.

Definition supported (m : cosmos_msg) : Prop :=
  match m with
  | MStargate _ _ => True
  | MBank (BankBurn _) | MCustom | MIbc (IbcSendPacket _ _ _) | MIbc (IbcCloseChannel _) => False
  | _ => True
  end.

(** An [Any] carries a user's message for the account [a]. *)
Definition carries (a : string) (m : cosmos_msg) (url bytes : string) : Prop :=
  match m with
  | MStargate u v => url = u /\ bytes = v
  | _ => exists h, meaning m a = Some h /\ host_decode url bytes = Some h
  end.

(** ** Values a Rust message can hold *)

Definition utf8 (s : string) : Prop := utf8_valid s = true.
Definition utf8o (o : option string) : Prop := match o with Some s => utf8 s | None => True end.
Definition u64 (n : N) : Prop := n < u64_lim.
Definition wf_coin (c : coin) : Prop := utf8 (c_denom c) /\ c_amount c < u128_lim.
Definition wf_timeout (t : timeout) : Prop :=
  match to_block t with Some b => u64 (tb_revision b) /\ u64 (tb_height b) | None => True end /\
  match to_timestamp t with Some n => u64 n | None => True end.
Definition wf_weighted (w : weighted_vote) : Prop := wv_weight w < u128_lim.

Definition wf_msg (m : cosmos_msg) : Prop :=
  match m with
  | MBank (BankSend to cs) => utf8 to /\ Forall wf_coin cs
  | MBank (BankBurn cs) => Forall wf_coin cs
  | MCustom => True
  | MStaking (StDelegate v c) | MStaking (StUndelegate v c) => utf8 v /\ wf_coin c
  | MStaking (StRedelegate v v' c) => utf8 v /\ utf8 v' /\ wf_coin c
  | MDistribution (DistSetWithdrawAddress w) => utf8 w
  | MDistribution (DistWithdrawReward v) => utf8 v
  | MDistribution (DistFundCommunityPool cs) => Forall wf_coin cs
  | MStargate u v => utf8 u
  | MIbc (IbcTransfer chan to c t memo) =>
      utf8 chan /\ utf8 to /\ wf_coin c /\ wf_timeout t /\ utf8o memo
  | MIbc (IbcSendPacket chan d t) => utf8 chan /\ wf_timeout t
  | MIbc (IbcCloseChannel chan) => utf8 chan
  | MWasm (WasmExecute c msg fs) => utf8 c /\ Forall wf_coin fs
  | MWasm (WasmInstantiate adm id msg fs l) => utf8o adm /\ u64 id /\ Forall wf_coin fs /\ utf8 l
  | MWasm (WasmInstantiate2 adm id l msg fs salt) =>
      utf8o adm /\ u64 id /\ utf8 l /\ Forall wf_coin fs
  | MWasm (WasmMigrate c id msg) => utf8 c /\ u64 id
  | MWasm (WasmUpdateAdmin c adm) => utf8 c /\ utf8 adm
  | MWasm (WasmClearAdmin c) => utf8 c
  | MGov (GovVote p o) => u64 p
  | MGov (GovVoteWeighted p os) => u64 p /\ Forall wf_weighted os
  end.

(** ** Queries *)

Definition h_page := [b_ 1; u_ 2; u_ 3; f_ 4; f_ 5].   (* key, offset, limit, count_total, reverse *)
Definition h_page_response := [b_ 1; u_ 2].

Inductive host_query :=
| HQBalance (address denom : string)
| HQAllBalances (address : string)
| HQDenomMetadata (denom : string)
| HQDenomsMetadata (page : option (string * N * N * bool * bool))
| HQSupplyOf (denom : string)
| HQContractInfo (address : string)
| HQRaw (address key : string)
| HQSmart (address msg : string)
| HQValidator (address : string)
| HQValidators (status : string)
| HQDelegation (delegator validator : string)
| HQDelegatorDelegations (delegator : string)
| HQParams.

(** Routing of a query by the host: gRPC path, then the request message.  Lists
    are requested without pagination. *)
Definition host_query_decode (path bytes : string) : option host_query :=
  if String.eqb path "/cosmos.bank.v1beta1.Query/Balance" then
    match pb_decode [s_ 1; s_ 2] bytes with
    | Some [[VStr a]; [VStr d]] => Some (HQBalance a d) | _ => None end
  else if String.eqb path "/cosmos.bank.v1beta1.Query/AllBalances" then
    match pb_decode [s_ 1; m_ 2 h_page] bytes with
    | Some [[VStr a]; []] => Some (HQAllBalances a) | _ => None end
  else if String.eqb path "/cosmos.bank.v1beta1.Query/DenomMetadata" then
    match pb_decode [s_ 1] bytes with
    | Some [[VStr d]] => Some (HQDenomMetadata d) | _ => None end
  else if String.eqb path "/cosmos.bank.v1beta1.Query/DenomsMetadata" then
    match pb_decode [m_ 1 h_page] bytes with
    | Some [[]] => Some (HQDenomsMetadata None)
    | Some [[VMsg [[VStr k]; [VNum o]; [VNum l]; [VNum ct]; [VNum rv]]]] =>
        Some (HQDenomsMetadata (Some (k, o, l, negb (ct =? 0), negb (rv =? 0))))
    | _ => None end
  else if String.eqb path "/cosmos.bank.v1beta1.Query/SupplyOf" then
    match pb_decode [s_ 1] bytes with
    | Some [[VStr d]] => Some (HQSupplyOf d) | _ => None end
  else if String.eqb path "/cosmwasm.wasm.v1.Query/ContractInfo" then
    match pb_decode [s_ 1] bytes with
    | Some [[VStr d]] => Some (HQContractInfo d) | _ => None end
  else if String.eqb path "/cosmwasm.wasm.v1.Query/RawContractState" then
    match pb_decode [s_ 1; b_ 2] bytes with
    | Some [[VStr a]; [VStr k]] => Some (HQRaw a k) | _ => None end
  else if String.eqb path "/cosmwasm.wasm.v1.Query/SmartContractState" then
    match pb_decode [s_ 1; b_ 2] bytes with
    | Some [[VStr a]; [VStr k]] => Some (HQSmart a k) | _ => None end
  else if String.eqb path "/cosmos.staking.v1beta1.Query/Validator" then
    match pb_decode [s_ 1] bytes with
    | Some [[VStr d]] => Some (HQValidator d) | _ => None end
  else if String.eqb path "/cosmos.staking.v1beta1.Query/Validators" then
    match pb_decode [s_ 1; m_ 2 h_page] bytes with
    | Some [[VStr s]; []] => Some (HQValidators s) | _ => None end
  else if String.eqb path "/cosmos.staking.v1beta1.Query/Delegation" then
    match pb_decode [s_ 1; s_ 2] bytes with
    | Some [[VStr a]; [VStr d]] => Some (HQDelegation a d) | _ => None end
  else if String.eqb path "/cosmos.staking.v1beta1.Query/DelegatorDelegations" then
    match pb_decode [s_ 1; m_ 2 h_page] bytes with
    | Some [[VStr a]; []] => Some (HQDelegatorDelegations a) | _ => None end
  else if String.eqb path "/cosmos.staking.v1beta1.Query/Params" then
    match pb_decode [] bytes with Some [] => Some HQParams | _ => None end
  else None.

Definition query_meaning (q : query_request) : option host_query :=
  match q with
  | QBank (QBalance a d) => Some (HQBalance a d)
  | QBank (QAllBalances a) => Some (HQAllBalances a)
  | QBank (QDenomMetadata d) => Some (HQDenomMetadata d)
  | QBank (QAllDenomMetadata p) =>
      Some (HQDenomsMetadata (option_map (fun p =>
        (unwrap_or (pg_key p) "", 0, pg_limit p, false, pg_reverse p)) p))
  | QBank (QSupply d) => Some (HQSupplyOf d)
  | QWasm (QContractInfo a) => Some (HQContractInfo a)
  | QWasm (QRaw a k) => Some (HQRaw a k)
  | QWasm (QSmart a m) => Some (HQSmart a m)
  | QStaking (QValidator a) => Some (HQValidator a)
  | QStaking QAllValidators => Some (HQValidators "")
  | QStaking (QDelegation d v) => Some (HQDelegation d v)
  | QStaking (QAllDelegations d) => Some (HQDelegatorDelegations d)
  | QStaking QBondedDenom => Some HQParams
  | _ => None
  end.

Definition qsupported (q : query_request) : Prop :=
  match q with
  | QStargate _ _ => True
  | QBank _ => True
  | QStaking _ => True
  | QWasm (QCodeInfo _) => False
  | QWasm _ => True
  | QCustom | QDistribution _ | QIbc _ => False
  end.

(** A request of MsgModuleQuerySafe carries the user's query. *)
Definition qcarries (q : query_request) (path data : string) : Prop :=
  match q with
  | QStargate p d => path = p /\ data = d
  | _ => exists h, query_meaning q = Some h /\ host_query_decode path data = Some h
  end.

Definition wf_query (q : query_request) : Prop :=
  match q with
  | QBank (QBalance a d) => utf8 a /\ utf8 d
  | QBank (QAllBalances a) => utf8 a
  | QBank (QDenomMetadata d) => utf8 d
  | QBank (QAllDenomMetadata p) => match p with Some p => pg_limit p < u32_lim | None => True end
  | QBank (QSupply d) => utf8 d
  | QWasm (QContractInfo a) | QWasm (QRaw a _) | QWasm (QSmart a _) => utf8 a
  | QWasm (QCodeInfo c) => u64 c
  | QStaking (QValidator a) | QStaking (QAllDelegations a) => utf8 a
  | QStaking (QDelegation d v) => utf8 d /\ utf8 v
  | QStaking QAllValidators | QStaking QBondedDenom => True
  | QStargate p _ => utf8 p
  | _ => True
  end.

(** ** The packet *)

Fixpoint find_key (k : string) (l : list (string * json)) : option json :=
  match l with [] => None | (k', v) :: r => if String.eqb k' k then Some v else find_key k r end.

(** Go's encoding/json reads a []byte from an array of numbers. *)
Definition json_byte (j : json) : option ascii :=
  match j with JNum n => if n <? 256 then Some (nb n) else None | _ => None end.
Definition string_of_chars (l : list ascii) : string := fold_right String "" l.

(** InterchainAccountPacketData as the host reads it: the type must be
    EXECUTE_TX (1), the data a CosmosTx; the result is the messages and the memo. *)
Definition host_packet (data : string) : option (list (string * string) * string) :=
  j <-? jparse data ;;
  match j with
  | JObj l =>
      t <-? find_key "type" l ;;
      d <-? find_key "data" l ;;
      match t, d with
      | JNum 1, JArr bs =>
          bytes <-? omap json_byte bs ;;
          memo <-? match find_key "memo" l with
                   | None => Some ""
                   | Some (JStr s) => Some s
                   | Some _ => None
                   end ;;
          tx <-? pb_decode h_cosmos_tx (string_of_chars bytes) ;;
          match tx with
          | [anys] =>
              l <-? omap (fun v => match v with
                    | VMsg [[VStr u]; [VStr b]] => Some (u, b) | _ => None end) anys ;;
              Some (l, memo)
          | _ => None
          end
      | _, _ => None
      end
  | _ => None
  end.

(** The messages of a packet are the requested ones in order, then one
    MsgModuleQuerySafe with the queries in order, if there are any. *)
Definition packet_spec (a : string) (ms : list cosmos_msg) (qs : list query_request)
  (anys : list (string * string)) : Prop :=
  exists l rest, anys = l ++ rest /\
    Forall2 (fun m x => carries a m (fst x) (snd x)) ms l /\
    match qs with
    | [] => rest = []
    | _ => exists url bytes reqs, rest = [(url, bytes)] /\
             host_decode url bytes = Some (HQuerySafe a reqs) /\
             Forall2 (fun q r => qcarries q (fst r) (snd r)) qs reqs
    end.

(** Messages up to an absent optional field versus its empty value. *)
Definition same_text (a b : option string) : Prop := unwrap_or a "" = unwrap_or b "".
Definition same_msg (m m' : cosmos_msg) : Prop :=
  match m, m' with
  | MIbc (IbcTransfer ch to c t memo), MIbc (IbcTransfer ch' to' c' t' memo') =>
      ch = ch' /\ to = to' /\ c = c' /\ to_block t = to_block t' /\
      unwrap_or (to_timestamp t) 0 = unwrap_or (to_timestamp t') 0 /\ same_text memo memo'
  | MWasm (WasmInstantiate adm id msg fs l), MWasm (WasmInstantiate adm' id' msg' fs' l') =>
      same_text adm adm' /\ id = id' /\ msg = msg' /\ fs = fs' /\ l = l'
  | MWasm (WasmInstantiate2 adm id l msg fs salt), MWasm (WasmInstantiate2 adm' id' l' msg' fs' salt') =>
      same_text adm adm' /\ id = id' /\ l = l' /\ msg = msg' /\ fs = fs' /\ salt = salt'
  | _, _ => m = m'
  end.

(** ** MsgChannelOpenInit as IBC core reads it *)

Record open_init := OpenInit {
  oi_port : string;
  oi_state : N;
  oi_order : N;                       (* 1 UNORDERED, 2 ORDERED *)
  oi_cp_port : string;
  oi_cp_chan : string;
  oi_hops : list string;
  oi_version : string;
  oi_signer : string
}.

Definition h_channel := [i_ 1; i_ 2; m_ 3 [s_ 1; s_ 2]; ss_ 4; s_ 5].
Definition h_open_init := [s_ 1; m_ 2 h_channel; s_ 3].

Definition core_open_init (bytes : string) : option open_init :=
  m <-? pb_decode h_open_init bytes ;;
  match m with
  | [[VStr port]; [VMsg [[VNum st]; [VNum ord]; [VMsg [[VStr cpp]; [VStr cpc]]]; hops; [VStr ver]]];
     [VStr signer]] =>
      hs <-? omap (fun v => match v with VStr s => Some s | _ => None end) hops ;;
      Some (OpenInit port st ord cpp cpc hs ver signer)
  | _ => None
  end.

(** The response data of IbcMsg::SendPacket in wasmd (MsgIBCSendResponse). *)
Definition send_response (seq : N) : string := pb_encode [u_ 1] [[VNum seq]].
