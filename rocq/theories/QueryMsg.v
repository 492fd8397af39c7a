(** * QueryMsg: src/types/query_msg.rs, conversion of queries and answers. *)

From Verif Require Import Base Text Proto Schemas Types Errors CosmosMsg.
Local Open Scope string_scope.
Local Open Scope N_scope.

(** ** constants, query_msg.rs:61-97 *)
Definition BALANCE := "/cosmos.bank.v1beta1.Query/Balance".
Definition ALL_BALANCES := "/cosmos.bank.v1beta1.Query/AllBalances". (* 65 *)
Definition DENOM_METADATA := "/cosmos.bank.v1beta1.Query/DenomMetadata". (* 67 *)
Definition ALL_DENOM_METADATA := "/cosmos.bank.v1beta1.Query/DenomsMetadata". (* 69 *)
Definition SUPPLY := "/cosmos.bank.v1beta1.Query/SupplyOf". (* 71 *)
Definition VALIDATOR := "/cosmos.staking.v1beta1.Query/Validator". (* 75 *)
Definition ALL_VALIDATORS := "/cosmos.staking.v1beta1.Query/Validators". (* 78 *)
Definition DELEGATION := "/cosmos.staking.v1beta1.Query/Delegation". (* 81 *)
Definition ALL_DELEGATIONS := "/cosmos.staking.v1beta1.Query/DelegatorDelegations". (* 84 *)
Definition STAKING_PARAMS := "/cosmos.staking.v1beta1.Query/Params". (* 87 *)
Definition WASM_CONTRACT_INFO := "/cosmwasm.wasm.v1.Query/ContractInfo". (* 90 *)
Definition WASM_RAW := "/cosmwasm.wasm.v1.Query/RawContractState". (* 94 *)
Definition WASM_SMART := "/cosmwasm.wasm.v1.Query/SmartContractState". (* 96 *)

(** ** Requests: path, protobuf bytes, is_stargate *)
(** The triple of src/types/query_msg.rs:13. *)
Definition abci := (string * string * bool)%type.

(** convert_to_protobuf::bank, query_msg.rs:232-275 *)
Definition req_bank (q : bank_query) : outcome abci :=
  match q with
  | QBalance address denom =>
      Ok (BALANCE, pb_encode d_q_balance [str address; str denom], false)
  | QAllBalances address =>
      Ok (ALL_BALANCES, pb_encode d_q_all_balances [str address; []], false)
  | QDenomMetadata denom =>
      Ok (DENOM_METADATA, pb_encode d_q_denom_metadata [str denom], false)
  | QAllDenomMetadata pagination =>
      let page := match pagination with
        | None => []
        | Some p => [VMsg [str (unwrap_or (pg_key p) ""); num 0; num (pg_limit p);
                           num 0; num (if pg_reverse p then 1 else 0)]]
        end in
      Ok (ALL_DENOM_METADATA, pb_encode d_q_denoms_metadata [page], false)
  | QSupply denom =>
      Ok (SUPPLY, pb_encode d_q_supply_of [str denom], false)
  end.

(** convert_to_protobuf::wasm, query_msg.rs:277-310 *)
Definition req_wasm (q : wasm_query) : outcome abci :=
  match q with
  | QRaw contract_addr key =>
      Ok (WASM_RAW, pb_encode d_q_raw [str contract_addr; str key], false)
  | QSmart contract_addr msg =>
      Ok (WASM_SMART, pb_encode d_q_smart [str contract_addr; str msg], false)
  | QContractInfo contract_addr =>
      Ok (WASM_CONTRACT_INFO, pb_encode d_q_contract_info [str contract_addr], false)
  | QCodeInfo _ => Panic
  end.

(** convert_to_protobuf::staking, query_msg.rs:313-365 *)
Definition req_staking (q : staking_query) : outcome abci :=
  match q with
  | QValidator address =>
      Ok (VALIDATOR, pb_encode d_q_validator [str address], false)
  | QAllValidators =>
      Ok (ALL_VALIDATORS, pb_encode d_q_validators [str ""; []], false)
  | QDelegation delegator validator =>
      Ok (DELEGATION, pb_encode d_q_delegation [str delegator; str validator], false)
  | QAllDelegations delegator =>
      Ok (ALL_DELEGATIONS, pb_encode d_q_delegator_delegations [str delegator; []], false)
  | QBondedDenom =>
      Ok (STAKING_PARAMS, pb_encode d_q_params [], false)
  end.

(** query_to_protobuf, query_msg.rs:13-29 *)
Definition query_to_protobuf (q : query_request) : outcome abci :=
  match q with
  | QBank b => req_bank b
  | QStargate path data => Ok (path, data, true)
  | QWasm w => req_wasm w
  | QIbc _ => Panic
  | QCustom => Panic
  | QStaking s => req_staking s
  | QDistribution _ => Panic
  end.

(** ** Answers *)

(** prost's [decode(resp)?]: a decoding error becomes [ContractError].
    (src/types/query_msg.rs:472, 481, 492, 501, 514, 529, 551, 561, 584, 590, 601, 622, 644.) *)
Definition pb_dec (d : desc) (s : string) : outcome (list (list pv)) :=
  of_option (pb_decode d s) EProstDecode.

(** Reading the fields of a decoded struct.  [pb_decode] always yields one slot
    per field of the descriptor (fields of the Rust struct).
    (Field access, src/types/query_msg.rs:396-651.) *)
Definition slot (m : list (list pv)) (i : nat) : list pv := nth i m [].
(** (Field access, src/types/query_msg.rs:396-651.) *)
Definition get_str (m : list (list pv)) (i : nat) : string :=
  match slot m i with VStr s :: _ => s | _ => "" end.
(** (Field access, src/types/query_msg.rs:396-651.) *)
Definition get_num (m : list (list pv)) (i : nat) : N :=
  match slot m i with VNum n :: _ => n | _ => 0 end.
(** [Option<Message>] field (Field access, src/types/query_msg.rs:396-651.) *)
Definition get_msg (m : list (list pv)) (i : nat) : option (list (list pv)) :=
  match slot m i with VMsg f :: _ => Some f | _ => None end.
(** [Vec<Message>] field (Field access, src/types/query_msg.rs:396-651.) *)
Definition get_msgs (m : list (list pv)) (i : nat) : list (list (list pv)) :=
  map (fun v => match v with VMsg f => f | _ => [] end) (slot m i).
(** [Vec<String>], [Vec<Vec<u8>>] field (Field access, src/types/query_msg.rs:396-651.) *)
Definition get_strs (m : list (list pv)) (i : nat) : list string :=
  map (fun v => match v with VStr s => s | _ => "" end) (slot m i).

(** convert_to_coin, query_msg.rs:396-401 *)
Definition convert_to_coin (m : list (list pv)) : outcome coin :=
  a <- of_option (parse_u128 (get_str m 1)) EStd ;; Ok (Coin (get_str m 0) a).

(** [Coin::default()] (src/types/query_msg.rs:476, 518.) *)
Definition coin_default : coin := Coin "" 0.

(** convert_to_metadata, query_msg.rs:403-422 *)
Definition convert_to_metadata (m : list (list pv)) : denom_metadata :=
  DenomMetadata (get_str m 0)
    (map (fun u => DenomUnit (get_str u 0) (get_num u 1) (get_strs u 2)) (get_msgs m 1))
    (get_str m 2) (get_str m 3) (get_str m 4) (get_str m 5) (get_str m 6) (get_str m 7).

(** [DenomMetadata::default()] (src/types/query_msg.rs:496.) *)
Definition metadata_default : denom_metadata := DenomMetadata "" [] "" "" "" "" "" "".

(** convert_to_validator, query_msg.rs:425-442 *)
Definition convert_to_validator (m : list (list pv)) : outcome validator :=
  let rates := unwrap_or (get_msg (unwrap_or (get_msg m 9) (default_msg d_commission)) 0)
                 (default_msg d_commission_rates) in
  r1 <- of_option (decimal_from_string (get_str rates 0)) EStd ;;
  r2 <- of_option (decimal_from_string (get_str rates 1)) EStd ;;
  r3 <- of_option (decimal_from_string (get_str rates 2)) EStd ;;
  Ok (Validator (get_str m 0) r1 r2 r3).

(** The closure building a [Delegation], query_msg.rs:607-615 and 629-637 *)
Definition convert_to_delegation (del_resp : list (list pv)) : option (outcome delegation) :=
  match get_msg del_resp 0 with
  | None => None
  | Some del =>
      Some (c <- convert_to_coin (unwrap_or (get_msg del_resp 1) (default_msg d_coin)) ;;
            Ok (Delegation (get_str del 0) (get_str del 1) c))
  end.

(** bank_response, query_msg.rs:469-524 *)
Definition bank_resp (path resp : string) : outcome query_response :=
  if String.eqb path BALANCE then
    m <- pb_dec d_r_balance resp ;;
    c <- match get_msg m 0 with None => Ok coin_default | Some c => convert_to_coin c end ;;
    Ok (RBank (RBalance c))
  else if String.eqb path ALL_BALANCES then
    m <- pb_dec d_r_all_balances resp ;;
    cs <- mapo convert_to_coin (get_msgs m 0) ;;
    Ok (RBank (RAllBalances cs))
  else if String.eqb path DENOM_METADATA then
    m <- pb_dec d_r_denom_metadata resp ;;
    Ok (RBank (RDenomMetadata
      (match get_msg m 0 with None => metadata_default | Some x => convert_to_metadata x end)))
  else if String.eqb path ALL_DENOM_METADATA then
    m <- pb_dec d_r_denoms_metadata resp ;;
    Ok (RBank (RAllDenomMetadata (map convert_to_metadata (get_msgs m 0))
      (option_map (fun p => get_str p 0) (get_msg m 1))))
  else if String.eqb path SUPPLY then
    m <- pb_dec d_r_supply_of resp ;;
    c <- match get_msg m 0 with None => Ok coin_default | Some c => convert_to_coin c end ;;
    Ok (RBank (RSupply c))
  else Err (EUnknownDataType path).

(** [if s.is_empty() { None } else { Some(s) }], query_msg.rs:535-545, 553-557 *)
Definition non_empty (s : string) : option string := if sempty s then None else Some s.

(** wasm_response, query_msg.rs:526-568 *)
Definition wasm_resp (path resp : string) : outcome query_response :=
  if String.eqb path WASM_CONTRACT_INFO then
    m <- pb_dec d_r_contract_info resp ;;
    Ok (RWasm (RContractInfo (option_map (fun i =>
      ContractInfo (get_num i 0) (get_str i 1) (non_empty (get_str i 2)) false
        (non_empty (get_str i 5))) (get_msg m 1))))
  else if String.eqb path WASM_RAW then
    m <- pb_dec d_r_raw resp ;;
    Ok (RWasm (RRaw (non_empty (get_str m 0))))
  else if String.eqb path WASM_SMART then
    m <- pb_dec d_r_smart resp ;;
    Ok (RWasm (RSmart (get_str m 0)))
  else Err (EUnknownDataType path).

(** [filter_map] over the closure, then [collect::<Result<_,_>>]
    (src/types/query_msg.rs:626-639.) *)
Fixpoint filter_mapo {A B} (f : A -> option (outcome B)) (l : list A) : outcome (list B) :=
  match l with
  | [] => Ok []
  | x :: r =>
      match f x with
      | None => filter_mapo f r
      | Some o => y <- o ;; ys <- filter_mapo f r ;; Ok (y :: ys)
      end
  end.

(** staking_response, query_msg.rs:571-655 *)
Definition staking_resp (path resp : string) : outcome query_response :=
  if String.eqb path VALIDATOR then
    m <- pb_dec d_r_validator resp ;;
    v <- otranspose (option_map convert_to_validator (get_msg m 0)) ;;
    Ok (RStaking (RValidator v))
  else if String.eqb path ALL_VALIDATORS then
    m <- pb_dec d_r_validators resp ;;
    vs <- mapo convert_to_validator (get_msgs m 0) ;;
    Ok (RStaking (RAllValidators vs))
  else if String.eqb path DELEGATION then
    m <- pb_dec d_r_delegation resp ;;
    d <- otranspose (r <-? get_msg m 0 ;; convert_to_delegation r) ;;
    Ok (RStaking (RDelegation d))
  else if String.eqb path ALL_DELEGATIONS then
    m <- pb_dec d_r_delegator_delegations resp ;;
    ds <- filter_mapo convert_to_delegation (get_msgs m 0) ;;
    Ok (RStaking (RAllDelegations ds))
  else if String.eqb path STAKING_PARAMS then
    m <- pb_dec d_r_params resp ;;
    p <- of_option (get_msg m 0) (EEmptyResponse path) ;;
    Ok (RStaking (RBondedDenom (get_str p 4)))
  else Err (EUnknownDataType path).

(** from_protobuf::response, query_msg.rs:448-467 *)
Definition response_of (path resp : string) (is_stargate : bool) : outcome query_response :=
  if is_stargate then Ok (RStargate resp path)
  else if starts_with "/cosmos.bank.v1beta1.Query/" path then bank_resp path resp
  else if starts_with "/cosmwasm.wasm.v1.Query/" path then wasm_resp path resp
  else if starts_with "/cosmos.staking.v1beta1.Query/" path then staking_resp path resp
  else Err (EUnknownDataType path).

(** MsgModuleQuerySafeResponse, query_msg.rs:688-696 *)
Record mqs_response := MqsResponse { mq_height : N; mq_responses : list string }.

(** The zip/map/collect of result_from_response (query_msg.rs:46-50): the
    answers, or the text of the first error ([e.to_string()], line 52): that of
    src/types/error.rs for the contract's own errors, any text for those of
    libraries.  ([Panic] does not occur.) *)
Fixpoint responses_of (a : api) (paths : list (string * bool)) (resps : list string)
  : list query_response + string :=
  match paths, resps with
  | (path, stargate) :: ps, r :: rs =>
      match response_of path r stargate with
      | Ok x => match responses_of a ps rs with inl xs => inl (x :: xs) | inr e => inr e end
      | Err e => inr (unwrap_or (error_text e) (decode_error a path r))
      | Panic => inr (decode_error a path r)
      end
  | _, _ => inl []
  end.

(** result_from_response, query_msg.rs:34-58 *)
Definition result_from_response (a : api) (paths : list (string * bool)) (r : mqs_response)
  : query_result :=
  if negb (Nat.eqb (length paths) (length (mq_responses r))) then
    QRError ("expected " +++ dec (N.of_nat (length paths)) +++ " responses, got "
             +++ dec (N.of_nat (length (mq_responses r))))
  else
    match responses_of a paths (mq_responses r) with
    | inr e => QRError e
    | inl l => QRSuccess (mq_height r) l
    end.
