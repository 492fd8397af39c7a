(** * OwnerContract: the example contract that owns controllers,
    testing/contracts/cw-ica-owner (compiled without the "query" feature). *)

From Verif Require Import Base Utf8 Text Base64 Json JsonCodec Types JsonTypes Helpers.
Local Open Scope string_scope.
Local Open Scope N_scope.

(** state.rs:51-70: IcaState, IcaContractState *)
Record ica_state := IcaState {
  is_id : N; is_addr : string; is_encoding : tx_encoding; is_channel : channel_state }.
(** testing/contracts/cw-ica-owner/src/state.rs:58-61. *)
Record ica_contract := IcaContract { ic_addr : string; ic_state : option ica_state }.

(** state.rs:9-15: STATE (admin, code id; state.rs:23-29), ICA_STATES,
    ICA_COUNT, CONTRACT_ADDR_TO_ICA_ID *)
Record ostore := OStore {
  os_admin : option (string * N);
  os_states : N -> option ica_contract;
  os_count : option N;
  os_ids : string -> option N
}.
(** The storage before instantiate (contract.rs:17). *)
Definition empty_ostore : ostore := OStore None (fun _ => None) None (fun _ => None).

(** ICA_STATES (contract.rs:119, 187). *)
Definition put_state (i : N) (x : ica_contract) (s : ostore) : ostore :=
  OStore (os_admin s) (fun j => if i =? j then Some x else os_states s j) (os_count s) (os_ids s).
(** CONTRACT_ADDR_TO_ICA_ID (contract.rs:121). *)
Definition put_id (a : string) (i : N) (s : ostore) : ostore :=
  OStore (os_admin s) (os_states s) (os_count s) (fun b => if String.eqb a b then Some i else os_ids s b).
(** ICA_COUNT (contract.rs:123). *)
Definition put_count (n : N) (s : ostore) : ostore :=
  OStore (os_admin s) (os_states s) (Some n) (os_ids s).

(** msg.rs:5-42 *)
Record o_instantiate_msg := OInstantiateMsg { oim_admin : option string; oim_code_id : N }.
(** ExecuteMsg, msg.rs:11-28. *)
Inductive o_execute_msg :=
| OCreate (salt : option string) (options : open_options)
| OSend (ica_id : N) (to_address : string)
| OCallback (m : callback_msg).
(** QueryMsg, msg.rs:30-42. *)
Inductive o_query_msg := OQState | OQIca (ica_id : N) | OQCount.

(** IcaControllerCallbackMsg without its [query_result], which is compiled only
    with the "query" feature: src/types/callbacks.rs:15-59 *)
Definition jc_callback_plain : jcodec callback_msg :=
  jc_map (jc_enum
      (v_struct "on_acknowledgement_packet_callback" false
        (o_req "ica_acknowledgement" jc_ack &o o_req "original_packet" jc_packet
         &o o_req "relayer" jc_str)
      |v v_struct "on_timeout_packet_callback" false
        (o_req "original_packet" jc_packet &o o_req "relayer" jc_str)
      |v v_struct "on_channel_open_ack_callback" false
        (o_req "channel" jc_channel &o o_req "ica_address" jc_str
         &o o_req "tx_encoding" jc_encoding)))
    (fun c => match c with
      | CbAck a p r _ => inl (a, (p, r))
      | CbTimeout p r => inr (inl (p, r))
      | CbOpenAck c a e => inr (inr (c, (a, e))) end)
    (fun s => match s with
      | inl (a, (p, r)) => CbAck a p r None
      | inr (inl (p, r)) => CbTimeout p r
      | inr (inr (c, (a, e))) => CbOpenAck c a e end).

(** JSON of the messages, msg.rs:5-42; the last variant of ExecuteMsg is added
    by [ica_callback_execute] (derive/src/lib.rs:83-98) *)
Definition jc_o_instantiate_msg : jcodec o_instantiate_msg :=
  jc_map (jc_struct true (o_opt "admin" jc_str &o o_req "ica_controller_code_id" (jc_uint u64_lim)))
    (fun m => (oim_admin m, oim_code_id m)) (fun '(a, b) => OInstantiateMsg a b).
(** ExecuteMsg, msg.rs:11-28. *)
Definition jc_o_execute_msg : jcodec o_execute_msg :=
  jc_map (jc_enum
      (v_struct "create_ica_contract" true
         (o_opt "salt" jc_str &o o_req "channel_open_init_options" jc_options)
      |v v_struct "send_predefined_action" true
         (o_req "ica_id" (jc_uint u64_lim) &o o_req "to_address" jc_str)
      |v v_one "receive_ica_callback" jc_callback_plain))
    (fun m => match m with
      | OCreate s o => inl (s, o) | OSend i t => inr (inl (i, t)) | OCallback c => inr (inr c) end)
    (fun s => match s with
      | inl (s, o) => OCreate s o | inr (inl (i, t)) => OSend i t | inr (inr c) => OCallback c end).
(** msg.rs:30-42. *)
Definition jc_o_query_msg : jcodec o_query_msg :=
  jc_map (jc_enum (v_struct "get_contract_state" true o_unit
      |v v_struct "get_ica_contract_state" true (o_req "ica_id" (jc_uint u64_lim))
      |v v_struct "get_ica_count" true o_unit))
    (fun q => match q with OQState => inl tt | OQIca i => inr (inl i) | OQCount => inr (inr tt) end)
    (fun s => match s with inl _ => OQState | inr (inl i) => OQIca i | inr (inr _) => OQCount end).

(** JSON of the answers, state.rs:23-29, 57-70 *)
Definition jc_o_state : jcodec (string * N) :=
  jc_struct true (o_req "admin" jc_str &o o_req "ica_controller_code_id" (jc_uint u64_lim)).
(** state.rs:64-70. *)
Definition jc_ica_state : jcodec ica_state :=
  jc_map (jc_struct true (o_req "ica_id" (jc_uint u64_lim) &o o_req "ica_addr" jc_str
      &o o_req "tx_encoding" jc_encoding &o o_req "channel_state" jc_channel_state))
    (fun i => (is_id i, (is_addr i, (is_encoding i, is_channel i))))
    (fun '(a, (b, (c, d))) => IcaState a b c d).
(** state.rs:57-61. *)
Definition jc_ica_contract : jcodec ica_contract :=
  jc_map (jc_struct true (o_req "contract_addr" jc_str &o o_opt "ica_state" jc_ica_state))
    (fun i => (ic_addr i, ic_state i)) (fun '(a, b) => IcaContract a b).

(** Entry points: the new store and the messages. *)

(** instantiate, contract.rs:17-34 *)
Definition o_instantiate (a : api) (sender : string) (m : o_instantiate_msg) : outcome ostore :=
  match oim_admin m with
  | Some x => if addr_validate a x
              then Ok (OStore (Some (x, oim_code_id m)) (fun _ => None) None (fun _ => None))
              else Err EStd
  | None => Ok (OStore (Some (sender, oim_code_id m)) (fun _ => None) None (fun _ => None))
  end.

(** create_ica_contract, contract.rs:82-126 *)
Definition o_create (ch : chain_api) (s : ostore) (e : env) (sender : string)
  (salt : option string) (options : open_options) : outcome (ostore * list cosmos_msg) :=
  ' (admin, code_id) <- of_option (os_admin s) EStd ;;
  if negb (String.eqb admin sender) then Err EStd
  else
    let m := InstantiateMsg (Some (env_contract e)) options (Some (env_contract e)) in
    let count := unwrap_or (os_count s) 0 in
    let salt := unwrap_or salt (dec (env_time e / 10 ^ 9)) in
    let label := "icacontroller-" +++ env_contract e +++ "-" +++ dec count in
    ' (msg, addr) <- of_option (h_instantiate2 ch (env_contract e) code_id m label
                                  (Some (env_contract e)) salt) EStd ;;
    let s := put_state count (IcaContract addr None) s in
    let s := put_id addr count s in
    if count + 1 <? u64_lim then Ok (put_count (count + 1) s, [msg]) else Panic.

(** send_predefined_action, contract.rs:129-160, and verify_admin,
    state.rs:41-47.  [Addr::unchecked] is the identity. *)
Definition o_send (s : ostore) (sender : string) (ica_id : N) (to_address : string)
  : outcome (ostore * list cosmos_msg) :=
  ' (admin, _) <- of_option (os_admin s) EStd ;;
  if negb (String.eqb admin sender) then Err EStd
  else
    x <- of_option (os_states s ica_id) EStd ;;
    Ok (s, [h_execute (ic_addr x)
              (XSendCosmosMsgs [MBank (BankSend to_address [Coin "stake" 100])] [] None None)]).

(** ica_callback_handler, contract.rs:163-191 *)
Definition o_callback (s : ostore) (sender : string) (m : callback_msg)
  : outcome (ostore * list cosmos_msg) :=
  ica_id <- of_option (os_ids s sender) EStd ;;
  x <- of_option (os_states s ica_id) EStd ;;
  match m with
  | CbOpenAck ch addr enc =>
      Ok (put_state ica_id
            (IcaContract (ic_addr x) (Some (IcaState ica_id addr enc (ChannelState ch StOpen)))) s, [])
  | _ => Ok (s, [])
  end.

(** execute, contract.rs:37-55 *)
Definition o_execute (ch : chain_api) (s : ostore) (e : env) (sender : string) (m : o_execute_msg)
  : outcome (ostore * list cosmos_msg) :=
  match m with
  | OCreate salt options => o_create ch s e sender salt options
  | OSend i t => o_send s sender i t
  | OCallback m => o_callback s sender m
  end.

(** query, contract.rs:58-66, 194-213 *)
Definition o_query (s : ostore) (q : o_query_msg) : outcome string :=
  match q with
  | OQState => x <- of_option (os_admin s) EStd ;; Ok (to_json jc_o_state x)
  | OQIca i => x <- of_option (os_states s i) EStd ;; Ok (to_json jc_ica_contract x)
  | OQCount => n <- of_option (os_count s) EStd ;; Ok (to_json (jc_uint u64_lim) n)
  end.

(** ** The chain around it

    [c_chain] gives addresses as in [Helpers]; [oc_self] is the contract's
    address.  wasmd creates the contract of an Instantiate2 message at the
    address the helper computes, unless one exists there.  Not modelled: what
    the called controllers do, which may succeed or fail; if they call back
    before they return, that is the same as calling back next, because the
    store is saved before the messages are run.  Funds and gas are not
    modelled. *)
(** (The chain; not in /repo.) *)
Record ocfg := OCfg { oc_api : api; oc_chain : chain_api; oc_self : string }.
(** (The chain; not in /repo.) *)
Inductive oitem :=
| OCreated (addr : string) (code : N) (m : instantiate_msg)   (* a controller was created *)
| OCalled (sender : string) (m : callback_msg)    (* a callback was handled *)
| OSentTo (addr : string) (m : execute_msg).      (* a controller was called
    (The chain; not in /repo.) *)
Record oworld := OWorld {
  ow_store : option ostore;
  ow_exists : string -> bool;           (* contracts on the chain *)
  ow_log : list oitem                   (* newest first *)
}.
(** (The chain; not in /repo.) *)
Definition o_init : oworld := OWorld None (fun _ => false) [].

(** (The chain; not in /repo.) *)
Inductive oaction :=
| OInst (sender raw : string)
| OExec (height time : N) (sender raw : string) (ok : bool)   (* [ok]: whether the called contract succeeds *)
| OOther (addr : string).                                     (* somebody creates a contract *)

(** (The chain; not in /repo.) *)
Definition item_of (sender : string) (m : o_execute_msg) : list oitem :=
  match m with OCallback m => [OCalled sender m] | _ => [] end.

(** wasmd runs the messages of the response. (For the messages of contract.rs:125, 159.) *)
Definition o_dispatch (c : ocfg) (ok : bool) (msgs : list cosmos_msg) (w : oworld) : option oworld :=
  match msgs with
  | [] => Some w
  | [MWasm (WasmInstantiate2 admin code_id label msg [] salt)] =>
      addr <-? predicted (oc_chain c) (oc_self c) code_id salt ;;
      m <-? from_json jc_instantiate_msg msg ;;
      if ow_exists w addr || negb ok then None
      else Some (OWorld (ow_store w) (fun b => String.eqb addr b || ow_exists w b)
                   (OCreated addr code_id m :: ow_log w))
  | [MWasm (WasmExecute addr msg [])] =>
      m <-? from_json jc_execute_msg msg ;;
      if ow_exists w addr && ok then Some (OWorld (ow_store w) (ow_exists w) (OSentTo addr m :: ow_log w))
      else None
  | _ => None
  end.

(** (Calls contract.rs:17-34, 37-55.) *)
Definition o_act (c : ocfg) (a : oaction) (w : oworld) : option oworld :=
  match a with
  | OInst sender raw =>
      match ow_store w with
      | Some _ => None
      | None =>
          if utf8_valid sender then
            m <-? from_json jc_o_instantiate_msg raw ;;
            match o_instantiate (oc_api c) sender m with
            | Ok s => Some (OWorld (Some s) (fun b => String.eqb (oc_self c) b || ow_exists w b) (ow_log w))
            | _ => None
            end
          else None
      end
  | OExec h t sender raw ok =>
      s <-? ow_store w ;;
      m <-? from_json jc_o_execute_msg raw ;;
      if (h <? u64_lim) && (t <? u64_lim) && utf8_valid sender then
        match o_execute (oc_chain c) s (Env h t (oc_self c)) sender m with
        | Ok (s, msgs) => o_dispatch c ok msgs (OWorld (Some s) (ow_exists w) (item_of sender m ++ ow_log w)%list)
        | _ => None
        end
      else None
  | OOther addr =>
      if ow_exists w addr then None
      else Some (OWorld (ow_store w) (fun b => String.eqb addr b || ow_exists w b) (ow_log w))
  end.

(** (The chain; not in /repo.) *)
Inductive oreach (c : ocfg) : oworld -> Prop :=
| oreach_init : oreach c o_init
| oreach_act w a w' : oreach c w -> o_act c a w = Some w' -> oreach c w'.

(** A smart query of the contract. (contract.rs:58-66.) *)
Definition o_ask (w : oworld) (raw : string) : option string :=
  s <-? ow_store w ;; q <-? from_json jc_o_query_msg raw ;;
  match o_query s q with Ok t => Some t | _ => None end.
