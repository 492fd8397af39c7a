(** * Chain: the contract running on its chain.

    The contract's entry points are called by wasmd and ibc-go, which are not
    part of /repo.  This file models the part of them the contract relies on:
    which entry point is called when, with which arguments, what is done with
    the messages in a response, and that a failing transaction has no effect.
    Sources: wasmd x/wasm/keeper (dispatch of messages and replies), wasmd
    x/wasm/ibc.go (IBC callbacks), ibc-go modules/core/keeper/msg_server.go and
    04-channel keeper.  Simplifications:
    - Only channels on the contract's own port are kept; nobody else can own
      that port.
    - Everything a relayer can prove about the counterparty is allowed (proofs
      are not modelled): any counterparty channel id, any counterparty version,
      any acknowledgement bytes, any timeout of an unresolved packet.
    - A commitment stores the packet instead of its hash.
    - Checks of ibc-go that may refuse an operation for reasons outside the
      model (identifier syntax, connection state, light client status, timeout
      already passed) are an input [ok].
    - A callback contract may, before it returns, make any operations happen
      (contracts can send any message), each of them with or without success;
      or it may fail.
    - Gas, fees and funds are not modelled. *)

From Verif Require Import Base Utf8 Json JsonCodec Types JsonTypes Store Contract HostSpec.
Local Open Scope string_scope.
Local Open Scope list_scope.
Local Open Scope N_scope.

(** The chain's API and the contract's address ([env.contract.address], src/contract.rs:39). *)
Record cfg := Cfg { c_api : api; c_self : string }.

(** Channel end on the chain (ibc.core.channel.v1.Channel).
    State of a channel end on the chain (ibc-go). *)
Inductive cstate := CInit | COpen | CClosed.
(** (The contract sees it as the IbcChannel of src/ibc/handshake.rs:34, 58, 82, 83.) *)
Record chan_end := ChanEnd {
  ce_state : cstate;
  ce_order : order;
  ce_cp : endpoint;
  ce_conn : string;
  ce_version : string
}.

(** What has happened, newest first.  Only successful calls are in the log.
    (For statements only; not in /repo.) *)
Inductive logitem :=
| LInstantiated (e : env) (sender : string) (m : instantiate_msg)
| LExecuted (e : env) (sender : string) (m : execute_msg)
| LMigrated
| LChanInit (id : string)
| LChanOpen (ch : channel)                         (* handshake completed *)
| LChanClosed (id : string)                        (* CloseInit or CloseConfirm *)
| LSent (e : env) (sender : string) (m : execute_msg) (p : packet)
| LAck (p : packet) (ack : string) (relayer : string)
| LTimeout (p : packet) (relayer : string)
| LEvent (ev : event)
| LCall (addr msg : string).                       (* message to another contract *)

(** The contract's storage (src/types/state.rs:14-43), ibc-go's channel ends, sequences and
    packet commitments of its port, and the log. *)
Record world := World {
  w_store : option cstore;
  w_chans : string -> option chan_end;
  w_nextseq : string -> N;
  w_nextack : string -> N;
  w_commit : string -> N -> option packet;
  w_log : list logitem
}.

(** The chain before the contract exists; not in /repo. *)
Definition init_world : world :=
  World None (fun _ => None) (fun _ => 1) (fun _ => 1) (fun _ _ => None) [].

(** A map changed at one key; not in /repo. *)
Definition upd {A} (f : string -> A) (k : string) (v : A) : string -> A :=
  fun k' => if String.eqb k k' then v else f k'.
(** A map changed at one key; not in /repo. *)
Definition upd2 {A} (f : string -> N -> A) (k : string) (n : N) (v : A) : string -> N -> A :=
  fun k' n' => if String.eqb k k' && N.eqb n n' then v else f k' n'.

(** One component of the world changed; not in /repo. *)
Definition put_store s w := World (Some s) (w_chans w) (w_nextseq w) (w_nextack w) (w_commit w) (w_log w).
(** One component of the world changed; not in /repo. *)
Definition put_chan id c w :=
  World (w_store w) (upd (w_chans w) id (Some c)) (w_nextseq w) (w_nextack w) (w_commit w) (w_log w).
(** One component of the world changed; not in /repo. *)
Definition put_nextseq id n w :=
  World (w_store w) (w_chans w) (upd (w_nextseq w) id n) (w_nextack w) (w_commit w) (w_log w).
(** One component of the world changed; not in /repo. *)
Definition put_nextack id n w :=
  World (w_store w) (w_chans w) (w_nextseq w) (upd (w_nextack w) id n) (w_commit w) (w_log w).
(** One component of the world changed; not in /repo. *)
Definition put_commit id n p w :=
  World (w_store w) (w_chans w) (w_nextseq w) (w_nextack w) (upd2 (w_commit w) id n p) (w_log w).
(** One component of the world changed; not in /repo. *)
Definition note i w :=
  World (w_store w) (w_chans w) (w_nextseq w) (w_nextack w) (w_commit w) (i :: w_log w).

(** A condition the chain checks; not in /repo. *)
Definition guard (b : bool) : option unit := if b then Some tt else None.
(** A failing entry point fails the transaction; not in /repo. *)
Definition ok_of {A} (o : outcome A) : option A := match o with Ok a => Some a | _ => None end.

(** The contract's port (wasmd PortIDForContract) and a channel end as wasmd
    presents it to the contract (toWasmVMChannel).
    (The same name is built at src/ibc/types/stargate.rs:44.) *)
Definition port (c : cfg) : string := "wasm." +++ c_self c.
(** Argument of src/ibc/handshake.rs:28-85. *)
Definition channel_of (c : cfg) (id : string) (ce : chan_end) : channel :=
  Channel (Endpoint (port c) id) (ce_cp ce) (ce_order ce) (ce_version ce) (ce_conn ce).

(** ibc.core.channel.v1.Order (written at src/ibc/types/stargate.rs:80); ibc-go refuses other
    numbers. *)
Definition order_of_number (n : N) : option order :=
  if n =? 1 then Some Unordered else if n =? 2 then Some Ordered else None.

(** Events of a response are emitted before its messages are dispatched.
    (src/ibc/relay.rs:127, 129, 156, 158.) *)
Fixpoint note_events (l : list event) (w : world) : world :=
  match l with [] => w | ev :: r => note_events r (note (LEvent ev) w) end.

(** ** ibc-go message handlers *)

(** ChannelOpenInit: new id, application callback, write the channel end.
    (ibc-go; calls src/ibc/handshake.rs:28-37.) *)
Definition core_open (c : cfg) (id : string) (o : order) (cp_port conn version : string)
  (w : world) : option world :=
  _ <-? guard (negb (is_some (w_chans w id)) && utf8_valid id && (slen id <=? 64)) ;;
  _ <-? guard (utf8_valid cp_port && utf8_valid conn && utf8_valid version) ;;
  s <-? w_store w ;;
  let ch := Channel (Endpoint (port c) id) (Endpoint cp_port "") o version conn in
  ' (s, v) <-? ok_of (ibc_channel_open (c_api c) s (MOpenInit ch)) ;;
  Some (note (LChanInit id)
         (put_chan id (ChanEnd CInit o (Endpoint cp_port "") conn v) (put_store s w))).

(** ChannelCloseInit: application callback, then the channel must not be CLOSED.
    (ibc-go; calls src/ibc/handshake.rs:76-85.) *)
Definition core_close_init (c : cfg) (id : string) (w : world) : option world :=
  ce <-? w_chans w id ;;
  s <-? w_store w ;;
  ' (s, r) <-? ok_of (ibc_channel_close s (MCloseInit (channel_of c id ce))) ;;
  _ <-? guard (match ce_state ce with CClosed => false | _ => true end) ;;
  _ <-? guard (match r_msgs r with [] => true | _ => false end) ;;
  Some (note (LChanClosed id)
         (put_chan id (ChanEnd CClosed (ce_order ce) (ce_cp ce) (ce_conn ce) (ce_version ce))
           (note_events (r_events r) (put_store s w)))).

(** SendPacket: the channel must be OPEN; returns the sequence.
    (ibc-go; for the message of src/ibc/types/packet.rs:188-192.) *)
Definition core_send (c : cfg) (e : env) (sender : string) (m : execute_msg)
  (id data : string) (t : timeout) (w : world) : option (world * N) :=
  ce <-? w_chans w id ;;
  _ <-? guard (match ce_state ce with COpen => true | _ => false end) ;;
  let n := w_nextseq w id in
  _ <-? guard ((n <? u64_lim) && (slen data <? u32_lim)) ;;
  let p := Packet data (Endpoint (port c) id) (ce_cp ce) n t in
  Some (note (LSent e sender m p) (put_commit id n (Some p) (put_nextseq id (n + 1) w)), n).

(** ** Dispatch of the messages of a response (wasmd)

    Returns the world and whether a callback contract was called.  Messages the
    contract never emits are refused. *)

(** An execute message: at most one message, [id] and [ok] are chain inputs.
    (wasmd; for the responses of src/contract.rs:15-83; calls src/contract.rs:88-93.) *)
Definition dispatch_exec (c : cfg) (e : env) (sender : string) (m : option execute_msg)
  (id : string) (ok : bool) (r : response) (w : world) : option world :=
  let w := note_events (r_events r) w in
  match r_msgs r with
  | [] => Some w
  | [sm] =>
      _ <-? guard ok ;;
      match sm_msg sm, sm_reply sm with
      | MStargate url bytes, None =>
          _ <-? guard (String.eqb url "/ibc.core.channel.v1.MsgChannelOpenInit") ;;
          _ <-? guard (slen bytes <? u32_lim) ;;
          oi <-? core_open_init bytes ;;
          _ <-? guard (String.eqb (oi_signer oi) (c_self c) && String.eqb (oi_port oi) (port c)
                       && (oi_state oi =? 1) && sempty (oi_cp_chan oi)) ;;
          o <-? order_of_number (oi_order oi) ;;
          match oi_hops oi with
          | [conn] => core_open c id o (oi_cp_port oi) conn (oi_version oi) w
          | _ => None
          end
      | MIbc (IbcCloseChannel chan), None => core_close_init c chan w
      | MIbc (IbcSendPacket chan data t), rep =>
          m <-? m ;;
          ' (w, n) <-? core_send c e sender m chan data t w ;;
          match rep with
          | None => Some w
          | Some rid =>
              s <-? w_store w ;;
              ' (s, r) <-? ok_of (reply (c_api c) s rid (SubOk (Some (send_response n)))) ;;
              _ <-? guard (match r_msgs r with [] => true | _ => false end) ;;
              Some (note_events (r_events r) (put_store s w))
          end
      | _, _ => None
      end
  | _ => None
  end.

(** An IBC callback: at most one message, an execute of another contract.
    (wasmd; for the responses of src/ibc/relay.rs:26-65 and src/ibc/handshake.rs:51-85.) *)
Definition dispatch_call (r : response) (w : world) : option (world * bool) :=
  let w := note_events (r_events r) w in
  match r_msgs r with
  | [] => Some (w, false)
  | [sm] =>
      match sm_msg sm, sm_reply sm with
      | MWasm (WasmExecute addr msg []), None => Some (note (LCall addr msg) w, true)
      | _, _ => None
      end
  | _ => None
  end.

(** ** Actions *)

(** What can happen to the contract: at least one constructor per entry point
    (src/contract.rs:15, 53, 109; src/ibc/handshake.rs:28, 51, 76; src/ibc/relay.rs:26, 52,
    73). *)
Inductive action :=
(** MsgInstantiateContract, MsgExecuteContract, MsgMigrateContract: raw JSON.
    [release]: a contract that was instantiated by an earlier release recorded
    that release's version (assumed to behave and store like this one). *)
| AInstantiate (release : option string) (height time : N) (sender raw id : string) (ok : bool)
| AExecute (height time : N) (sender raw id : string) (ok : bool)
| AMigrate (raw : string)
(** MsgChannelOpenInit etc. submitted by anybody but the contract *)
| AOpenInit (id : string) (o : order) (cp_port conn version : string)
| AOpenTry (id : string) (o : order) (cp : endpoint) (conn version cp_version : string)
| AOpenAck (id cp_chan cp_version : string)
| AOpenConfirm (id : string)
| ACloseInit (id : string)
| ACloseConfirm (id : string)
| AAck (id : string) (seq : N) (ack relayer : string)
| ATimeout (id : string) (seq : N) (relayer : string)
| ARecv (p : packet) (relayer : string).

(** The block and the sender are Rust values (src/contract.rs:17-18). *)
Definition env_ok (height time : N) (sender : string) : bool :=
  (height <? u64_lim) && (time <? u64_lim) && utf8_valid sender.

(** One action, up to and including the call of the callback contract.
    (Calls the entry points of src/contract.rs:15-118, src/ibc/handshake.rs:28-85,
    src/ibc/relay.rs:26-81.) *)
Definition act (c : cfg) (a : action) (w : world) : option (world * bool) :=
  match a with
  | AInstantiate release h t sender raw id ok =>
      _ <-? guard (env_ok h t sender && negb (is_some (w_store w))) ;;
      m <-? from_json jc_instantiate_msg raw ;;
      let e := Env h t (c_self c) in
      ' (s, r) <-? ok_of (instantiate (c_api c) e sender m) ;;
      let s := match release with Some v => set_version (Some (CONTRACT_NAME, v)) s | None => s end in
      w <-? dispatch_exec c e sender None id ok r (note (LInstantiated e sender m) (put_store s w)) ;;
      Some (w, false)
  | AExecute h t sender raw id ok =>
      _ <-? guard (env_ok h t sender) ;;
      s <-? w_store w ;;
      m <-? from_json jc_execute_msg raw ;;
      let e := Env h t (c_self c) in
      ' (s, r) <-? ok_of (execute (c_api c) s e sender m) ;;
      w <-? dispatch_exec c e sender (Some m) id ok r (note (LExecuted e sender m) (put_store s w)) ;;
      Some (w, false)
  | AMigrate raw =>
      s <-? w_store w ;;
      _ <-? from_json jc_migrate_msg raw ;;
      ' (s, r) <-? ok_of (migrate s) ;;
      Some (note LMigrated (put_store s w), false)
  | AOpenInit id o cp_port conn version =>
      w <-? core_open c id o cp_port conn version w ;; Some (w, false)
  | AOpenTry id o cp conn version cp_version =>
      s <-? w_store w ;;
      ' (s, v) <-? ok_of (ibc_channel_open (c_api c) s
           (MOpenTry (Channel (Endpoint (port c) id) cp o version conn) cp_version)) ;;
      Some (put_store s w, false)
  | AOpenAck id cp_chan cp_version =>
      _ <-? guard (utf8_valid cp_chan && utf8_valid cp_version) ;;
      ce <-? w_chans w id ;;
      _ <-? guard (match ce_state ce with CInit => true | _ => false end) ;;
      let ce := ChanEnd COpen (ce_order ce) (Endpoint (e_port (ce_cp ce)) cp_chan) (ce_conn ce)
                  cp_version in
      s <-? w_store w ;;
      ' (s, r) <-? ok_of (ibc_channel_connect (c_api c) s (MOpenAck (channel_of c id ce) cp_version)) ;;
      dispatch_call r (note (LChanOpen (channel_of c id ce)) (put_chan id ce (put_store s w)))
  | AOpenConfirm id =>
      ce <-? w_chans w id ;;
      s <-? w_store w ;;
      ' (s, r) <-? ok_of (ibc_channel_connect (c_api c) s (MOpenConfirm (channel_of c id ce))) ;;
      dispatch_call r (put_store s w)
  | ACloseInit id =>
      w <-? core_close_init c id w ;; Some (w, false)
  | ACloseConfirm id =>
      ce <-? w_chans w id ;;
      _ <-? guard (match ce_state ce with CClosed => false | _ => true end) ;;
      s <-? w_store w ;;
      ' (s, r) <-? ok_of (ibc_channel_close s (MCloseConfirm (channel_of c id ce))) ;;
      dispatch_call r (note (LChanClosed id)
        (put_chan id (ChanEnd CClosed (ce_order ce) (ce_cp ce) (ce_conn ce) (ce_version ce))
          (put_store s w)))
  | AAck id seq ack relayer =>
      _ <-? guard (utf8_valid relayer) ;;
      ce <-? w_chans w id ;;
      _ <-? guard (match ce_state ce with COpen => true | _ => false end) ;;
      p <-? w_commit w id seq ;;
      _ <-? guard (match ce_order ce with Ordered => seq =? w_nextack w id | Unordered => true end) ;;
      s <-? w_store w ;;
      ' (s, r) <-? ok_of (ibc_packet_ack (c_api c) s ack p relayer) ;;
      let w := match ce_order ce with Ordered => put_nextack id (seq + 1) w | Unordered => w end in
      dispatch_call r (note (LAck p ack relayer) (put_commit id seq None (put_store s w)))
  | ATimeout id seq relayer =>
      _ <-? guard (utf8_valid relayer) ;;
      ce <-? w_chans w id ;;
      p <-? w_commit w id seq ;;
      s <-? w_store w ;;
      ' (s, r) <-? ok_of (ibc_packet_timeout s p relayer) ;;
      let w := match ce_order ce with
               | Ordered => put_chan id
                   (ChanEnd CClosed Ordered (ce_cp ce) (ce_conn ce) (ce_version ce)) w
               | Unordered => w end in
      dispatch_call r (note (LTimeout p relayer) (put_commit id seq None (put_store s w)))
  | ARecv p relayer =>
      s <-? w_store w ;;
      ' (s, r) <-? ok_of (ibc_packet_receive s p relayer) ;;
      dispatch_call r (put_store s w)
  end.

(** ** Transactions: an action and what the called callback contract does. *)

(** (The chain; not in /repo.) *)
Inductive tx := Tx (a : action) (beh : option (list tx)).

(** (The chain; not in /repo.) *)
Definition runs (f : tx -> world -> option world) : list tx -> world -> world :=
  fix go l w :=
    match l with
    | [] => w
    | t :: r => go r (match f t w with Some w' => w' | None => w end)
    end.

(** [None]: the transaction fails and changes nothing. (The chain; not in /repo.) *)
Fixpoint step (c : cfg) (t : tx) (w : world) {struct t} : option world :=
  match t with
  | Tx a beh =>
      ' (w, called) <-? act c a w ;;
      if called then
        match beh with None => None | Some l => Some (runs (step c) l w) end
      else Some w
  end.

(** The chain after a list of transactions. (The chain; not in /repo.) *)
Definition run (c : cfg) : list tx -> world -> world := runs (step c).
(** (The chain; not in /repo.) *)
Definition history (c : cfg) (l : list tx) : world := run c l init_world.

(** A world some party can find: between transactions, or while a callback
    contract runs. (The chain; not in /repo.) *)
Inductive visited (c : cfg) : world -> Prop :=
| visited_init : visited c init_world
| visited_act w a w' b : visited c w -> act c a w = Some (w', b) -> visited c w'.

(** A smart query to the contract (QueryMsg as JSON), outside of transactions.
    (src/contract.rs:98-104.) *)
Definition ask (w : world) (raw : string) : option string :=
  s <-? w_store w ;; q <-? from_json jc_query_msg raw ;; ok_of (query s q).

(** The contract's address and the library's error texts are Rust strings.
    (For statements only; not in /repo.) *)
Definition cfg_ok (c : cfg) : Prop :=
  utf8_valid (c_self c) = true /\ forall path bytes, utf8_valid (decode_error (c_api c) path bytes) = true.
