(** * CounterContract: the example contract that collects callbacks,
    testing/contracts/callback-counter. *)

From Verif Require Import Base Utf8 Text Base64 Json JsonCodec Types JsonTypes.
Local Open Scope string_scope.
Local Open Scope N_scope.

(** CallbackCounter, state.rs:13-23 *)
Record counter := Counter {
  cn_success : list callback_msg; cn_error : list callback_msg; cn_timeout : list callback_msg }.

(** JSON: state.rs:13-23; QueryMsg, msg.rs:15-19; ExecuteMsg, msg.rs:7-11, is the
    callback message only (derive/src/lib.rs:83-98), as [jc_receiver];
    InstantiateMsg, msg.rs:4-5, has no fields *)
Definition jc_counter : jcodec counter :=
  jc_map (jc_struct true (o_req "success" (jc_list jc_callback) &o o_req "error" (jc_list jc_callback)
      &o o_req "timeout" (jc_list jc_callback)))
    (fun c => (cn_success c, (cn_error c, cn_timeout c))) (fun '(a, (b, c)) => Counter a b c).
(** testing/contracts/callback-counter/src/msg.rs:13-19. *)
Definition jc_c_query_msg : jcodec unit := jc_enum (v_struct "get_callback_counter" true o_unit).
(** testing/contracts/callback-counter/src/msg.rs:7-11. *)
Definition jc_c_execute_msg : jcodec callback_msg := jc_enum (v_one "receive_ica_callback" jc_callback).
(** testing/contracts/callback-counter/src/msg.rs:4-5. *)
Definition jc_c_instantiate_msg : jcodec unit := jc_struct true o_unit.

(** instantiate, contract.rs:17-26: CALLBACK_COUNTER ([Item], state.rs:6) with
    empty lists *)
Definition c_instantiate : counter := Counter [] [] [].

(** success, error, timeout, state.rs:27-39 *)
Definition push_success (m : callback_msg) (c : counter) : counter :=
  Counter (cn_success c ++ [m])%list (cn_error c) (cn_timeout c).
(** testing/contracts/callback-counter/src/state.rs:32-34. *)
Definition push_error (m : callback_msg) (c : counter) : counter :=
  Counter (cn_success c) (cn_error c ++ [m])%list (cn_timeout c).
(** testing/contracts/callback-counter/src/state.rs:37-39. *)
Definition push_timeout (m : callback_msg) (c : counter) : counter :=
  Counter (cn_success c) (cn_error c) (cn_timeout c ++ [m])%list.

(** [Item::update] (cw-storage-plus crate; contract.rs:71-74, 78-81, 86-89.) *)
Definition c_update (f : counter -> counter) (s : option counter) : outcome (option counter) :=
  c <- of_option s EStd ;; Ok (Some (f c)).

(** execute and ica_callback_handler, contract.rs:29-40, 59-93; anyone may call *)
Definition c_execute (s : option counter) (m : callback_msg) : outcome (option counter) :=
  match m with
  | CbOpenAck _ _ _ => Ok s
  | CbAck (AckResult _) _ _ _ => c_update (push_success m) s
  | CbAck (AckError _) _ _ _ => c_update (push_error m) s
  | CbTimeout _ _ => c_update (push_timeout m) s
  end.

(** The whole call: the raw message, as the chain delivers it (contract.rs:29-40.) *)
Definition c_call (s : option counter) (raw : string) : option (option counter) :=
  m <-? from_json jc_c_execute_msg raw ;;
  match c_execute s m with Ok s => Some s | _ => None end.

(** query, contract.rs:43-47, 102-104 *)
Definition c_query (s : option counter) (raw : string) : option string :=
  _ <-? from_json jc_c_query_msg raw ;; c <-? s ;; Some (to_json jc_counter c).
