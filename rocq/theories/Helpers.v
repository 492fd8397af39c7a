(** * Helpers: what other contracts use to call this one, src/helpers.rs. *)

From Verif Require Import Base Utf8 Text Base64 Json JsonCodec Types JsonTypes.
Local Open Scope string_scope.
Local Open Scope N_scope.

(** What the chain provides to [instantiate2] (helpers.rs:153-186):
    [query_wasm_code_info(..).checksum], [Api::addr_canonicalize],
    [Api::addr_humanize] and cosmwasm_std's [instantiate2_address]; [None] is
    an error. *)
Record chain_api := ChainApi {
  code_checksum : N -> option string;
  canonicalize : string -> option string;
  humanize : string -> option string;
  instantiate2_address : string -> string -> string -> option string
}.

(** CwIcaControllerContract::execute, helpers.rs:53-61 *)
Definition h_execute (addr : string) (m : execute_msg) : cosmos_msg :=
  MWasm (WasmExecute addr (to_json jc_execute_msg m) []).

(** update_admin, clear_admin, helpers.rs:70-85 *)
Definition h_update_admin (addr admin : string) : cosmos_msg := MWasm (WasmUpdateAdmin addr admin).
(** src/helpers.rs:80-85. *)
Definition h_clear_admin (addr : string) : cosmos_msg := MWasm (WasmClearAdmin addr).

(** migrate, helpers.rs:92-104; MigrateMsg has no fields *)
Definition h_migrate (addr : string) (new_code_id : N) : cosmos_msg :=
  MWasm (WasmMigrate addr new_code_id (to_json jc_migrate_msg tt)).

(** CwIcaControllerCode::instantiate, helpers.rs:125-140 *)
Definition h_instantiate (code_id : N) (m : instantiate_msg) (label : string) (admin : option string)
  : cosmos_msg :=
  MWasm (WasmInstantiate admin code_id (to_json jc_instantiate_msg m) [] label).

(** The address [instantiate2] computes, helpers.rs:164-174 *)
Definition predicted (ch : chain_api) (creator : string) (code_id : N) (salt : string) : option string :=
  sum <-? code_checksum ch code_id ;;
  cr <-? canonicalize ch creator ;;
  a <-? instantiate2_address ch sum cr salt ;;
  humanize ch a.

(** CwIcaControllerCode::instantiate2, helpers.rs:153-186 *)
Definition h_instantiate2 (ch : chain_api) (self : string) (code_id : N) (m : instantiate_msg)
  (label : string) (admin : option string) (salt : string) : option (cosmos_msg * string) :=
  addr <-? predicted ch self code_id salt ;;
  Some (MWasm (WasmInstantiate2 admin code_id label (to_json jc_instantiate_msg m) [] salt), addr).

(** CwIcaControllerContractQuerier, helpers.rs:189-224: [q] is the querier's
    smart query of a contract; [None] is an error. *)
Definition querier := string -> string -> option string.
(** src/helpers.rs:201-204. *)
Definition h_get_channel (q : querier) (addr : string) : option channel_state :=
  t <-? q addr (to_json jc_query_msg QGetChannel) ;; from_json jc_channel_state t.
(** src/helpers.rs:211-214. *)
Definition h_get_contract_state (q : querier) (addr : string) : option contract_state :=
  t <-? q addr (to_json jc_query_msg QGetContractState) ;; from_json jc_contract_state t.
(** src/helpers.rs:220-223. *)
Definition h_ownership (q : querier) (addr : string) : option ownership :=
  t <-? q addr (to_json jc_query_msg QOwnership) ;; from_json jc_ownership t.
