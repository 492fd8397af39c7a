(** * Store: the contract's storage, src/types/state.rs:14-43.

    One field per storage item; a missing item is [None].  Items hold typed
    values here; [StorageKeys.v] relates this to the byte-level key-value
    store (cw-storage-plus keys and JSON values). *)

From Verif Require Import Base Types.

Record cstore := CStore {
  st_version : option (string * string);        (* cw2 CONTRACT: contract name, version *)
  st_owner : option ownership;                  (* cw_ownable OWNERSHIP *)
  st_state : option contract_state;             (* STATE, state.rs:15 *)
  st_channel : option channel_state;            (* CHANNEL_STATE, state.rs:18 *)
  st_options : option open_options;             (* CHANNEL_OPEN_INIT_OPTIONS, state.rs:21 *)
  st_allow_open : option bool;                  (* ALLOW_CHANNEL_OPEN_INIT, state.rs:26 *)
  st_allow_close : option bool;                 (* ALLOW_CHANNEL_CLOSE_INIT, state.rs:30 *)
  st_query : option (list (string * bool));     (* QUERY, state.rs:37 *)
  st_pending : string -> N -> option (list (string * bool))  (* PENDING_QUERIES, state.rs:42 *)
}.

(** The storage of a contract that is not yet instantiated (before src/contract.rs:21). *)
Definition empty_store : cstore :=
  CStore None None None None None None None None (fun _ _ => None).

(** [Item::save], [Item::remove] (src/contract.rs:21, 113.) *)
Definition set_version v s := CStore v (st_owner s) (st_state s) (st_channel s) (st_options s) (st_allow_open s) (st_allow_close s) (st_query s) (st_pending s).
(** cw_ownable's item (src/contract.rs:24, 238). *)
Definition set_owner v s := CStore (st_version s) v (st_state s) (st_channel s) (st_options s) (st_allow_open s) (st_allow_close s) (st_query s) (st_pending s).
(** STATE (src/contract.rs:32, 258; src/ibc/handshake.rs:179). *)
Definition set_state v s := CStore (st_version s) (st_owner s) v (st_channel s) (st_options s) (st_allow_open s) (st_allow_close s) (st_query s) (st_pending s).
(** CHANNEL_STATE (src/ibc/handshake.rs:184-187, 234, 257; src/ibc/relay.rs:61). *)
Definition set_channel v s := CStore (st_version s) (st_owner s) (st_state s) v (st_options s) (st_allow_open s) (st_allow_close s) (st_query s) (st_pending s).
(** CHANNEL_OPEN_INIT_OPTIONS (src/contract.rs:34, 145). *)
Definition set_options v s := CStore (st_version s) (st_owner s) (st_state s) (st_channel s) v (st_allow_open s) (st_allow_close s) (st_query s) (st_pending s).
(** ALLOW_CHANNEL_OPEN_INIT (src/contract.rs:36, 153; src/ibc/handshake.rs:108). *)
Definition set_allow_open v s := CStore (st_version s) (st_owner s) (st_state s) (st_channel s) (st_options s) v (st_allow_close s) (st_query s) (st_pending s).
(** ALLOW_CHANNEL_CLOSE_INIT (src/contract.rs:180; src/ibc/handshake.rs:218). *)
Definition set_allow_close v s := CStore (st_version s) (st_owner s) (st_state s) (st_channel s) (st_options s) (st_allow_open s) v (st_query s) (st_pending s).
(** QUERY (src/ibc/types/packet.rs:116; removed at src/contract.rs:285). *)
Definition set_query v s := CStore (st_version s) (st_owner s) (st_state s) (st_channel s) (st_options s) (st_allow_open s) (st_allow_close s) v (st_pending s).

(** [Map::save], [Map::remove] on PENDING_QUERIES at (channel, sequence)
    (src/contract.rs:286; src/ibc/relay.rs:114, 179.) *)
Definition upd_pending (f : string -> N -> option (list (string * bool))) (c : string) (n : N)
  (v : option (list (string * bool))) : string -> N -> option (list (string * bool)) :=
  fun c' n' => if String.eqb c c' && N.eqb n n' then v else f c' n'.
(** PENDING_QUERIES (src/contract.rs:286; src/ibc/relay.rs:114, 179). *)
Definition set_pending c n v s := CStore (st_version s) (st_owner s) (st_state s) (st_channel s) (st_options s) (st_allow_open s) (st_allow_close s) (st_query s) (upd_pending (st_pending s) c n v).

(** [Item::load]: missing is an error; [unwrap_or_default] on flags.
    (src/contract.rs:172, 202, 252, 282-283, 300, 305, 337; src/ibc/handshake.rs:150, 221,
    244; src/ibc/relay.rs:58, 116, 142, 177.) *)
Definition load {A} (o : option A) : outcome A := of_option o EStd.
(** (src/ibc/handshake.rs:101-103, 211-213.) *)
Definition flag (o : option bool) : bool := unwrap_or o false.
