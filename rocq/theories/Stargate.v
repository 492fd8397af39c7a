(** * Stargate: src/ibc/types/stargate.rs. *)

From Verif Require Import Base Proto Schemas Types CosmosMsg Metadata.
Local Open Scope string_scope.
Local Open Scope N_scope.

(** ibc.core.channel.v1.Order, State
    (The numbers are those of the cosmos_sdk_proto crate; src/ibc/types/stargate.rs:71-74,
    80.) *)
Definition proto_order (o : order) : N := match o with Unordered => 1 | Ordered => 2 end.
(** (cosmos_sdk_proto crate; src/ibc/types/stargate.rs:79.) *)
Definition STATE_INIT_N : N := 1.

(** new_msg_channel_open_init, stargate.rs:60-90 *)
Definition msg_channel_open_init (signer port_id connection_id : string)
  (counterparty_port_id : option string) (version : string) (ordering : option order)
  : list (list pv) :=
  let cp_port := unwrap_or counterparty_port_id HOST_PORT_ID in
  let ord := match ordering with
    | None => 2
    | Some Ordered => 2
    | Some Unordered => 1
    end in
  [str port_id;
   [VMsg [num STATE_INIT_N; num ord; [VMsg [str cp_port; str ""]]; [VStr connection_id]; str version]];
   str signer].

(** new_ica_channel_open_init_cosmos_msg, stargate.rs:22-56 *)
Definition new_channel_open_init (contract_address connection_id : string)
  (counterparty_port_id : option string) (counterparty_connection_id : string)
  (encoding : option tx_encoding) (ordering : option order) : cosmos_msg :=
  let md := Metadata ICA_VERSION connection_id counterparty_connection_id ""
              (unwrap_or encoding Protobuf) SDK_MULTI_MSG in
  MStargate "/ibc.core.channel.v1.MsgChannelOpenInit"
    (pb_encode d_msg_channel_open_init
       (msg_channel_open_init contract_address ("wasm." +++ contract_address) connection_id
          counterparty_port_id (metadata_to_string md) ordering)).
