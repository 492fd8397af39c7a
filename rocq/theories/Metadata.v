(** * Metadata: src/ibc/types/metadata.rs and src/ibc/types/keys.rs. *)

From Verif Require Import Base Utf8 Json JsonCodec Types JsonTypes Store.
Local Open Scope string_scope.
Local Open Scope N_scope.

(** src/ibc/types/keys.rs:4 (version), 7 (host port) *)
Definition ICA_VERSION := "ics27-1".
(** src/ibc/types/keys.rs:7. *)
Definition HOST_PORT_ID := "icahost".
(** metadata.rs:110, 138; stargate.rs:39 *)
Definition SDK_MULTI_MSG := "sdk_multi_msg".

(** Display for IcaMetadata (serde_json_wasm), metadata.rs:145-149 *)
Definition metadata_to_string (m : metadata) : string := to_json jc_metadata m.

(** [serde_json_wasm::from_str::<IcaMetadata>]; the error is mapped to
    UnknownDataType at the call sites (handshake.rs:120-124, 160-165) *)
Definition metadata_from_string (s : string) : option metadata := from_json jc_metadata s.

(** [char::is_alphanumeric]: ASCII decided, the rest asked from the oracle
    (src/ibc/types/metadata.rs:164.) *)
Definition is_alnum (a : api) (cp : N) : bool :=
  if cp <? 128 then
    between 48 57 cp || between 65 90 cp || between 97 122 cp
  else uni_alnum a cp.

(** validate_ica_address, metadata.rs:162-168.  [len()] counts bytes, [chars()]
    scalar values; a Rust [String] is always UTF-8, so the [None] case (bytes
    that are not UTF-8) does not occur there. *)
Definition validate_ica_address (a : api) (address : string) : outcome unit :=
  if (128 <? slen address)
     || negb (match utf8_cps address with Some l => forallb (is_alnum a) l | None => false end)
  then Err EInvalidIcaAddress else Ok tt.

(** Display of TxEncoding, metadata.rs:151-155: its JSON, in quotes *)
Definition encoding_text (x : tx_encoding) : string := to_json jc_encoding x.

(** IcaMetadata::validate, metadata.rs:119-142 *)
Definition validate_metadata (a : api) (m : metadata) (ch : channel) : outcome unit :=
  if negb (String.eqb (md_version m) ICA_VERSION) then Err (EInvalidVersion ICA_VERSION (md_version m))
  else if negb (String.eqb (md_controller m) (ch_connection ch)) then Err EInvalidConnection
  else if negb (match md_encoding m with Protobuf => true | _ => false end)
  then Err (EUnsupportedPacketEncoding (encoding_text (md_encoding m)))
  else
    _ <- (if negb (sempty (md_address m)) then validate_ica_address a (md_address m) else Ok tt) ;;
    if negb (String.eqb (md_tx_type m) SDK_MULTI_MSG) then Err (EUnsupportedTxType (md_tx_type m))
    else Ok tt.

(** IcaMetadata::from_channel, metadata.rs:84-112 *)
Definition metadata_from_channel (s : cstore) (ch : channel) : outcome metadata :=
  match (cs <-? st_channel s ;; metadata_from_string (ch_version (cst_channel cs))) with
  | Some previous => Ok previous
  | None =>
      options <- load (st_options s) ;;
      if negb (String.eqb (oo_connection options) (ch_connection ch)) then Err EInvalidConnection
      else Ok (Metadata ICA_VERSION (oo_connection options) (oo_cp_connection options) ""
                 Protobuf SDK_MULTI_MSG)
  end.
