(** * Errors: the texts of the contract's errors (src/types/error.rs).

    Texts of errors of libraries are not modelled. *)

From Verif Require Import Base Text Types.
Local Open Scope string_scope.

(** The [#[error("...")]] attributes of the contract's own variants,
    src/types/error.rs:38-39, 44-45, 50-63, 68-93, 98-105; [None] for errors of
    libraries *)
Definition error_text (e : cerr) : option string :=
  match e with
  | EOwnershipCannotBeRenounced => Some "this contract must have an owner"
  | EInvalidMigrationVersion expected actual =>
      Some ("invalid migration version: expected " ++ expected ++ ", got " ++ actual)
  | EInvalidHostPort => Some "invalid host port"
  | EInvalidControllerPort => Some "invalid controller port"
  | EInvalidVersion expected actual =>
      Some ("invalid interchain accounts version: expected " ++ expected ++ ", got " ++ actual)
  | EChannelOpenInitNotAllowed => Some "MsgChannelOpenInit is not allowed"
  | EChannelCloseInitNotAllowed => Some "MsgChannelCloseInit is not allowed"
  | EInvalidIcaAddress => Some "invalid interchain account address"
  | EUnsupportedTxType x => Some ("unsupported transaction type " ++ x)
  | EInvalidConnection => Some "invalid connection"
  | EUnknownDataType x => Some ("unknown data type: " ++ x)
  | EActiveChannelAlreadySet => Some "active channel already set for this contract"
  | EInvalidChannelInContractState => Some "invalid channel in contract state"
  | EIcaInfoNotSet => Some "interchain account information is not set"
  | ENoChannelInitOptions => Some "no channel init options are provided to the contract"
  | EInvalidChannelStatus expected actual =>
      Some ("invalid channel status: expected " ++ expected ++ ", got " ++ actual)
  | EUnsupportedPacketEncoding x => Some ("unsupported packet encoding: " ++ x)
  | EEmptyResponse x => Some ("empty response: " ++ x)
  | EUnknownReplyId id => Some ("unknown reply id: " ++ dec id)
  | EStd | EProstDecode | ESemver | EOwnership _ | EBufany => None
  end.
