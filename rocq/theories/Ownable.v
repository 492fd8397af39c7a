(** * Ownable: the parts of the cw-ownable crate (2.0) the contract calls
    (src/contract.rs:24, 102, 142, 170, 200, 238, 250).  External library,
    transcribed from its source. *)

From Verif Require Import Base Types Store.
Local Open Scope N_scope.

(** cw_utils::Expiration::is_expired (Called in AcceptOwnership, src/contract.rs:238.) *)
Definition is_expired (x : expiration) (e : env) : bool :=
  match x with
  | AtHeight h => h <=? env_height e
  | AtTime t => t <=? env_time e
  | Never => false
  end.

(** cw_ownable::initialize_owner with an owner given (src/contract.rs:24) *)
Definition initialize_owner (a : api) (owner : string) (s : cstore) : outcome cstore :=
  if addr_validate a owner then Ok (set_owner (Some (Ownership (Some owner) None None)) s)
  else Err EStd.

(** (cw_ownable crate; in assert_owner and in the transfer, src/contract.rs:142, 170, 200,
    238, 250.) *)
Definition check_owner (o : ownership) (sender : string) : outcome unit :=
  match ow_owner o with
  | Some owner => if String.eqb sender owner then Ok tt else Err (EOwnership ONotOwner)
  | None => Err (EOwnership ONoOwner)
  end.

(** cw_ownable::assert_owner (src/contract.rs:142, 170, 200, 250) *)
Definition assert_owner (s : cstore) (sender : string) : outcome unit :=
  o <- of_option (st_owner s) (EOwnership OStd) ;; check_owner o sender.

(** cw_ownable::update_ownership; RenounceOwnership is included although the
    contract never passes it (src/contract.rs:228-238) *)
Definition ownable_update (a : api) (e : env) (sender : string) (act : own_action) (s : cstore)
  : outcome cstore :=
  o <- of_option (st_owner s) (EOwnership OStd) ;;
  match act with
  | TransferOwnership new_owner expiry =>
      _ <- check_owner o sender ;;
      if addr_validate a new_owner
      then Ok (set_owner (Some (Ownership (ow_owner o) (Some new_owner) expiry)) s)
      else Err (EOwnership OStd)
  | AcceptOwnership =>
      match ow_pending o with
      | None => Err (EOwnership OTransferNotFound)
      | Some p =>
          if negb (String.eqb sender p) then Err (EOwnership ONotPendingOwner)
          else if match ow_expiry o with Some x => is_expired x e | None => false end
          then Err (EOwnership OTransferExpired)
          else Ok (set_owner (Some (Ownership (Some p) None None)) s)
      end
  | RenounceOwnership =>
      _ <- check_owner o sender ;;
      Ok (set_owner (Some (Ownership None None None)) s)
  end.
