(** * OwnerKeys: the storage of the owner example as bytes.

    Keys and values of testing/contracts/cw-ica-owner/src/state.rs:8-15, laid
    out by cw-storage-plus 2.0 as in [StorageKeys]. *)

From Verif Require Import Base Utf8 Text Json JsonCodec Types JsonTypes StorageKeys OwnerContract.
Local Open Scope string_scope.
Local Open Scope N_scope.

(** The slots of state.rs:9, 11, 13, 15. *)
Inductive oslot :=
| OSState | OSRecord (i : N) | OSCount | OSId (addr : string).

(** (Names: testing/contracts/cw-ica-owner/src/state.rs:9, 11, 13, 15.) *)
Definition oslot_key (x : oslot) : string :=
  match x with
  | OSState => "state"
  | OSRecord i => part "ica_states" +++ be 8 i
  | OSCount => "ica_count"
  | OSId addr => part "contract_addr_to_ica_id" +++ addr
  end.
(** (Types: testing/contracts/cw-ica-owner/src/state.rs:9, 11, 13, 15.) *)
Definition oslot_type (x : oslot) : Type :=
  match x with OSState => string * N | OSRecord _ => ica_contract | OSCount | OSId _ => N end.
(** (Types: testing/contracts/cw-ica-owner/src/state.rs:9, 11, 13, 15.) *)
Definition oslot_codec (x : oslot) : jcodec (oslot_type x) :=
  match x with
  | OSState => jc_o_state | OSRecord _ => jc_ica_contract | OSCount | OSId _ => jc_uint u64_lim
  end.
(** Access to the slot in the typed store, state.rs:8-15. *)
Definition oslot_get (x : oslot) (s : ostore) : option (oslot_type x) :=
  match x with
  | OSState => os_admin s
  | OSRecord i => os_states s i
  | OSCount => os_count s
  | OSId a => os_ids s a
  end.
(** The saves of contract.rs:29-32, 119, 121, 123, 187; nothing is ever removed. *)
Definition oslot_put (x : oslot) : oslot_type x -> ostore -> ostore :=
  match x with
  | OSState => fun v s => OStore (Some v) (os_states s) (os_count s) (os_ids s)
  | OSRecord i => put_state i
  | OSCount => put_count
  | OSId a => put_id a
  end.
(** [Item::save], [Map::save] (cw-storage-plus crate; contract.rs:29-32, 119, 121, 123, 187). *)
Definition oraw_save (x : oslot) (v : oslot_type x) (r : raw_store) : raw_store :=
  raw_put (oslot_key x) (Some (to_json (oslot_codec x) v)) r.
(** [may_load]; [None]: the stored bytes do not parse
    (cw-storage-plus crate; contract.rs:89, 102, 138, 168, 201, 206, 211). *)
Definition oraw_load (x : oslot) (r : raw_store) : option (option (oslot_type x)) :=
  match r (oslot_key x) with
  | None => Some None
  | Some b => option_map Some (from_json (oslot_codec x) b)
  end.
(** 64-bit indices. *)
Definition oslot_ok (x : oslot) : Prop := match x with OSRecord i => i < u64_lim | _ => True end.
