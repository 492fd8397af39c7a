(** * StorageKeys: the contract's storage as bytes.

    The raw key of every slot of [Store.cstore] (src/types/state.rs:14-43 with
    cw-storage-plus 2.0, cw2 2.0 and cw-ownable 2.0) and the raw value, which
    is the JSON of the typed value.  An [Item] is stored under its name; a
    [Map] entry under the name and all key parts but the last, each with a
    two-byte big-endian length, and the last part (cw-storage-plus
    [Path::new], [encode_length]; u64 keys are 8 big-endian bytes).
    cw-storage-plus refuses parts longer than 65535 bytes; channel ids have at
    most 64. *)

From Verif Require Import Base Utf8 Text Json JsonCodec Types JsonTypes Store.
From Coq Require Import ZifyBool ZifyN.
Local Open Scope string_scope.
Local Open Scope N_scope.

(** [n] as [k] big-endian bytes (cw-storage-plus crate; keys of src/types/state.rs:42-43.) *)
Fixpoint be (k : nat) (n : N) : string :=
  match k with
  | O => ""
  | S k' => be k' (n / 256) +++ b1 (n mod 256)
  end.

(** cw-storage-plus [encode_length] and the length-prefixed part
    (cw-storage-plus crate; keys of src/types/state.rs:42-43.) *)
Definition part (s : string) : string := be 2 (slen s) +++ s.

(** The slots: the items of state.rs:15-37, cw2's and cw-ownable's item, and the
    entries of the map of state.rs:41-42. *)
Inductive slot :=
| SVersion                                (* cw2 [CONTRACT] *)
| SOwner                                  (* cw_ownable [OWNERSHIP] *)
| SState | SChannel | SOptions            (* state.rs:15, 18, 21-22 *)
| SAllowOpen | SAllowClose                (* state.rs:26, 30 *)
| SQuery                                  (* state.rs:37 *)
| SPending (chan : string) (seq : N).     (* state.rs:41-42 *)

(** (Names: src/types/state.rs:15, 18, 22, 26, 30, 37, 43; the first two are those of the cw2
    and cw-ownable crates.) *)
Definition slot_key (x : slot) : string :=
  match x with
  | SVersion => "contract_info"
  | SOwner => "ownership"
  | SState => "state"
  | SChannel => "ica_channel"
  | SOptions => "channel_open_init_options"
  | SAllowOpen => "allow_channel_open_init"
  | SAllowClose => "allow_channel_close_init"
  | SQuery => "pending_query"
  | SPending chan seq => part "pending_queries" +++ part chan +++ be 8 seq
  end.

(** The type of a slot, and its content in the typed store.
    (Types: src/types/state.rs:15, 18, 21, 26, 30, 37, 42.) *)
Definition slot_type (x : slot) : Type :=
  match x with
  | SVersion => string * string
  | SOwner => ownership
  | SState => contract_state
  | SChannel => channel_state
  | SOptions => open_options
  | SAllowOpen | SAllowClose => bool
  | SQuery | SPending _ _ => list (string * bool)
  end.
(** (Types: src/types/state.rs:15, 18, 21, 26, 30, 37, 42.) *)
Definition slot_codec (x : slot) : jcodec (slot_type x) :=
  match x with
  | SVersion => jc_version
  | SOwner => jc_ownership
  | SState => jc_contract_state
  | SChannel => jc_channel_state
  | SOptions => jc_options
  | SAllowOpen | SAllowClose => jc_bool
  | SQuery | SPending _ _ => jc_paths
  end.
(** Access to the item of src/types/state.rs:15-43 in the typed store. *)
Definition slot_get (x : slot) (s : cstore) : option (slot_type x) :=
  match x with
  | SVersion => st_version s
  | SOwner => st_owner s
  | SState => st_state s
  | SChannel => st_channel s
  | SOptions => st_options s
  | SAllowOpen => st_allow_open s
  | SAllowClose => st_allow_close s
  | SQuery => st_query s
  | SPending chan seq => st_pending s chan seq
  end.
(** Access to the item of src/types/state.rs:15-43 in the typed store. *)
Definition slot_set (x : slot) : option (slot_type x) -> cstore -> cstore :=
  match x with
  | SVersion => set_version
  | SOwner => set_owner
  | SState => set_state
  | SChannel => set_channel
  | SOptions => set_options
  | SAllowOpen => set_allow_open
  | SAllowClose => set_allow_close
  | SQuery => set_query
  | SPending chan seq => set_pending chan seq
  end.

(** ** Byte-level storage: [Storage::get], [set], [remove] of cosmwasm_std *)

(** cosmwasm_std crate, [Storage]. *)
Definition raw_store := string -> option string.
(** cosmwasm_std crate, [Storage]. *)
Definition raw_put (k : string) (v : option string) (r : raw_store) : raw_store :=
  fun k' => if String.eqb k k' then v else r k'.

(** [Item::save], [Map::save]; [Item::remove], [Map::remove];
    [may_load] ([None]: the stored bytes do not parse)
    (cw-storage-plus crate; e.g. src/contract.rs:32, 286.) *)
Definition raw_save (x : slot) (v : slot_type x) (r : raw_store) : raw_store :=
  raw_put (slot_key x) (Some (to_json (slot_codec x) v)) r.
(** (cw-storage-plus crate; e.g. src/contract.rs:285.) *)
Definition raw_remove (x : slot) (r : raw_store) : raw_store := raw_put (slot_key x) None r.
(** (cw-storage-plus crate; e.g. src/contract.rs:282-283.) *)
Definition raw_load (x : slot) (r : raw_store) : option (option (slot_type x)) :=
  match r (slot_key x) with
  | None => Some None
  | Some b => option_map Some (from_json (slot_codec x) b)
  end.

(** Slots cw-storage-plus accepts. (Keys: src/types/state.rs:42.) *)
Definition slot_ok (x : slot) : Prop :=
  match x with SPending chan seq => slen chan < 65536 /\ seq < u64_lim | _ => True end.
