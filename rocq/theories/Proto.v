(** * Proto: prost's protobuf encoding and decoding, driven by descriptors.

    Models [prost::Message::encode_to_vec] and [prost::Message::decode] for the
    messages the contract builds and reads (src/types/cosmos_msg.rs:86-326,
    src/types/query_msg.rs:236-360, 472-644, src/ibc/types/packet.rs:63, 227, 246, 265,
    src/ibc/types/stargate.rs:54, src/contract.rs:279-281).

    A message type is a descriptor: a list of (field number, (label, kind)).
    Its Rust struct is modelled by one list of values per field, in descriptor
    order: a plain scalar field has exactly one value, an [Option<Message>]
    field zero or one, a [Vec] field any number.

    prost behaviour modelled: fields written in field-number order; plain
    scalars equal to their default are not written; repeated fields are
    appended, singular message fields merged, singular scalars overwritten by
    the last occurrence; unknown fields (including groups) skipped; a known
    field with the wrong wire type, a string that is not UTF-8, a malformed or
    truncated varint or length, field number 0, a key over 32 bits are errors.
    Not modelled: prost's nesting limit of 100 (the types here nest less than
    ten deep). *)

From Verif Require Import Base Utf8.
From Coq Require Import ZifyBool ZifyNat ZifyN.
Local Open Scope string_scope.
Local Open Scope N_scope.

(** Singular or repeated (prost field attribute, e.g. src/types/query_msg.rs:665, 669). *)
Inductive label := Single | Repeated.

(** prost field types (e.g. src/types/query_msg.rs:665, 669, 680, 690, 694). *)
Inductive kind :=
| KStr                                  (* string *)
| KBytes                                (* bytes *)
| KU64                                  (* uint64, and int64 as its 64-bit pattern *)
| KU32                                  (* uint32, int32 and enums as 32-bit pattern *)
| KBool
| KPack                                 (* packed repeated uint64 *)
| KMsg (fs : list (N * (label * kind))).

(** A message type, as prost's derive sees it (e.g. src/types/query_msg.rs:664-671): its
    fields. *)
Definition desc := list (N * (label * kind)).

(** A value of a field (prost crate). *)
Inductive pv :=
| VStr (s : string)
| VNum (n : N)
| VPack (l : list N)
| VMsg (fields : list (list pv)).

(** Value of one field on the wire. (prost crate, [WireType].) *)
Inductive wv :=
| WVar (n : N)
| W64 (s : string)
| WLen (s : string)
| W32 (s : string)
| WGroup.

(** ** Varints *)

(** Body of [evar] (prost crate). *)
Fixpoint evar_f (fuel : nat) (n : N) : string :=
  match fuel with
  | O => ""
  | S f =>
      if n <? 128 then b1 n
      else String (nb (128 + n mod 128)) (evar_f f (n / 128))
  end.
(** [prost::encoding::encode_varint]; ten bytes suffice for 64 bits.
    (prost crate; in every encoder, e.g. src/ibc/types/packet.rs:63.) *)
Definition evar (n : N) : string := evar_f 10 n.

(** [prost::encoding::decode_varint]: at most ten bytes, no 64-bit overflow.
    (prost crate; in every decoder, e.g. src/types/query_msg.rs:472.) *)
Fixpoint dvar_f (k : nat) (s : string) : option (N * string) :=
  match k with
  | O => None
  | S k' =>
      match s with
      | "" => None
      | String c r =>
          if bn c <? 128 then
            if (Nat.eqb k' 0) && (2 <=? bn c) then None else Some (bn c, r)
          else ' (m, r1) <-? dvar_f k' r ;; Some (bn c - 128 + 128 * m, r1)
      end
  end.
(** (prost crate; in every decoder, e.g. src/types/query_msg.rs:472.) *)
Definition dvar : string -> option (N * string) := dvar_f 10.

(** ** Fields on the wire *)

(** prost crate: a length-delimited or fixed-size chunk. *)
Definition take_len (n : N) (s : string) : option (string * string) :=
  if slen s <? n then None else stake (N.to_nat n) s.

(** [prost::encoding::decode_key] (prost crate.) *)
Definition dkey (s : string) : option (N * N * string) :=
  ' (key, r) <-? dvar s ;;
  if key <? u32_lim then
    if key / 8 =? 0 then None else Some (key / 8, key mod 8, r)
  else None.

(** prost crate: the value of a field, by wire type. *)
Definition dwire (wt : N) (s : string) : option (wv * string) :=
  if wt =? 0 then ' (n, r) <-? dvar s ;; Some (WVar n, r)
  else if wt =? 1 then ' (b, r) <-? take_len 8 s ;; Some (W64 b, r)
  else if wt =? 2 then
    ' (n, r) <-? dvar s ;; ' (b, r1) <-? take_len n r ;; Some (WLen b, r1)
  else if wt =? 5 then ' (b, r) <-? take_len 4 s ;; Some (W32 b, r)
  else None.

(** [prost::encoding::skip_field] on a group (prost crate.) *)
Fixpoint skip_group (fuel : nat) (tag : N) (s : string) : option string :=
  match fuel with
  | O => None
  | S f =>
      ' (t, wt, r) <-? dkey s ;;
      if wt =? 4 then (if t =? tag then Some r else None)
      else if wt =? 3 then r1 <-? skip_group f t r ;; skip_group f tag r1
      else ' (_, r1) <-? dwire wt r ;; skip_group f tag r1
  end.

(** prost crate, [Message::merge]: the fields on the wire, in order. *)
Definition dfield (s : string) : option (N * wv * string) :=
  ' (t, wt, r) <-? dkey s ;;
  if wt =? 3 then r1 <-? skip_group (S (String.length r)) t r ;; Some (t, WGroup, r1)
  else ' (w, r1) <-? dwire wt r ;; Some (t, w, r1).

(** prost crate, [Message::merge]: the fields on the wire, in order. *)
Fixpoint dfields_f (fuel : nat) (s : string) : option (list (N * wv)) :=
  match s with
  | "" => Some []
  | _ =>
      match fuel with
      | O => None
      | S f =>
          ' (t, w, r) <-? dfield s ;;
          l <-? dfields_f f r ;; Some ((t, w) :: l)
      end
  end.
(** prost crate, [Message::merge]: the fields on the wire, in order. *)
Definition dfields (s : string) : option (list (N * wv)) := dfields_f (String.length s) s.

(** prost crate: fields written to the wire. *)
Definition efield (f : N * wv) : string :=
  match snd f with
  | WVar n => evar (fst f * 8) +++ evar n
  | W64 s => evar (fst f * 8 + 1) +++ s
  | WLen s => evar (fst f * 8 + 2) +++ evar (slen s) +++ s
  | W32 s => evar (fst f * 8 + 5) +++ s
  | WGroup => ""
  end.

(** prost crate: fields written to the wire. *)
Definition efields (l : list (N * wv)) : string := sconcat (map efield l).

(** ** Encoding values *)

(** The values a plain scalar field leaves out. (prost crate, derive.) *)
Definition is_default (v : pv) : bool :=
  match v with
  | VStr s => sempty s
  | VNum n => n =? 0
  | VPack l => match l with [] => true | _ => false end
  | VMsg _ => false
  end.

(** prost crate, derive: whether a value is written. *)
Definition written (lab : label) (v : pv) : bool :=
  match lab with Single => negb (is_default v) | Repeated => true end.

(** prost crate, derive of [encode_raw]: the fields of a message on the wire. *)
Definition wires (tw : kind -> pv -> wv) : desc -> list (list pv) -> list (N * wv) :=
  fix go fs vs :=
    match fs, vs with
    | (t, (lab, k)) :: fs', slot :: vs' =>
        (map (fun v => (t, tw k v)) (filter (written lab) slot) ++ go fs' vs')%list
    | _, _ => []
    end.

(** prost crate, derive of [encode_raw]: the fields of a message on the wire. *)
Fixpoint to_wire (k : kind) (v : pv) : wv :=
  match k with
  | KStr | KBytes => match v with VStr s => WLen s | _ => WLen "" end
  | KU64 | KU32 | KBool => match v with VNum n => WVar n | _ => WVar 0 end
  | KPack => match v with VPack l => WLen (sconcat (map evar l)) | _ => WLen "" end
  | KMsg fs => match v with VMsg vs => WLen (efields (wires to_wire fs vs)) | _ => WLen "" end
  end.

(** [Message::encode_to_vec]
    (src/types/cosmos_msg.rs:86-326 through [Any::from_msg]; src/types/query_msg.rs:236-360;
    src/ibc/types/packet.rs:63; src/ibc/types/stargate.rs:54.) *)
Definition pb_encode (d : desc) (m : list (list pv)) : string :=
  efields (wires to_wire d m).

(** ** Decoding values *)

(** prost crate, derive of [Default]. *)
Definition default_slot (lk : label * kind) : list pv :=
  match lk with
  | (Repeated, _) => []
  | (Single, KMsg _) => []
  | (Single, KStr) | (Single, KBytes) => [VStr ""]
  | (Single, KPack) => [VPack []]
  | (Single, _) => [VNum 0]
  end.

(** prost crate, derive of [Default]. *)
Definition default_msg (d : desc) : list (list pv) := map (fun f => default_slot (snd f)) d.

(** prost crate, derive of [Default]. *)
Definition default_val (k : kind) : pv :=
  match k with
  | KStr | KBytes => VStr ""
  | KPack => VPack []
  | KMsg fs => VMsg (default_msg fs)
  | _ => VNum 0
  end.

(** prost crate, derive of [merge_field]: one field. *)
Definition merge_slot (mv : kind -> pv -> wv -> option pv)
  (lab : label) (k : kind) (slot : list pv) (w : wv) : option (list pv) :=
  match lab with
  | Repeated => v <-? mv k (default_val k) w ;; Some (slot ++ [v])%list
  | Single =>
      v <-? mv k (match slot with x :: _ => x | [] => default_val k end) w ;; Some [v]
  end.

(** Merge one field into the message: unknown field numbers are ignored. (prost crate, derive.) *)
Definition merge_field (mv : kind -> pv -> wv -> option pv) :
  desc -> list (list pv) -> N -> wv -> option (list (list pv)) :=
  fix go fs vs t w :=
    match fs, vs with
    | (t', (lab, k)) :: fs', slot :: vs' =>
        if t' =? t
        then s <-? merge_slot mv lab k slot w ;; Some (s :: vs')
        else r <-? go fs' vs' t w ;; Some (slot :: r)
    | _, _ => Some vs
    end.

(** prost crate, [merge]: all fields in the order they arrive. *)
Definition merge_fields (mv : kind -> pv -> wv -> option pv) (fs : desc) :
  list (N * wv) -> list (list pv) -> option (list (list pv)) :=
  fix go l vs :=
    match l with
    | [] => Some vs
    | (t, w) :: r => vs' <-? merge_field mv fs vs t w ;; go r vs'
    end.

(** prost crate: packed varints. *)
Fixpoint dvars_f (fuel : nat) (s : string) : option (list N) :=
  match s with
  | "" => Some []
  | _ =>
      match fuel with
      | O => None
      | S f => ' (n, r) <-? dvar s ;; l <-? dvars_f f r ;; Some (n :: l)
      end
  end.

(** prost crate: one value of the field's type, replaced or merged. *)
Fixpoint merge_val (k : kind) (cur : pv) (w : wv) : option pv :=
  match k with
  | KStr => match w with WLen s => if utf8_valid s then Some (VStr s) else None | _ => None end
  | KBytes => match w with WLen s => Some (VStr s) | _ => None end
  | KU64 => match w with WVar n => Some (VNum n) | _ => None end
  | KU32 => match w with WVar n => Some (VNum (n mod u32_lim)) | _ => None end
  | KBool => match w with WVar n => Some (VNum (if n =? 0 then 0 else 1)) | _ => None end
  | KPack =>
      let old := match cur with VPack l => l | _ => [] end in
      match w with
      | WVar n => Some (VPack (old ++ [n])%list)
      | WLen s => l <-? dvars_f (String.length s) s ;; Some (VPack (old ++ l)%list)
      | _ => None
      end
  | KMsg fs =>
      match w with
      | WLen s =>
          l <-? dfields s ;;
          let vs := match cur with VMsg vs => vs | _ => default_msg fs end in
          vs' <-? merge_fields merge_val fs l vs ;; Some (VMsg vs')
      | _ => None
      end
  end.

(** [Message::decode] (src/types/query_msg.rs:472-644, src/ibc/types/packet.rs:227, 246, 265.) *)
Definition pb_decode (d : desc) (s : string) : option (list (list pv)) :=
  l <-? dfields s ;; merge_fields merge_val d l (default_msg d).

(** ** Well-formed descriptors and values *)

(** Statement used in proofs (field numbers valid and distinct), none in /repo. *)
Definition tags (d : desc) : list N := map fst d.

(** Statement used in proofs (field numbers valid and distinct), none in /repo. *)
Fixpoint ntags_nodup (l : list N) : bool :=
  match l with [] => true | x :: r => negb (existsb (N.eqb x) r) && ntags_nodup r end.

(** Statement used in proofs (field numbers valid and distinct), none in /repo. *)
Definition label_ok (lab : label) (k : kind) : bool :=
  match lab, k with
  | Repeated, (KU64 | KU32 | KBool | KPack) => false
  | _, _ => true
  end.

(** Statement used in proofs (field numbers valid and distinct), none in /repo. *)
Definition desc_ok_with (kok : kind -> bool) : desc -> bool :=
  fix go fs :=
    match fs with
    | [] => true
    | (t, (lab, k)) :: r =>
        (1 <=? t) && (t <? 536870912) && negb (existsb (N.eqb t) (tags r))
        && label_ok lab k && kok k && go r
    end.
(** Statement used in proofs (field numbers valid and distinct), none in /repo. *)
Fixpoint kind_ok (k : kind) : bool :=
  match k with KMsg fs => desc_ok_with kind_ok fs | _ => true end.
(** Statement used in proofs (field numbers valid and distinct), none in /repo. *)
Definition desc_ok : desc -> bool := desc_ok_with kind_ok.

(** Values of the Rust type: strings valid, numbers in range, a plain scalar
    present exactly once, an optional message at most once.
    (Statement used in proofs, none in /repo.) *)
Definition slot_ok (vok : kind -> pv -> bool) (lab : label) (k : kind) (slot : list pv) : bool :=
  match lab, k with
  | Repeated, _ => forallb (vok k) slot
  | Single, KMsg _ => match slot with [] => true | [v] => vok k v | _ => false end
  | Single, _ => match slot with [v] => vok k v | _ => false end
  end.

(** Statement used in proofs (values of the Rust type), none in /repo. *)
Definition slots_ok (vok : kind -> pv -> bool) : desc -> list (list pv) -> bool :=
  fix go fs vs :=
    match fs, vs with
    | [], [] => true
    | (t, (lab, k)) :: fs', slot :: vs' => slot_ok vok lab k slot && go fs' vs'
    | _, _ => false
    end.

(** Statement used in proofs (values of the Rust type), none in /repo. *)
Fixpoint val_ok (k : kind) (v : pv) : bool :=
  match k, v with
  | KStr, VStr s => utf8_valid s
  | KBytes, VStr _ => true
  | KU64, VNum n => n <? u64_lim
  | KU32, VNum n => n <? u32_lim
  | KBool, VNum n => n <? 2
  | KPack, VPack l => forallb (fun n => n <? u64_lim) l
  | KMsg fs, VMsg vs => slots_ok val_ok fs vs
  | _, _ => false
  end.

(** Statement used in proofs (values of the Rust type), none in /repo. *)
Definition msg_ok : desc -> list (list pv) -> bool := slots_ok val_ok.
