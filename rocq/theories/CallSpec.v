(** * CallSpec: what a callback contract is told in the course of a history. *)

From Verif Require Import Base Utf8 Json JsonCodec Types JsonTypes Chain ChainSpec HistorySpec.
Local Open Scope string_scope.
Local Open Scope list_scope.
Local Open Scope N_scope.

(** The messages the contract at [addr] has been called with, oldest first. *)
Fixpoint calls (addr : string) (l : list logitem) : list string :=
  match l with
  | [] => []
  | LCall a msg :: r => calls addr r ++ (if String.eqb a addr then [msg] else [])
  | _ :: r => calls addr r
  end.

(** The lifecycle events of a history that happened while [addr] was the
    callback address, oldest first, as callback messages without a query
    result. *)
Definition while_told (addr : string) (r : list logitem) (m : list callback_msg) : list callback_msg :=
  match callback_of r with Some a => if String.eqb a addr then m else [] | None => [] end.
Fixpoint events (addr : string) (l : list logitem) : list callback_msg :=
  match l with
  | [] => []
  | LAck p ack relayer :: r =>
      events addr r ++ while_told addr r
        match from_json jc_ack ack with Some d => [CbAck d p relayer None] | None => [] end
  | LTimeout p relayer :: r => events addr r ++ while_told addr r [CbTimeout p relayer]
  | LChanOpen ch :: r =>
      events addr r ++ while_told addr r
        match from_json jc_metadata (ch_version ch) with
        | Some md => [CbOpenAck ch (md_address md) Protobuf] | None => [] end
  | _ :: r => events addr r
  end.

(** A callback message without its query result. *)
Definition plain (m : callback_msg) : callback_msg :=
  match m with CbAck d p r _ => CbAck d p r None | _ => m end.

(** The three kinds of packet callbacks; the packet they are about. *)
Definition is_success (m : callback_msg) : bool := match m with CbAck (AckResult _) _ _ _ => true | _ => false end.
Definition is_error (m : callback_msg) : bool := match m with CbAck (AckError _) _ _ _ => true | _ => false end.
Definition is_timeout (m : callback_msg) : bool := match m with CbTimeout _ _ => true | _ => false end.
Definition about (id : string) (n : N) (m : callback_msg) : bool :=
  match m with CbAck _ p _ _ | CbTimeout p _ => at_pkt id n p | CbOpenAck _ _ _ => false end.

(** The messages among [raws] that can be read. *)
Fixpoint readable {A} (c : jcodec A) (raws : list string) : list A :=
  match raws with
  | [] => []
  | raw :: r => match from_json c raw with Some m => m :: readable c r | None => readable c r end
  end.
