(** * OwnerSpec: what the history of the example owner contract says. *)

From Verif Require Import Base Utf8 Json JsonCodec Types JsonTypes HostSpec Helpers OwnerContract.
Local Open Scope string_scope.
Local Open Scope list_scope.
Local Open Scope N_scope.

(** The controllers created, oldest first. *)
Fixpoint created (l : list oitem) : list string :=
  match l with
  | [] => []
  | OCreated addr _ _ :: r => created r ++ [addr]
  | _ :: r => created r
  end.

(** The last opened channel a controller has told about, with the account and
    the encoding. *)
Fixpoint opened_by (addr : string) (l : list oitem) : option (channel * string * tx_encoding) :=
  match l with
  | [] => None
  | OCalled a (CbOpenAck ch acc enc) :: r =>
      if String.eqb a addr then Some (ch, acc, enc) else opened_by addr r
  | _ :: r => opened_by addr r
  end.

(** What the record of the controller [addr] with number [i] says. *)
Definition record_of (i : N) (addr : string) (l : list oitem) : ica_contract :=
  IcaContract addr (option_map (fun '(ch, acc, enc) => IcaState i acc enc (ChannelState ch StOpen)) (opened_by addr l)).

(** The callbacks from a controller and the messages to it, oldest first. *)
Fixpoint called_by (addr : string) (l : list oitem) : list callback_msg :=
  match l with
  | [] => []
  | OCalled a m :: r => called_by addr r ++ (if String.eqb a addr then [m] else [])
  | _ :: r => called_by addr r
  end.
Fixpoint sent_to (addr : string) (l : list oitem) : list execute_msg :=
  match l with
  | [] => []
  | OSentTo a m :: r => sent_to addr r ++ (if String.eqb a addr then [m] else [])
  | _ :: r => sent_to addr r
  end.

(** Addresses are text; the contract's own address and the addresses it may be
    created at are. *)
Definition ocfg_ok (c : ocfg) : Prop :=
  utf8 (oc_self c) /\ forall a x, humanize (oc_chain c) a = Some x -> utf8 x.

(** The queries, as sent over the wire, and their answers, decoded. *)
Definition get_owner_state : string := "{""get_contract_state"":{}}".
Definition get_count : string := "{""get_ica_count"":{}}".
Definition get_record (i : N) : string := to_json jc_o_query_msg (OQIca i).
Definition record_reported (w : oworld) (i : N) (x : ica_contract) : Prop :=
  exists t, o_ask w (get_record i) = Some t /\ from_json jc_ica_contract t = Some x.
Definition admin_reported (w : oworld) (admin : string) (code : N) : Prop :=
  exists t, o_ask w get_owner_state = Some t /\ from_json jc_o_state t = Some (admin, code).
Definition count_reported (w : oworld) (n : N) : Prop :=
  exists t, o_ask w get_count = Some t /\ from_json (jc_uint u64_lim) t = Some n.
