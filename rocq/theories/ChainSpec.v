(** * ChainSpec: what a history says.

    Small functions of the log (newest item first), used to state the
    properties of histories.  They do not mention the contract's storage. *)

From Verif Require Import Base Types JsonCodec JsonTypes Chain.
Local Open Scope string_scope.
Local Open Scope list_scope.
Local Open Scope N_scope.

(** The owner: set at instantiation, replaced by whoever accepts ownership. *)
Fixpoint owner_of (l : list logitem) : option string :=
  match l with
  | [] => None
  | LInstantiated _ s m :: _ => Some (unwrap_or (im_owner m) s)
  | LExecuted _ s (XUpdateOwnership AcceptOwnership) :: _ => Some s
  | _ :: r => owner_of r
  end.

(** The nominated next owner and the expiry of the nomination. *)
Fixpoint nominee_of (l : list logitem) : option (string * option expiration) :=
  match l with
  | [] => None
  | LInstantiated _ _ _ :: _ => None
  | LExecuted _ _ (XUpdateOwnership AcceptOwnership) :: _ => None
  | LExecuted _ _ (XUpdateOwnership (TransferOwnership n x)) :: _ => Some (n, x)
  | _ :: r => nominee_of r
  end.

(** A nomination with this expiry has lapsed at this block. *)
Definition lapsed (x : option expiration) (e : env) : Prop :=
  match x with
  | Some (AtHeight h) => h <= env_height e
  | Some (AtTime t) => t <= env_time e
  | Some Never | None => False
  end.

(** The callback address set last. *)
Fixpoint callback_of (l : list logitem) : option string :=
  match l with
  | [] => None
  | LInstantiated _ _ m :: _ => im_callbacks m
  | LExecuted _ _ (XUpdateCallbackAddress cb) :: _ => cb
  | _ :: r => callback_of r
  end.

(** The channel options given last. *)
Fixpoint options_of (l : list logitem) : option open_options :=
  match l with
  | [] => None
  | LInstantiated _ _ m :: _ => Some (im_options m)
  | LExecuted _ _ (XCreateChannel (Some o)) :: _ => Some o
  | _ :: r => options_of r
  end.

Definition on_chan (id : string) (ch : channel) : bool := String.eqb (e_chan (ch_endpoint ch)) id.
Definition at_pkt (id : string) (n : N) (p : packet) : bool :=
  String.eqb (e_chan (p_src p)) id && (p_seq p =? n).

(** The last completed handshake, and the completed handshake of a channel. *)
Fixpoint last_opened (l : list logitem) : option channel :=
  match l with
  | [] => None
  | LChanOpen ch :: _ => Some ch
  | _ :: r => last_opened r
  end.
Fixpoint opened (l : list logitem) (id : string) : option channel :=
  match l with
  | [] => None
  | LChanOpen ch :: r => if on_chan id ch then Some ch else opened r id
  | _ :: r => opened r id
  end.

(** A channel is open on the chain from the end of its handshake until it is
    closed or, if it is ordered, until one of its packets times out. *)
Definition chan_ordered (l : list logitem) (id : string) : bool :=
  match opened l id with Some ch => order_eqb (ch_order ch) Ordered | None => false end.
Fixpoint chan_open (l : list logitem) (id : string) : bool :=
  match l with
  | [] => false
  | LChanOpen ch :: r => if on_chan id ch then true else chan_open r id
  | LChanClosed id' :: r => if String.eqb id' id then false else chan_open r id
  | LTimeout p _ :: r =>
      if String.eqb (e_chan (p_src p)) id && chan_ordered r id then false else chan_open r id
  | _ :: r => chan_open r id
  end.

(** The packet sent with this sequence on this channel, unless it has been
    acknowledged or has timed out. *)
Fixpoint unresolved (l : list logitem) (id : string) (n : N) : option packet :=
  match l with
  | [] => None
  | LSent _ _ _ p :: r => if at_pkt id n p then Some p else unresolved r id n
  | LAck p _ _ :: r => if at_pkt id n p then None else unresolved r id n
  | LTimeout p _ :: r => if at_pkt id n p then None else unresolved r id n
  | _ :: r => unresolved r id n
  end.

(** The message that sent the packet with this sequence on this channel. *)
Fixpoint sent_by (l : list logitem) (id : string) (n : N) : option execute_msg :=
  match l with
  | [] => None
  | LSent _ _ m p :: r => if at_pkt id n p then Some m else sent_by r id n
  | _ :: r => sent_by r id n
  end.
Definition queries_of (m : execute_msg) : list query_request :=
  match m with XSendCosmosMsgs _ qs _ _ => qs | _ => [] end.

(** The options a channel was requested with. *)
Fixpoint requested (l : list logitem) (id : string) : option open_options :=
  match l with
  | [] => None
  | LChanInit id' :: r => if String.eqb id' id then options_of r else requested r id
  | _ :: r => requested r id
  end.

(** The queries of the packet with this sequence on this channel, until a
    success acknowledgement or a timeout of that packet. *)
Definition ack_success_bytes (ack : string) : bool :=
  match from_json jc_ack ack with Some (AckResult _) => true | _ => false end.
Fixpoint outstanding (l : list logitem) (id : string) (n : N) : list query_request :=
  match l with
  | [] => []
  | LSent _ _ m p :: r => if at_pkt id n p then queries_of m else outstanding r id n
  | LAck p ack _ :: r =>
      if at_pkt id n p && ack_success_bytes ack then [] else outstanding r id n
  | LTimeout p _ :: r => if at_pkt id n p then [] else outstanding r id n
  | _ :: r => outstanding r id n
  end.

(** Requests for a new channel, and channels created. *)
Fixpoint open_requests (l : list logitem) : nat :=
  match l with
  | [] => 0
  | LInstantiated _ _ _ :: r => S (open_requests r)
  | LExecuted _ _ (XCreateChannel _) :: r => S (open_requests r)
  | _ :: r => open_requests r
  end%nat.
Fixpoint channels_created (l : list logitem) : nat :=
  match l with
  | [] => 0
  | LChanInit _ :: r => S (channels_created r)
  | _ :: r => channels_created r
  end%nat.

(** [P] holds of every item of the log and what was logged before it. *)
Fixpoint always (P : logitem -> list logitem -> Prop) (l : list logitem) : Prop :=
  match l with [] => True | x :: r => P x r /\ always P r end.

Lemma always_split P l : always P l <-> (forall l1 x l2, l = l1 ++ x :: l2 -> P x l2).
Proof.
  split.
  - intros H l1. revert l H. induction l1 as [|y l1 IH]; intros l H x l2 ->; [apply H|].
    destruct H as [_ H]. exact (IH _ H x l2 eq_refl).
  - induction l as [|x l IH]; intro H; [exact I|]. split; [apply (H [] x l eq_refl)|].
    apply IH. intros l1 y l2 ->. apply (H (x :: l1) y l2 eq_refl).
Qed.

(** [w'] comes after [w] in the same history. *)
Inductive later (c : cfg) (w : world) : world -> Prop :=
| later_refl : later c w w
| later_act w1 a w2 b : later c w w1 -> act c a w1 = Some (w2, b) -> later c w w2.
