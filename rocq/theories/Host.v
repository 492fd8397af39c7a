(** * Host: the other chain.

    [Chain.v] lets a relayer present anything.  This file models the chain on
    the other side of the connection (ibc-go's core and its interchain accounts
    host module, not part of /repo, described in /repo/README.md and
    docs/docs/): the handshake, the receipt of packets, their
    execution for the interchain account, the acknowledgements; and what a
    relayer can then prove to either chain.  Sources: ibc-go
    modules/core/04-channel/keeper and modules/apps/27-interchain-accounts/host.
    Simplifications:
    - Only channels with the contract's port at the other end are kept.
    - Proofs are modelled by what they prove: a relayer may show either chain
      any state the other chain has been in, however old (the states between
      two messages of a transaction included, which adds possibilities).
    - The account given to a channel, the responses to messages, the answers to
      queries, the clock, and failures are chosen by the environment.
    - Timeouts by block height are left out: the contract's packets have none.
    - Connections of the controller chain to other chains lead nowhere. *)

From Verif Require Import Base Utf8 Proto Json JsonCodec Types JsonTypes HostSpec AnswerSpec Chain.
Local Open Scope string_scope.
Local Open Scope list_scope.
Local Open Scope N_scope.

(** State of a channel end on the host, and the channel end: the other end, the
    version and the account it gave, the next sequence to receive, the
    connection it is on. (ibc-go; not in /repo.) *)
Inductive hstate := HsTry | HsOpen | HsClosed.
(** (ibc-go; not in /repo.) *)
Record hchan := HChan {
  hc_state : hstate;
  hc_order : order;
  hc_cp : endpoint;
  hc_version : string;
  hc_account : string;
  hc_next : N;
  hc_conn : string
}.

(** What the host did with a packet, newest first: it ran the messages (all of
    them) for the account, with these result bytes and these answers to the
    queries; or it ran none and reports an error. (For statements; not in /repo.) *)
Inductive hitem :=
| Ran (hid : string) (p : packet) (account : string) (anys : list (string * string))
    (result : string) (answers : option (N * list string))
| Failed (hid : string) (p : packet) (err : string).

(** The channel, the packet, and what the acknowledgement says. (For statements; not in /repo.) *)
Definition item_hid (i : hitem) : string := match i with Ran h _ _ _ _ _ | Failed h _ _ => h end.
(** (For statements; not in /repo.) *)
Definition item_pkt (i : hitem) : packet := match i with Ran _ p _ _ _ _ | Failed _ p _ => p end.
(** (For statements; not in /repo.) *)
Definition item_ack (i : hitem) : ack_data :=
  match i with Ran _ _ _ _ r _ => AckResult r | Failed _ _ e => AckError e end.

(** Block time, channel ends, receipts (unordered channels), acknowledgements
    by channel and sequence, the log; by connection, the active channel and the
    account of the contract's port. (ibc-go; not in /repo.) *)
Record host := Host {
  h_clock : N;
  h_chans : string -> option hchan;
  h_receipt : string -> N -> bool;
  h_ack : string -> N -> option string;
  h_log : list hitem;
  h_active : string -> option string;
  h_accounts : string -> option string
}.
(** (Not in /repo.) *)
Definition init_host : host :=
  Host 0 (fun _ => None) (fun _ _ => false) (fun _ _ => None) [] (fun _ => None) (fun _ => None).

(** Who must sign a message, by the host's message registry ([None]: unknown
    type or bytes); the host's end of a connection of the controller chain
    ([None]: it leads elsewhere). (Cosmos SDK, ibc-go; not in /repo.) *)
Record hcfg := HCfg { signer_of : string -> string -> option string; peer : string -> option string }.
(** The registry knows at least the messages of [HostSpec]; a connection has two
    ends. (For statements; not in /repo.) *)
Definition hcfg_ok (k : hcfg) : Prop :=
  (forall url bytes m, host_decode url bytes = Some m -> signer_of k url bytes = Some (host_signer m)) /\
  (forall a b x, peer k a = Some x -> peer k b = Some x -> a = b).

(** ** Results *)

(** sdk.TxMsgData with one response per message; the response of
    MsgModuleQuerySafe. (Cosmos SDK; read at src/ibc/types/packet.rs:221-229.) *)
Definition any_of (x : string * string) : pv := VMsg [[VStr (fst x)]; [VStr (snd x)]].
(** (Cosmos SDK; read at src/ibc/types/packet.rs:221-229.) *)
Definition tx_result (legacy resps : list (string * string)) : string :=
  pb_encode h_tx_msg_data [map any_of legacy; map any_of resps].
(** (ibc-go; not in /repo.) *)
Definition query_answer (h : N) (bs : list string) : string :=
  pb_encode h_query_safe_response [[VNum h]; map VStr bs].
(** (ibc-go; not in /repo.) *)
Definition query_answer_url : string :=
  "/ibc.applications.interchain_accounts.host.v1.MsgModuleQuerySafeResponse".

(** What the environment decides about a packet: the responses to its messages
    and, if its last message is a MsgModuleQuerySafe, the answers and their
    height; or that it fails. (Not in /repo.) *)
Inductive hresult :=
| Runs (legacy resps : list (string * string)) (answers : option (N * list string))
| Fails (err : string).

(** (ibc-go; not in /repo.) *)
Definition result_bytes (legacy resps : list (string * string)) (answers : option (N * list string)) : string :=
  tx_result legacy (resps ++ match answers with
                             | Some (h, bs) => [(query_answer_url, query_answer h bs)]
                             | None => [] end).

(** One answer per request of the last message, if that is a query message.
    (ibc-go; not in /repo.) *)
Definition answers_fit (anys : list (string * string)) (answers : option (N * list string)) : bool :=
  match rev anys with
  | (u, b) :: _ =>
      match host_decode u b, answers with
      | Some (HQuerySafe _ reqs), Some (h, bs) => (List.length bs =? List.length reqs)%nat && (h <? u64_lim)
      | Some (HQuerySafe _ _), None => false
      | _, Some _ => false
      | _, None => true
      end
  | [] => negb (is_some answers)
  end.

(** Texts and sizes a Go program can hold. (Not in /repo.) *)
Definition sizes_fit (legacy resps : list (string * string)) (answers : option (N * list string)) : bool :=
  forallb (fun x => utf8_valid (fst x)) (legacy ++ resps) &&
  (slen (result_bytes legacy resps answers) <? u64_lim) &&
  match answers with Some (h, bs) => slen (query_answer h bs) <? u64_lim | None => true end.

(** (Cosmos SDK; not in /repo.) *)
Definition signed_by (k : hcfg) (account : string) (x : string * string) : bool :=
  match signer_of k (fst x) (snd x) with Some a => String.eqb a account | None => false end.

(** OnRecvPacket of the host module: decode, authenticate every message, run all
    of them or none.  The acknowledgement and, if the messages ran, the
    messages. (ibc-go; not in /repo.) *)
Definition deliver (k : hcfg) (account data : string) (o : hresult) :
  option (ack_data * option (list (string * string))) :=
  match o with
  | Fails err => Some (AckError err, None)
  | Runs legacy resps answers =>
      ' (anys, _) <-? host_packet data ;;
      _ <-? guard (forallb (signed_by k account) anys) ;;
      _ <-? guard (answers_fit anys answers) ;;
      _ <-? guard (List.length anys =? List.length resps + (if answers then 1 else 0))%nat ;;
      _ <-? guard (sizes_fit legacy resps answers) ;;
      Some (AckResult (result_bytes legacy resps answers), Some anys)
  end.

(** The written acknowledgement says this. (ibc-go; read at src/ibc/relay.rs:32.) *)
Definition says (ack : string) (d : ack_data) : bool :=
  match from_json jc_ack ack, d with
  | Some (AckResult x), AckResult y => String.eqb x y
  | Some (AckError x), AckError y => String.eqb x y
  | _, _ => false
  end.

(** ** Actions on the host *)

(** Equal up to the address. (ibc-go IsPreviousMetadataEqual; not in /repo.) *)
Definition same_terms (x y : metadata) : bool :=
  String.eqb (md_version x) (md_version y) && String.eqb (md_controller x) (md_controller y) &&
  String.eqb (md_host x) (md_host y) && String.eqb (md_tx_type x) (md_tx_type y) &&
  match md_encoding x, md_encoding y with
  | Protobuf, Protobuf | Proto3Json, Proto3Json => true | _, _ => false end.

(** OnChanOpenTry: the answer repeats the offered metadata with the account's
    address filled in. (ibc-go; checked at src/ibc/types/metadata.rs:119-142.) *)
Definition answer_version (offer answer : string) : option string :=
  x <-? from_json jc_metadata offer ;;
  y <-? from_json jc_metadata answer ;;
  _ <-? guard (same_terms x y && negb (sempty (md_address y))) ;;
  Some (md_address y).

(** A packet with this timeout can no longer be received at this time.
    (ibc-go Timeout.Elapsed; set at src/ibc/types/packet.rs:185-192.) *)
Definition elapsed (t : timeout) (now : N) : bool :=
  match to_timestamp t with Some x => x <=? now | None => false end.

(** (ibc-go; not in /repo.) *)
Inductive haction :=
| HClock (t : N)                                      (* a new block *)
| HTryOpen (hid id version : string)                  (* MsgChannelOpenTry *)
| HConfirm (hid : string)                             (* MsgChannelOpenConfirm *)
| HCloseConfirm (hid : string)                        (* MsgChannelCloseConfirm *)
| HRecv (hid : string) (n : N) (o : hresult) (ack : string).   (* MsgRecvPacket *)

(** (Not in /repo.) *)
Definition put_hchan hid hc h :=
  Host (h_clock h) (upd (h_chans h) hid (Some hc)) (h_receipt h) (h_ack h) (h_log h) (h_active h) (h_accounts h).
(** (Not in /repo.) *)
Definition put_active x hid h :=
  Host (h_clock h) (h_chans h) (h_receipt h) (h_ack h) (h_log h) (upd (h_active h) x (Some hid)) (h_accounts h).
(** (Not in /repo.) *)
Definition put_account x a h :=
  Host (h_clock h) (h_chans h) (h_receipt h) (h_ack h) (h_log h) (h_active h) (upd (h_accounts h) x (Some a)).
(** (Not in /repo.) *)
Definition with_state st hc :=
  HChan st (hc_order hc) (hc_cp hc) (hc_version hc) (hc_account hc) (hc_next hc) (hc_conn hc).

(** OnChanOpenTry, what the host checks about the offered metadata: the two
    connection ids, and that the port's active channel on this connection, if
    any, is closed and had the same metadata. (ibc-go; not in /repo.) *)
Definition may_open (k : hcfg) (h : host) (conn : string) (x : metadata) : bool :=
  String.eqb (md_controller x) conn &&
  match peer k conn with Some y => String.eqb (md_host x) y | None => false end &&
  match h_active h (md_host x) with
  | None => true
  | Some a =>
      match h_chans h a with
      | Some hc => match hc_state hc with HsClosed => true | _ => false end &&
          match from_json jc_metadata (hc_version hc) with Some y => same_terms x y | None => false end
      | None => false
      end
  end.

(** One action; [w] is the state of the controller chain the relayer proves
    something about. (ibc-go; not in /repo.) *)
Definition hact (c : cfg) (k : hcfg) (a : haction) (w : world) (h : host) : option host :=
  match a with
  | HClock t =>
      _ <-? guard (h_clock h <=? t) ;;
      Some (Host t (h_chans h) (h_receipt h) (h_ack h) (h_log h) (h_active h) (h_accounts h))
  | HTryOpen hid id version =>
      _ <-? guard (negb (is_some (h_chans h hid)) && utf8_valid hid && utf8_valid version) ;;
      ce <-? w_chans w id ;;
      _ <-? guard (match ce_state ce with CInit => true | _ => false end) ;;
      _ <-? guard (String.eqb (e_port (ce_cp ce)) "icahost") ;;
      x <-? from_json jc_metadata (ce_version ce) ;;
      _ <-? guard (may_open k h (ce_conn ce) x) ;;
      account <-? answer_version (ce_version ce) version ;;
      (* an account once made is used again *)
      _ <-? guard (match h_accounts h (md_host x) with Some a => String.eqb a account | None => true end) ;;
      Some (put_account (md_host x) account
        (put_hchan hid (HChan HsTry (ce_order ce) (Endpoint (port c) id) version account 1 (md_host x)) h))
  | HConfirm hid =>
      hc <-? h_chans h hid ;;
      _ <-? guard (match hc_state hc with HsTry => true | _ => false end) ;;
      ce <-? w_chans w (e_chan (hc_cp hc)) ;;
      _ <-? guard (match ce_state ce with COpen => true | _ => false end) ;;
      _ <-? guard (String.eqb (e_chan (ce_cp ce)) hid && String.eqb (ce_version ce) (hc_version hc)) ;;
      Some (put_active (hc_conn hc) hid (put_hchan hid (with_state HsOpen hc) h))
  | HCloseConfirm hid =>
      hc <-? h_chans h hid ;;
      _ <-? guard (match hc_state hc with HsClosed => false | _ => true end) ;;
      ce <-? w_chans w (e_chan (hc_cp hc)) ;;
      _ <-? guard (match ce_state ce with CClosed => true | _ => false end) ;;
      _ <-? guard (String.eqb (e_chan (ce_cp ce)) hid && String.eqb (ce_version ce) (hc_version hc)) ;;
      Some (put_hchan hid (with_state HsClosed hc) h)
  | HRecv hid n o ack =>
      hc <-? h_chans h hid ;;
      _ <-? guard (match hc_state hc with HsOpen => true | _ => false end) ;;
      p <-? w_commit w (e_chan (hc_cp hc)) n ;;
      _ <-? guard (String.eqb (e_chan (p_dest p)) hid) ;;
      _ <-? guard (negb (elapsed (p_timeout p) (h_clock h))) ;;
      _ <-? guard (match hc_order hc with
                   | Ordered => n =? hc_next hc
                   | Unordered => negb (h_receipt h hid n) end) ;;
      ' (d, ran) <-? deliver k (hc_account hc) (p_data p) o ;;
      _ <-? guard (says ack d) ;;
      let item := match o, ran with
                  | Runs legacy resps answers, Some anys =>
                      Ran hid p (hc_account hc) anys (result_bytes legacy resps answers) answers
                  | Fails err, _ => Failed hid p err
                  | _, _ => Failed hid p ""
                  end in
      Some (Host (h_clock h)
              (match hc_order hc with
               | Ordered => upd (h_chans h) hid
                   (Some (HChan HsOpen Ordered (hc_cp hc) (hc_version hc) (hc_account hc) (n + 1) (hc_conn hc)))
               | Unordered => h_chans h end)
              (match hc_order hc with
               | Ordered => h_receipt h
               | Unordered => upd2 (h_receipt h) hid n true end)
              (upd2 (h_ack h) hid n (Some ack))
              (item :: h_log h) (h_active h) (h_accounts h))
  end.

(** ** Both chains *)

(** What ibc-go on the controller chain verifies about the host, [h] being the
    state of the host the relayer proves something about.  Everything else is
    as in [Chain.v]. (ibc-go; not in /repo.) *)
Definition genuine (c : cfg) (a : action) (w : world) (h : host) : Prop :=
  match a with
  | AOpenAck id cp version =>
      exists ce hc, w_chans w id = Some ce /\ h_chans h cp = Some hc /\ hc_state hc = HsTry /\
        hc_order hc = ce_order ce /\ hc_cp hc = Endpoint (port c) id /\ hc_version hc = version
  | ACloseConfirm id =>
      exists ce hc, w_chans w id = Some ce /\ h_chans h (e_chan (ce_cp ce)) = Some hc /\
        hc_state hc = HsClosed /\ hc_order hc = ce_order ce /\ hc_cp hc = Endpoint (port c) id
  | AAck id n ack _ =>
      exists ce, w_chans w id = Some ce /\ h_ack h (e_chan (ce_cp ce)) n = Some ack
  | ATimeout id n _ =>
      exists ce p, w_chans w id = Some ce /\ w_commit w id n = Some p /\
        (* not received *)
        match ce_order ce with
        | Unordered => h_receipt h (e_chan (ce_cp ce)) n = false
        | Ordered => exists hc, h_chans h (e_chan (ce_cp ce)) = Some hc /\ hc_next hc <= n
        end /\
        (* MsgTimeout, or MsgTimeoutOnClose *)
        (elapsed (p_timeout p) (h_clock h) = true \/
         exists hc, h_chans h (e_chan (ce_cp ce)) = Some hc /\ hc_state hc = HsClosed /\
           hc_cp hc = Endpoint (port c) id)
  | _ => True
  end.

(** Both chains, with all states they have been in, the present one first.
    (Not in /repo.) *)
Record sys := Sys { y_w : world; y_ws : list world; y_h : host; y_hs : list host }.
(** (Not in /repo.) *)
Definition init_sys : sys := Sys init_world [init_world] init_host [init_host].

(** (Not in /repo.) *)
Inductive sstep (c : cfg) (k : hcfg) (s : sys) : sys -> Prop :=
| S_controller a h w b :
    In h (y_hs s) -> genuine c a (y_w s) h -> act c a (y_w s) = Some (w, b) ->
    sstep c k s (Sys w (w :: y_ws s) (y_h s) (y_hs s))
| S_host a w h :
    In w (y_ws s) -> hact c k a w (y_h s) = Some h ->
    sstep c k s (Sys (y_w s) (y_ws s) h (h :: y_hs s)).

(** [s'] can follow [s]; the states that can be reached. (Not in /repo.) *)
Inductive follows (c : cfg) (k : hcfg) (s : sys) : sys -> Prop :=
| follows_refl : follows c k s s
| follows_step s1 s2 : follows c k s s1 -> sstep c k s1 s2 -> follows c k s s2.
(** (Not in /repo.) *)
Definition reached (c : cfg) (k : hcfg) (s : sys) : Prop := follows c k init_sys s.
