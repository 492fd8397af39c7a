(** * Trans: the possible changes of the chain, in explicit form.

    [act] (Chain.v) is written the way the chain and the contract compute; here
    each successful action is shown to be one of a few explicit changes.  All
    invariants of histories are proved on these. *)

From Verif Require Import Base Text Utf8 Base64 Proto ProtoFacts Schemas Json JsonCodec Types JsonTypes Store
  CosmosMsg QueryMsg Metadata Stargate PacketData Ownable Semver Contract JsonSound HostSpec HostFacts PacketFacts
  EntryFacts Chain ChainSpec.
Local Open Scope string_scope.
Local Open Scope list_scope.
Local Open Scope N_scope.

Definition init_end (o : open_options) : chan_end :=
  ChanEnd CInit (unwrap_or (oo_ordering o) Ordered) (Endpoint "icahost" "") (oo_connection o)
    (to_json jc_metadata (fresh_metadata (oo_connection o) (oo_cp_connection o))).

Definition closed_end (ce : chan_end) : chan_end :=
  ChanEnd CClosed (ce_order ce) (ce_cp ce) (ce_conn ce) (ce_version ce).

Definition open_end (ce : chan_end) (cp_chan cp_version : string) : chan_end :=
  ChanEnd COpen (ce_order ce) (Endpoint (e_port (ce_cp ce)) cp_chan) (ce_conn ce) cp_version.

Definition calls (cb : option string) (m : callback_msg) (l : list logitem) : list logitem :=
  match cb with Some addr => LCall addr (to_json jc_receiver m) :: l | None => l end.

Definition fresh_id (w : world) (id : string) : Prop :=
  w_chans w id = None /\ utf8 id /\ slen id <= 64.

Definition env_at (c : cfg) (e : env) : Prop :=
  env_contract e = c_self c /\ env_height e < u64_lim /\ env_time e < u64_lim.

Definition is_owner (s : cstore) (x : string) : Prop :=
  exists o, st_owner s = Some o /\ ow_owner o = Some x.

Definition valid_opt (a : api) (o : option string) : Prop :=
  match o with Some x => addr_validate a x = true | None => True end.

Inductive trans (c : cfg) (w : world) : world -> bool -> Prop :=
| T_inst e sender m id rel :
    w_store w = None -> env_at c e -> utf8 sender -> jval jc_instantiate_msg m ->
    addr_validate (c_api c) (unwrap_or (im_owner m) sender) = true ->
    valid_opt (c_api c) (im_callbacks m) ->
    fresh_id w id -> unwrap_or (oo_cp_port (im_options m)) "icahost" = "icahost" ->
    trans c w
      (World (Some (CStore (Some (CONTRACT_NAME, unwrap_or rel CONTRACT_VERSION))
                (Some (Ownership (Some (unwrap_or (im_owner m) sender)) None None))
                (Some (ContractState None (im_callbacks m))) None (Some (im_options m))
                (Some false) None None (fun _ _ => None)))
         (upd (w_chans w) id (Some (init_end (im_options m)))) (w_nextseq w) (w_nextack w)
         (w_commit w) (LChanInit id :: LInstantiated e sender m :: w_log w)) false
| T_create s e sender opts o id :
    w_store w = Some s -> env_at c e -> utf8 sender -> jval jc_execute_msg (XCreateChannel opts) ->
    is_owner s sender ->
    match opts with Some o' => o = o' | None => st_options s = Some o end ->
    recorded_open s = false ->
    fresh_id w id -> unwrap_or (oo_cp_port o) "icahost" = "icahost" ->
    trans c w
      (World (Some (set_allow_open (Some false) (set_options (Some o) s)))
         (upd (w_chans w) id (Some (init_end o))) (w_nextseq w) (w_nextack w)
         (w_commit w) (LChanInit id :: LExecuted e sender (XCreateChannel opts) :: w_log w)) false
| T_close s e sender ce id :
    w_store w = Some s -> env_at c e -> utf8 sender ->
    is_owner s sender ->
    w_chans w id = Some ce -> ce_state ce <> CClosed ->
    st_channel s = Some (ChannelState (channel_of c id ce) StOpen) ->
    trans c w
      (World (Some (set_channel (Some (ChannelState (channel_of c id ce) StClosed))
                     (set_allow_close (Some false) s)))
         (upd (w_chans w) id (Some (closed_end ce))) (w_nextseq w) (w_nextack w)
         (w_commit w) (LChanClosed id :: LExecuted e sender XCloseChannel :: w_log w)) false
| T_send s e sender st info ms qs memo t s1 pk ts ce s' :
    let id := ii_channel info in
    let n := w_nextseq w id in
    let m := XSendCosmosMsgs ms qs memo t in
    let p := Packet (to_json jc_ica_packet pk) (Endpoint (port c) id) (ce_cp ce) n
               (Timeout None (Some ts)) in
    w_store w = Some s -> env_at c e -> utf8 sender -> jval jc_execute_msg m ->
    is_owner s sender ->
    st_state s = Some st -> cs_ica st = Some info ->
    from_cosmos_msgs s ms qs (ii_encoding info) memo (ii_address info) = Ok (s1, pk) ->
    plus_seconds (env_time e) (unwrap_or t 600) = Ok ts ->
    w_chans w id = Some ce -> ce_state ce = COpen ->
    n < u64_lim -> slen (p_data p) < u32_lim ->
    match qs with
    | [] => s' = s
    | _ => s' = set_pending id n (Some (sent_paths qs)) (set_query None s)
    end ->
    trans c w
      (World (Some s') (w_chans w) (upd (w_nextseq w) id (n + 1)) (w_nextack w)
         (upd2 (w_commit w) id n (Some p))
         (LSent e sender m p :: LExecuted e sender m :: w_log w)) false
| T_callback s e sender st cb :
    w_store w = Some s -> env_at c e -> utf8 sender -> jval jc_execute_msg (XUpdateCallbackAddress cb) ->
    is_owner s sender -> st_state s = Some st -> valid_opt (c_api c) cb ->
    trans c w
      (World (Some (set_state (Some (ContractState (cs_ica st) cb)) s)) (w_chans w) (w_nextseq w)
         (w_nextack w) (w_commit w)
         (LExecuted e sender (XUpdateCallbackAddress cb) :: w_log w)) false
| T_nominate s e sender o n x :
    w_store w = Some s -> env_at c e -> utf8 sender ->
    jval jc_execute_msg (XUpdateOwnership (TransferOwnership n x)) ->
    st_owner s = Some o -> ow_owner o = Some sender -> addr_validate (c_api c) n = true ->
    trans c w
      (World (Some (set_owner (Some (Ownership (Some sender) (Some n) x)) s)) (w_chans w) (w_nextseq w)
         (w_nextack w) (w_commit w)
         (LExecuted e sender (XUpdateOwnership (TransferOwnership n x)) :: w_log w)) false
| T_accept s e sender o :
    w_store w = Some s -> env_at c e -> utf8 sender ->
    st_owner s = Some o -> ow_pending o = Some sender -> ~ lapsed (ow_expiry o) e ->
    trans c w
      (World (Some (set_owner (Some (Ownership (Some sender) None None)) s)) (w_chans w) (w_nextseq w)
         (w_nextack w) (w_commit w)
         (LExecuted e sender (XUpdateOwnership AcceptOwnership) :: w_log w)) false
| T_migrate s :
    w_store w = Some s -> validate_semver s = Ok tt -> validate_channel_encoding s = Ok tt ->
    trans c w
      (World (Some (set_version (Some (CONTRACT_NAME, CONTRACT_VERSION)) s)) (w_chans w) (w_nextseq w)
         (w_nextack w) (w_commit w) (LMigrated :: w_log w)) false
| T_open_ack s st ce id cp_chan cp_version md :
    let ce' := open_end ce cp_chan cp_version in
    let ch := channel_of c id ce' in
    w_store w = Some s -> utf8 cp_chan -> utf8 cp_version ->
    w_chans w id = Some ce -> ce_state ce = CInit ->
    st_state s = Some st ->
    from_json jc_metadata cp_version = Some md -> validate_metadata (c_api c) md ch = Ok tt ->
    md_address md <> "" ->
    trans c w
      (World (Some (set_channel (Some (ChannelState ch StOpen))
                (set_state (Some (ContractState (Some (IcaInfo (md_address md) id (md_encoding md)))
                                    (cs_callback st))) s)))
         (upd (w_chans w) id (Some ce')) (w_nextseq w) (w_nextack w) (w_commit w)
         (calls (cs_callback st) (CbOpenAck ch (md_address md) (md_encoding md))
           (LChanOpen ch :: w_log w))) (is_some (cs_callback st))
| T_close_confirm s ce id :
    w_store w = Some s ->
    w_chans w id = Some ce -> ce_state ce <> CClosed ->
    st_channel s = Some (ChannelState (channel_of c id ce) StOpen) ->
    trans c w
      (World (Some (set_channel (Some (ChannelState (channel_of c id ce) StClosed)) s))
         (upd (w_chans w) id (Some (closed_end ce))) (w_nextseq w) (w_nextack w)
         (w_commit w) (LChanClosed id :: w_log w)) false
| T_ack s st ce id n p ack d relayer qr s' nextack ev :
    w_store w = Some s -> utf8 relayer -> st_state s = Some st ->
    w_chans w id = Some ce -> ce_state ce = COpen -> w_commit w id n = Some p ->
    (ce_order ce = Ordered -> n = w_nextack w id) ->
    from_json jc_ack ack = Some d ->
    match d with
    | AckResult res =>
        s' = set_pending (e_chan (p_src p)) (p_seq p) None s /\ ev = event_success p res /\
        match st_pending s (e_chan (p_src p)) (p_seq p) with
        | None => qr = None
        | Some paths => exists r, decode_resp_last d = Ok r /\
                          qr = Some (result_from_response (c_api c) paths r)
        end
    | AckError err => s' = s /\ ev = event_error p err /\ qr = Some (QRError err)
    end ->
    nextack = match ce_order ce with Ordered => upd (w_nextack w) id (n + 1) | _ => w_nextack w end ->
    trans c w
      (World (Some s') (w_chans w) (w_nextseq w) nextack (upd2 (w_commit w) id n None)
         (calls (cs_callback st) (CbAck d p relayer qr)
           (LEvent ev :: LAck p ack relayer :: w_log w))) (is_some (cs_callback st))
| T_timeout s st cs ce id n p relayer :
    w_store w = Some s -> utf8 relayer -> st_state s = Some st ->
    st_channel s = Some cs ->
    w_chans w id = Some ce -> w_commit w id n = Some p ->
    trans c w
      (World (Some (set_pending (e_chan (p_src p)) (p_seq p) None
                (if is_ordered cs then set_channel (Some (close_cs cs)) s else s)))
         (match ce_order ce with Ordered => upd (w_chans w) id (Some (closed_end ce)) | _ => w_chans w end)
         (w_nextseq w) (w_nextack w) (upd2 (w_commit w) id n None)
         (calls (cs_callback st) (CbTimeout p relayer) (LTimeout p relayer :: w_log w)))
      (is_some (cs_callback st)).

(** ** Between actions the permission flags and the query scratch entry are clear. *)

Definition base (w : world) : Prop :=
  (forall id, 1 <= w_nextseq w id) /\
  forall s, w_store w = Some s ->
    flag (st_allow_open s) = false /\ flag (st_allow_close s) = false /\ st_query s = None /\
    match st_options s with Some o => utf8_options o | None => True end.

Lemma guard_some b x : guard b = Some x -> b = true.
Proof. destruct b; [reflexivity|discriminate]. Qed.

Lemma ok_of_some {A} (o : outcome A) x : ok_of o = Some x -> o = Ok x.
Proof. destruct o; cbn; congruence. Qed.

Ltac inv_opt :=
  repeat match goal with
  | H : obind _ _ = Some _ |- _ => apply obind_some in H as (? & ? & H)
  | H : guard _ = Some _ |- _ => apply guard_some in H
  | H : ok_of _ = Some _ |- _ => apply ok_of_some in H
  | H : (_ && _)%bool = true |- _ => apply andb_true_iff in H as [? ?]
  | H : let '(_, _) := ?p in _ |- _ => destruct p
  | H : match ?p with (_, _) => _ end = Some _ |- _ => is_var p; destruct p
  end.

Lemma assert_owner_ok s x : assert_owner s x = Ok tt <-> is_owner s x.
Proof.
  unfold assert_owner, is_owner, check_owner. destruct (st_owner s) as [o|]; cbn [of_option bindo].
  - destruct (ow_owner o) as [y|] eqn:E.
    + destruct (String.eqb_spec x y) as [->|N]; split; try discriminate.
      * intros _. exists o. auto.
      * reflexivity.
      * intros (o' & Ho & H). inversion Ho; subst. congruence.
    + split; [discriminate|]. intros (o' & Ho & H). inversion Ho; subst. congruence.
  - split; [discriminate|]. intros (o' & Ho & _). discriminate.
Qed.

Lemma validate_opt_ok a o x : validate_opt a o = Ok x -> x = o /\ valid_opt a o.
Proof.
  unfold validate_opt, valid_opt. destruct o as [y|].
  - destruct (addr_validate a y); [|discriminate]. intro H; inversion H; auto.
  - intro H; inversion H; auto.
Qed.

(** Creating a channel: the dispatch of the contract's own OpenInit. *)
Lemma core_open_own c id o s w w' :
  utf8_options o -> w_store w = Some s -> flag (st_allow_open s) = true ->
  core_open c id (unwrap_or (oo_ordering o) Ordered) (unwrap_or (oo_cp_port o) "icahost") (oo_connection o)
    (to_json jc_metadata (fresh_metadata (oo_connection o) (oo_cp_connection o))) w = Some w' ->
  recorded_open s = false /\ fresh_id w id /\ unwrap_or (oo_cp_port o) "icahost" = "icahost" /\
  w' = note (LChanInit id) (put_chan id (init_end o) (put_store (set_allow_open (Some false) s) w)).
Proof.
  intros (Hc1 & Hc2 & Hc3) Hs Hf H.
  unfold core_open in H. inv_opt.
  match goal with H : w_store w = Some ?x |- _ => rewrite Hs in H; injection H as <- end.
  cbn [ibc_channel_open] in *.
  match goal with H : on_open_init _ _ _ = _ |- _ => rename H into HO end.
  rewrite on_open_init_own in HO by assumption.
  destruct (String.eqb_spec (unwrap_or (oo_cp_port o) "icahost") "icahost") as [Hp|]; cbn [negb] in HO; [|discriminate].
  destruct (recorded_open s) eqn:Hr; [discriminate|]. inversion HO; subst; clear HO.
  injection H as <-.
  split; [reflexivity|]. split; [|split; [exact Hp|]].
  - unfold fresh_id, utf8. destruct (w_chans w id); [discriminate|]. split; [reflexivity|].
    split; [assumption|]. now apply N.leb_le.
  - rewrite Hp. reflexivity.
Qed.

Lemma dispatch_open_eq c e sender m id ok bytes w w' :
  dispatch_exec c e sender m id ok
    (Response [SubMsg (MStargate "/ibc.core.channel.v1.MsgChannelOpenInit" bytes) None] []) w = Some w' ->
  slen bytes < u32_lim /\ exists oi o conn, core_open_init bytes = Some oi /\
  order_of_number (oi_order oi) = Some o /\ oi_hops oi = [conn] /\
  core_open c id o (oi_cp_port oi) conn (oi_version oi) w = Some w'.
Proof.
  intro H. unfold dispatch_exec in H. cbn [r_msgs r_events app note_events sm_msg sm_reply] in H.
  inv_opt. match goal with H : core_open_init _ = Some ?x |- _ => rename x into oi; rename H into Hoi end.
  split; [now apply N.ltb_lt|].
  match goal with H : order_of_number _ = Some ?x |- _ => rename x into ord; rename H into Ho1 end.
  destruct (oi_hops oi) as [|conn [|]] eqn:Eh; try discriminate.
  exists oi, ord, conn. auto.
Qed.

Lemma dispatch_open c e sender m id ok o s w w' :
  cfg_ok c -> env_contract e = c_self c -> utf8_options o ->
  w_store w = Some s -> flag (st_allow_open s) = true ->
  dispatch_exec c e sender m id ok (add_message (open_init_msg e o) response_default) w = Some w' ->
  recorded_open s = false /\ fresh_id w id /\ unwrap_or (oo_cp_port o) "icahost" = "icahost" /\
  w' = note (LChanInit id) (put_chan id (init_end o) (put_store (set_allow_open (Some false) s) w)).
Proof.
  intros Hc He Ho Hs Hf H. rewrite open_init_msg_bytes, He in H.
  apply dispatch_open_eq in H as (Hl32 & oi & ord & conn & Hoi & Hord & Hh & H).
  assert (Hlen : slen (open_init_bytes (c_self c) o) < u64_lim).
  { eapply N.lt_trans; [exact Hl32|]. reflexivity. }
  rewrite (open_init_decodes (c_self c) o (proj1 Hc) Ho Hlen) in Hoi. injection Hoi as <-.
  cbn [oi_hops oi_order oi_cp_port oi_version] in *. injection Hh as <-.
  assert (E : ord = unwrap_or (oo_ordering o) Ordered).
  { destruct (oo_ordering o) as [[]|]; cbn in Hord |- *; congruence. }
  subst ord. eapply core_open_own; eassumption.
Qed.

Lemma jval_options o : jval jc_options o -> utf8_options o.
Proof. destruct o as [a b cc d]. intros (H1 & H2 & H3 & _). repeat split; try assumption.
  destruct cc; [|exact I]. apply jval_opt_str in H3. exact H3. Qed.

Lemma jval_inst_options m : jval jc_instantiate_msg m -> utf8_options (im_options m).
Proof. destruct m as [a b cc]. intros (_ & H & _). apply jval_options. exact H. Qed.

Lemma jval_create_options o : jval jc_execute_msg (XCreateChannel (Some o)) -> utf8_options o.
Proof. intros [H _]. apply jval_options. exact H. Qed.

Lemma core_close_inv c id w w' s :
  w_store w = Some s -> core_close_init c id w = Some w' ->
  flag (st_allow_close s) = true /\
  exists ce, w_chans w id = Some ce /\ ce_state ce <> CClosed /\
    st_channel s = Some (ChannelState (channel_of c id ce) StOpen) /\
    w' = note (LChanClosed id) (put_chan id (closed_end ce) (put_store
           (set_channel (Some (ChannelState (channel_of c id ce) StClosed))
             (set_allow_close (Some false) s)) w)).
Proof.
  intros Hs H. unfold core_close_init in H. inv_opt.
  match goal with H : w_store w = Some ?x |- _ => rewrite Hs in H; injection H as <- end.
  cbn [ibc_channel_close] in *. unfold on_close_init, close_recorded in *.
  destruct (flag (st_allow_close s)) eqn:Hf; cbn [negb] in *; [|discriminate].
  split; [reflexivity|]. exists x. split; [assumption|].
  match goal with H : bindo _ _ = Ok _ |- _ => apply bindo_ok in H as (cs & Hcs & HO) end.
  change (st_channel (set_allow_close (Some false) s)) with (st_channel s) in Hcs.
  unfold load, of_option in Hcs. destruct (st_channel s) as [cs'|]; [|discriminate].
  inversion Hcs; subst cs'; clear Hcs.
  destruct (channel_eqb (cst_channel cs) (channel_of c id x)) eqn:Hch; cbn [negb] in HO; [|discriminate].
  apply channel_eqb_spec in Hch.
  destruct (is_open cs) eqn:Ho; cbn [negb] in HO; [|discriminate]. inversion HO; subst; clear HO.
  assert (Hcs : cs = ChannelState (channel_of c id x) StOpen).
  { destruct cs as [ch st]. cbn in Hch, Ho. subst. destruct st; try discriminate. reflexivity. }
  subst cs. split; [|split; [reflexivity|]].
  - intro E. rewrite E in *. discriminate.
  - inversion H; subst; clear H. reflexivity.
Qed.

Lemma dispatch_send_eq c e sender m id ok chan data t rep w w' :
  dispatch_exec c e sender (Some m) id ok
    (Response [SubMsg (MIbc (IbcSendPacket chan data t)) rep] []) w = Some w' ->
  exists ce, w_chans w chan = Some ce /\ ce_state ce = COpen /\
  w_nextseq w chan < u64_lim /\ slen data < u32_lim /\
  let n := w_nextseq w chan in
  let p := Packet data (Endpoint (port c) chan) (ce_cp ce) n t in
  let w1 := note (LSent e sender m p) (put_commit chan n (Some p) (put_nextseq chan (n + 1) w)) in
  match rep with
  | None => w' = w1
  | Some rid => exists s s' r, w_store w = Some s /\
      reply (c_api c) s rid (SubOk (Some (send_response n))) = Ok (s', r) /\
      w' = note_events (r_events r) (put_store s' w1)
  end.
Proof.
  intro H. unfold dispatch_exec in H. cbn [r_msgs r_events app note_events sm_msg sm_reply] in H.
  apply obind_some in H as (? & _ & H). cbn [obind] in H.
  apply obind_some in H as ([w1 n] & HS & H). unfold core_send in HS.
  apply obind_some in HS as (ce & Hce & HS). apply obind_some in HS as (? & Ho & HS).
  apply obind_some in HS as (? & Hg & HS). apply guard_some in Ho, Hg.
  apply andb_true_iff in Hg as [Hn Hl]. apply N.ltb_lt in Hn, Hl.
  exists ce. split; [exact Hce|]. split; [destruct (ce_state ce); congruence|].
  split; [exact Hn|]. split; [exact Hl|]. injection HS as <- <-. cbv zeta.
  destruct rep as [rid|].
  - apply obind_some in H as (s & Hs & H). apply obind_some in H as ([s' r] & HR & H).
    apply ok_of_some in HR. apply obind_some in H as (? & _ & H). injection H as <-.
    exists s, s', r. split; [exact Hs|]. split; [exact HR|reflexivity].
  - injection H as <-. reflexivity.
Qed.

Lemma dispatch_close_eq c e sender m id ok chan w w' :
  dispatch_exec c e sender m id ok (Response [SubMsg (MIbc (IbcCloseChannel chan)) None] []) w = Some w' ->
  core_close_init c chan w = Some w'.
Proof.
  intro H. unfold dispatch_exec in H. cbn [r_msgs r_events app note_events sm_msg sm_reply] in H.
  apply obind_some in H as (? & _ & H). exact H.
Qed.

Lemma reply_ok a s st info paths n :
  1 <= n < u64_lim -> st_state s = Some st -> cs_ica st = Some info ->
  reply a (set_query (Some paths) s) SEND_QUERY_PACKET (SubOk (Some (send_response n))) =
  Ok (set_pending (ii_channel info) n (Some paths) (set_query None s), response_default).
Proof.
  intros Hn Hs Hi. unfold reply. rewrite N.eqb_refl. unfold reply_send_query_packet. cbn [unwrap_or].
  rewrite bufany_send_response by exact Hn. cbn [bindo].
  change (st_state (set_query (Some paths) s)) with (st_state s).
  rewrite Hs. unfold load at 1. cbn [of_option bindo]. unfold get_ica_info. rewrite Hi. reflexivity.
Qed.

Lemma create_channel_ok s e sender opts s' r :
  create_channel s e sender opts = Ok (s', r) ->
  is_owner s sender /\ exists o,
    match opts with Some o' => o = o' | None => st_options s = Some o end /\
    s' = set_allow_open (Some true) (set_options (Some o) s) /\
    r = add_message (open_init_msg e o) response_default.
Proof.
  intro HX. unfold create_channel in HX. apply bindo_ok in HX as ([] & HA & HX).
  split; [now apply assert_owner_ok|].
  apply bindo_ok in HX as ([s1 o] & HO & HX). exists o.
  assert (Es : s' = set_allow_open (Some true) s1) by congruence.
  assert (Er : r = add_message (open_init_msg e o) response_default) by congruence.
  clear HX. split; [|split; [|exact Er]].
  - destruct opts as [o'|]; [congruence|]. apply bindo_ok in HO as (o' & HO1 & HO2). unfold of_option in HO1.
    destruct (st_options s) as [o2|] eqn:E; [|discriminate]. congruence.
  - subst s'. destruct opts as [o'|]; [congruence|].
    apply bindo_ok in HO as (o' & HO1 & HO2). unfold of_option in HO1.
    destruct (st_options s) as [o2|] eqn:E; [|discriminate]. inversion HO1; subst. inversion HO2; subst.
    destruct s1; cbn in *; subst; reflexivity.
Qed.

Lemma exec_trans c w h t sender raw id ok w' b :
  cfg_ok c -> base w -> act c (AExecute h t sender raw id ok) w = Some (w', b) -> trans c w w' b.
Proof.
  intros Hc [Hseq Hb] H. cbn [act] in H. inv_opt. rename x0 into s, x1 into m, x2 into w2.
  match goal with H : Some _ = Some _ |- _ => inversion H; subst; clear H end.
  match goal with H : w_store w = _ |- _ => rename H into Hs end.
  destruct (Hb _ Hs) as (Hfo & Hfc & Hq & Hopt).
  match goal with H : env_ok _ _ _ = _ |- _ => unfold env_ok in H end. inv_opt.
  set (e := Env h t (c_self c)) in *.
  assert (He : env_at c e) by (unfold env_at, e; cbn; repeat split; lia).
  match goal with H : from_json jc_execute_msg raw = Some m |- _ =>
    apply (from_json_valid _ _ _ jc_execute_msg_sound) in H; rename H into Hm end.
  match goal with H : dispatch_exec _ _ _ _ _ _ _ _ = _ |- _ => rename H into HD end.
  match goal with H : execute _ _ _ _ _ = _ |- _ => rename H into HX end.
  match goal with H : utf8_valid sender = true |- _ => rename H into Hsender end.
  destruct m as [opts | | ms qs memo tt_ | cb | [n exp| |]]; cbn [execute] in HX.
  - (* CreateChannel *)
    apply create_channel_ok in HX as (HA & o & Hopts & -> & ->).
    assert (Hu : utf8_options o).
    { destruct opts as [o'|]; [subst o'; now apply jval_create_options|]. now rewrite Hopts in Hopt. }
    eapply (dispatch_open c e sender _ id ok o (set_allow_open (Some true) (set_options (Some o) s)))
      in HD as (Hr & Hf & Hp & ->); [|assumption|reflexivity|assumption|reflexivity|reflexivity].
    apply (T_create c w s e sender opts o id); assumption.
  - (* CloseChannel *)
    unfold close_channel in HX. apply bindo_ok in HX as ([] & HA & HX). apply assert_owner_ok in HA.
    apply bindo_ok in HX as (cs & Hcs & HX). destruct (is_open cs) eqn:Ho; [|discriminate].
    cbn [negb] in HX. inversion HX; subst; clear HX.
    apply dispatch_close_eq in HD.
    eapply core_close_inv in HD; [|reflexivity].
    destruct HD as (_ & ce & Hce & Hst & Hch & ->). cbn in Hce.
    apply (T_close c w s e sender ce); assumption.
  - (* SendCosmosMsgs *)
    unfold send_cosmos_msgs in HX. apply bindo_ok in HX as ([] & HA & HX). apply assert_owner_ok in HA.
    apply bindo_ok in HX as (st & Hst & HX). unfold load, of_option in Hst.
    destruct (st_state s) as [st'|] eqn:Est; [|discriminate]. inversion Hst; subst st'; clear Hst.
    apply bindo_ok in HX as (info & Hi & HX). unfold get_ica_info, of_option in Hi.
    destruct (cs_ica st) as [i'|] eqn:Ei; [|discriminate]. inversion Hi; subst i'; clear Hi.
    apply bindo_ok in HX as ([s1 pk] & HF & HX).
    apply bindo_ok in HX as (im & HI & HX). unfold to_ibc_msg in HI.
    apply bindo_ok in HI as (ts & Hts & HI). inversion HI; subst im; clear HI.
    inversion HX; subst; clear HX.
    assert (Henc : ii_encoding info = Protobuf).
    { destruct (ii_encoding info); [reflexivity|discriminate]. }
    assert (HF2 := HF). rewrite Henc in HF2. apply from_cosmos_msgs_ok in HF2 as (anys & _ & HF2).
    apply dispatch_send_eq in HD as (ce & Hce & Hopen & Hn & Hl & HD).
    cbn [w_chans w_nextseq w_store note put_store] in Hce, Hn, HD. cbv zeta in HD.
    destruct qs as [|q qs].
    + destruct HF2 as [-> ->]. subst w'.
      apply (T_send c w s e sender st info ms [] memo tt_ s (from_proto_anys anys memo) ts ce s);
        solve [assumption | reflexivity].
    + destruct HF2 as (reqs & qa & _ & _ & _ & ->).
      destruct HD as (s1 & s2 & r2 & Es & HR & ->). injection Es as <-.
      rewrite (reply_ok _ _ _ _ _ _ (conj (Hseq (ii_channel info)) Hn) Est Ei) in HR.
      injection HR as <- <-.
      apply (T_send c w s e sender st info ms (q :: qs) memo tt_
               (set_query (Some (sent_paths (q :: qs))) s) pk ts ce);
        solve [assumption | reflexivity].
  - (* UpdateCallbackAddress *)
    unfold update_callback_address in HX. apply bindo_ok in HX as ([] & HA & HX). apply assert_owner_ok in HA.
    apply bindo_ok in HX as (st & Hst & HX). unfold load, of_option in Hst.
    destruct (st_state s) as [st'|] eqn:Est; [|discriminate]. inversion Hst; subst st'; clear Hst.
    apply bindo_ok in HX as (cb' & Hcb & HX). apply validate_opt_ok in Hcb as [-> Hcb].
    inversion HX; subst; clear HX. cbn in HD. inversion HD; subst; clear HD.
    apply (T_callback c w s e sender st cb); assumption.
  - (* TransferOwnership *)
    unfold update_ownership in HX. apply bindo_ok in HX as (s1 & HU & HX).
    inversion HX; subst; clear HX. cbn in HD. inversion HD; subst; clear HD.
    unfold ownable_update in HU. apply bindo_ok in HU as (o & Ho & HU). unfold of_option in Ho.
    destruct (st_owner s) as [o'|] eqn:Eo; [|discriminate]. inversion Ho; subst o'; clear Ho.
    apply bindo_ok in HU as ([] & HA & HU). unfold check_owner in HA.
    destruct (ow_owner o) as [y|] eqn:Ey; [|discriminate].
    destruct (String.eqb_spec sender y) as [<-|]; [|discriminate].
    destruct (addr_validate (c_api c) n) eqn:Ea; [|discriminate]. inversion HU; subst; clear HU.
    apply (T_nominate c w s e sender o n exp); assumption.
  - (* AcceptOwnership *)
    unfold update_ownership in HX. apply bindo_ok in HX as (s1 & HU & HX).
    inversion HX; subst; clear HX. cbn in HD. inversion HD; subst; clear HD.
    unfold ownable_update in HU. apply bindo_ok in HU as (o & Ho & HU). unfold of_option in Ho.
    destruct (st_owner s) as [o'|] eqn:Eo; [|discriminate]. inversion Ho; subst o'; clear Ho.
    destruct (ow_pending o) as [y|] eqn:Ey; [|discriminate].
    destruct (String.eqb_spec sender y) as [<-|]; cbn [negb] in HU; [|discriminate].
    destruct (match ow_expiry o with Some x => is_expired x e | None => false end) eqn:Ex; [discriminate|].
    inversion HU; subst; clear HU. apply (T_accept c w s e sender o); try assumption.
    unfold lapsed. destruct (ow_expiry o) as [[h'|t'|]|]; cbn in Ex; try tauto; unfold e; cbn; lia.
  - discriminate.
Qed.

Lemma instantiate_ok a e sender m s' r :
  instantiate a e sender m = Ok (s', r) ->
  addr_validate a (unwrap_or (im_owner m) sender) = true /\ valid_opt a (im_callbacks m) /\
  s' = CStore (Some (CONTRACT_NAME, CONTRACT_VERSION))
         (Some (Ownership (Some (unwrap_or (im_owner m) sender)) None None))
         (Some (ContractState None (im_callbacks m))) None (Some (im_options m))
         (Some true) None None (fun _ _ => None) /\
  r = add_message (open_init_msg e (im_options m)) response_default.
Proof.
  intro H. unfold instantiate in H. apply bindo_ok in H as (s1 & H1 & H).
  unfold initialize_owner in H1. destruct (addr_validate a (unwrap_or (im_owner m) sender)) eqn:Ea; [|discriminate].
  split; [reflexivity|]. apply bindo_ok in H as (cb & H2 & H). apply validate_opt_ok in H2 as [-> Hv].
  split; [exact Hv|]. injection H1 as <-.
  split; [|congruence].
  match type of H with Ok (?x, _) = _ => assert (E : s' = x) by congruence end.
  rewrite E. reflexivity.
Qed.

Lemma inst_trans c w rel h t sender raw id ok w' b :
  cfg_ok c -> act c (AInstantiate rel h t sender raw id ok) w = Some (w', b) -> trans c w w' b.
Proof.
  intros Hc H. cbn [act] in H.
  apply obind_some in H as (? & Hg & H). apply guard_some in Hg. apply andb_true_iff in Hg as [Hg Hn].
  unfold env_ok in Hg. apply andb_true_iff in Hg as [Hg Hsender]. apply andb_true_iff in Hg as [Hh Ht].
  apply N.ltb_lt in Hh, Ht.
  apply obind_some in H as (m & Hm & H). apply (from_json_valid _ _ _ jc_instantiate_msg_sound) in Hm.
  apply obind_some in H as ([s r] & HI & H). apply ok_of_some in HI.
  apply obind_some in H as (w2 & HD & H). injection H as <- <-.
  apply instantiate_ok in HI as (Ha & Hv & -> & ->).
  set (e := Env h t (c_self c)) in *.
  assert (He : env_at c e) by (unfold env_at, e; cbn; auto).
  assert (Hs : w_store w = None) by (destruct (w_store w); [discriminate|reflexivity]).
  set (s0 := match rel with Some v => _ | None => _ end) in HD.
  eapply (dispatch_open c e sender _ id ok (im_options m) s0) in HD as (Hr & Hf & Hp & ->);
    [|assumption|reflexivity|now apply jval_inst_options|reflexivity|now destruct rel].
  replace (put_chan id (init_end (im_options m)) (put_store (set_allow_open (Some false) s0)
            (note (LInstantiated e sender m) (put_store s0 w))))
    with (put_chan id (init_end (im_options m)) (put_store
      (CStore (Some (CONTRACT_NAME, unwrap_or rel CONTRACT_VERSION))
                (Some (Ownership (Some (unwrap_or (im_owner m) sender)) None None))
                (Some (ContractState None (im_callbacks m))) None (Some (im_options m))
                (Some false) None None (fun _ _ => None))
            (note (LInstantiated e sender m) (put_store s0 w)))) by (destruct rel; reflexivity).
  apply (T_inst c w e sender m id rel); assumption.
Qed.

Lemma dispatch_call_eq cb m evs w w' b :
  dispatch_call (Response (match cb with Some a => [SubMsg (callback_cosmos_msg m a) None] | None => [] end) evs) w
    = Some (w', b) ->
  b = is_some cb /\
  w' = match cb with
       | Some a => note (LCall a (to_json jc_receiver m)) (note_events evs w)
       | None => note_events evs w end.
Proof.
  unfold dispatch_call. destruct cb as [a|]; cbn [r_msgs r_events]; intro H; inversion H; auto.
Qed.

Lemma note_calls cb m w :
  match cb with
  | Some a => note (LCall a (to_json jc_receiver m)) w
  | None => w end =
  World (w_store w) (w_chans w) (w_nextseq w) (w_nextack w) (w_commit w) (calls cb m (w_log w)).
Proof. destruct cb, w; reflexivity. Qed.

Lemma load_ok {A} (o : option A) x : load o = Ok x -> o = Some x.
Proof. unfold load, of_option. destruct o; congruence. Qed.

Lemma open_ack_trans c w id cp_chan cp_version w' b :
  act c (AOpenAck id cp_chan cp_version) w = Some (w', b) -> trans c w w' b.
Proof.
  intro H. cbn [act] in H.
  apply obind_some in H as (? & Hg & H). apply guard_some in Hg. apply andb_true_iff in Hg as [Hu1 Hu2].
  apply obind_some in H as (ce & Hce & H). apply obind_some in H as (? & Hst & H). apply guard_some in Hst.
  assert (Hi : ce_state ce = CInit) by (destruct (ce_state ce); congruence). clear Hst.
  apply obind_some in H as (s & Hs & H). apply obind_some in H as ([s' r] & HC & H). apply ok_of_some in HC.
  change (ChanEnd COpen (ce_order ce) _ (ce_conn ce) cp_version) with (open_end ce cp_chan cp_version) in *.
  cbn [ibc_channel_connect] in HC. unfold on_open_ack in HC.
  apply bindo_ok in HC as (st & Est & HC). apply load_ok in Est.
  destruct (String.eqb _ _) eqn:Ep; [discriminate|].
  apply bindo_ok in HC as (md & Hmd & HC).
  assert (Hmd' : metadata_from_string cp_version = Some md) by (destruct (metadata_from_string cp_version); cbn in Hmd; congruence).
  apply bindo_ok in HC as ([] & Hv & HC).
  destruct (sempty (md_address md)) eqn:Ea; [discriminate|].
  assert (Hne : md_address md <> "") by (intro E; rewrite E in Ea; discriminate).
  assert (E : (s', r) = (set_channel (Some (ChannelState (channel_of c id (open_end ce cp_chan cp_version)) StOpen))
                (set_state (Some (ContractState (Some (IcaInfo (md_address md) id (md_encoding md)))
                                    (cs_callback st))) s),
     Response (match cs_callback st with Some a => [SubMsg (callback_cosmos_msg
        (CbOpenAck (channel_of c id (open_end ce cp_chan cp_version)) (md_address md) (md_encoding md)) a) None]
        | None => [] end) [])).
  { destruct (cs_callback st); injection HC as <- <-; reflexivity. }
  injection E as -> ->. apply dispatch_call_eq in H as [-> ->].
  cbn [note_events]. rewrite note_calls.
  apply (T_open_ack c w s st ce id cp_chan cp_version md); assumption.
Qed.

Lemma close_confirm_trans c w id w' b :
  act c (ACloseConfirm id) w = Some (w', b) -> trans c w w' b.
Proof.
  intro H. cbn [act] in H.
  apply obind_some in H as (ce & Hce & H). apply obind_some in H as (? & Hst & H). apply guard_some in Hst.
  assert (Hi : ce_state ce <> CClosed) by (destruct (ce_state ce); congruence). clear Hst.
  apply obind_some in H as (s & Hs & H). apply obind_some in H as ([s' r] & HC & H). apply ok_of_some in HC.
  cbn [ibc_channel_close] in HC. unfold on_close_confirm, close_recorded in HC.
  apply bindo_ok in HC as (cs & Hcs & HC). apply load_ok in Hcs.
  destruct (channel_eqb (cst_channel cs) (channel_of c id ce)) eqn:Hch; cbn [negb] in HC; [|discriminate].
  apply channel_eqb_spec in Hch.
  destruct (is_open cs) eqn:Ho; cbn [negb] in HC; [|discriminate]. injection HC as <- <-.
  assert (E : cs = ChannelState (channel_of c id ce) StOpen).
  { destruct cs as [ch st]. cbn in Hch, Ho. subst. destruct st; try discriminate. reflexivity. }
  subst cs. inversion H; subst; clear H.
  apply (T_close_confirm c w s ce id); assumption.
Qed.

Lemma ack_trans c w id n ack relayer w' b :
  act c (AAck id n ack relayer) w = Some (w', b) -> trans c w w' b.
Proof.
  intro H. cbn [act] in H.
  apply obind_some in H as (? & Hg & H). apply guard_some in Hg.
  apply obind_some in H as (ce & Hce & H). apply obind_some in H as (? & Hst & H). apply guard_some in Hst.
  assert (Hi : ce_state ce = COpen) by (destruct (ce_state ce); congruence). clear Hst.
  apply obind_some in H as (p & Hp & H). apply obind_some in H as (? & Hn & H). apply guard_some in Hn.
  assert (Hna : ce_order ce = Ordered -> n = w_nextack w id).
  { intro E. rewrite E in Hn. now apply N.eqb_eq. }
  apply obind_some in H as (s & Hs & H). apply obind_some in H as ([s' r] & HC & H). apply ok_of_some in HC.
  unfold ibc_packet_ack in HC. apply bindo_ok in HC as (d & Hd & HC).
  assert (Hd' : from_json jc_ack ack = Some d) by (destruct (from_json jc_ack ack); cbn in Hd; congruence).
  assert (G : exists st qr ev, st_state s = Some st /\ r = respond (cs_callback st) (CbAck d p relayer qr) ev /\
     match d with
     | AckResult res =>
        s' = set_pending (e_chan (p_src p)) (p_seq p) None s /\ ev = event_success p res /\
        match st_pending s (e_chan (p_src p)) (p_seq p) with
        | None => qr = None
        | Some paths => exists r, decode_resp_last d = Ok r /\
                          qr = Some (result_from_response (c_api c) paths r)
        end
     | AckError err => s' = s /\ ev = event_error p err /\ qr = Some (QRError err)
     end).
  { destruct d as [res|err].
    - unfold ack_success in HC. apply bindo_ok in HC as (qr & Hqr & HC).
      apply bindo_ok in HC as (st & Hst & HC). apply load_ok in Hst. injection HC as <- <-.
      exists st, qr, (event_success p res). split; [exact Hst|]. split; [reflexivity|].
      split; [reflexivity|]. split; [reflexivity|].
      destruct (st_pending s (e_chan (p_src p)) (p_seq p)) as [paths|]; cbn [option_map otranspose] in Hqr; [|congruence].
      destruct (decode_resp_last (AckResult res)) as [rr| |]; cbn [bindo otranspose] in Hqr; try discriminate.
      exists rr. split; [reflexivity|congruence].
    - unfold ack_error in HC. apply bindo_ok in HC as (st & Hst & HC). apply load_ok in Hst. injection HC as <- <-.
      exists st, (Some (QRError err)), (event_error p err). auto 6. }
  destruct G as (st & qr & ev & Hst & -> & G). clear HC.
  assert (E : respond (cs_callback st) (CbAck d p relayer qr) ev = Response
     (match cs_callback st with Some a => [SubMsg (callback_cosmos_msg (CbAck d p relayer qr) a) None] | None => [] end) [ev]).
  { destruct (cs_callback st); reflexivity. }
  rewrite E in H. clear E. apply dispatch_call_eq in H as [-> ->].
  cbn [note_events]. rewrite note_calls.
  set (na := match ce_order ce with Ordered => upd (w_nextack w) id (n + 1) | _ => w_nextack w end).
  replace (w_nextack _) with na by (unfold na; destruct (ce_order ce); reflexivity).
  assert (T := T_ack c w s st ce id n p ack d relayer qr s' na ev Hs Hg Hst Hce Hi Hp Hna Hd' G eq_refl).
  destruct (ce_order ce); exact T.
Qed.

Lemma timeout_trans c w id n relayer w' b :
  act c (ATimeout id n relayer) w = Some (w', b) -> trans c w w' b.
Proof.
  intro H. cbn [act] in H.
  apply obind_some in H as (? & Hg & H). apply guard_some in Hg.
  apply obind_some in H as (ce & Hce & H). apply obind_some in H as (p & Hp & H).
  apply obind_some in H as (s & Hs & H). apply obind_some in H as ([s' r] & HC & H). apply ok_of_some in HC.
  unfold ibc_packet_timeout in HC. apply bindo_ok in HC as (cs & Hcs & HC). apply load_ok in Hcs.
  unfold timeout_callback in HC. apply bindo_ok in HC as (st & Hst & HC). apply load_ok in Hst.
  assert (Hst' : st_state s = Some st) by (destruct (is_ordered cs); exact Hst).
  set (s1 := if is_ordered cs then set_channel (Some (close_cs cs)) s else s) in *.
  assert (E : (s', r) = (set_pending (e_chan (p_src p)) (p_seq p) None s1,
     Response (match cs_callback st with Some a => [SubMsg (callback_cosmos_msg (CbTimeout p relayer) a) None]
        | None => [] end) [])).
  { destruct (cs_callback st); injection HC as <- <-; reflexivity. }
  injection E as -> ->. apply dispatch_call_eq in H as [-> ->].
  cbn [note_events]. rewrite note_calls.
  assert (T := T_timeout c w s st cs ce id n p relayer Hs Hg Hst' Hcs Hce Hp). fold s1 in T.
  unfold closed_end in T.
  destruct (ce_order ce) eqn:Eo; exact T.
Qed.

Theorem act_trans c w a w' b :
  cfg_ok c -> base w -> act c a w = Some (w', b) -> trans c w w' b.
Proof.
  intros Hc Hb H. destruct a.
  - eapply inst_trans; eassumption.
  - eapply exec_trans; eassumption.
  - cbn [act] in H. apply obind_some in H as (s & Hs & H). apply obind_some in H as (? & _ & H).
    apply obind_some in H as ([s' r] & HM & H). apply ok_of_some in HM. injection H as <- <-.
    unfold migrate in HM. apply bindo_ok in HM as ([] & H1 & HM). apply bindo_ok in HM as ([] & H2 & HM).
    injection HM as <- <-. apply (T_migrate c w s); assumption.
  - exfalso. cbn [act] in H. apply obind_some in H as (? & H & _). unfold core_open in H.
    apply obind_some in H as (? & _ & H). apply obind_some in H as (? & _ & H).
    apply obind_some in H as (s & Hs & H). apply obind_some in H as (? & HO & _). apply ok_of_some in HO.
    cbn [ibc_channel_open] in HO. unfold on_open_init in HO.
    destruct Hb as [_ Hb]. destruct (Hb s Hs) as (Hf & _). rewrite Hf in HO. discriminate.
  - exfalso. cbn [act] in H. apply obind_some in H as (s & Hs & H). discriminate.
  - eapply open_ack_trans; eassumption.
  - exfalso. cbn [act] in H. apply obind_some in H as (ce & Hce & H). apply obind_some in H as (s & Hs & H). discriminate.
  - exfalso. cbn [act] in H. apply obind_some in H as (w1 & H & _).
    destruct (w_store w) as [s|] eqn:Hs.
    + assert (Hf := proj1 (core_close_inv c _ w w1 s Hs H)).
      destruct Hb as [_ Hb]. destruct (Hb s Hs) as (_ & Hf' & _). congruence.
    + unfold core_close_init in H. apply obind_some in H as (? & _ & H). rewrite Hs in H. discriminate.
  - eapply close_confirm_trans; eassumption.
  - eapply ack_trans; eassumption.
  - eapply timeout_trans; eassumption.
  - exfalso. cbn [act] in H. apply obind_some in H as (s & Hs & H). discriminate.
Qed.

Lemma trans_base c w w' b : base w -> trans c w w' b -> base w'.
Proof.
  intros [Hn Hb] T. destruct T; split; try exact Hn; cbn [w_store w_nextseq]; intros s0 E;
    try (injection E as <-; destruct (Hb _ H) as (Hf1 & Hf2 & Hq & Ho)).
  - injection E as <-. cbn. repeat split; try reflexivity; now apply jval_inst_options.
  - cbn. repeat split; try reflexivity; try assumption.
    + destruct opts as [o'|]; [subst; now apply jval_create_options in H2 as (? & ? & ?)|].
      rewrite H4 in Ho. apply Ho.
    + destruct opts as [o'|]; [subst; now apply jval_create_options in H2 as (? & ? & ?)|].
      rewrite H4 in Ho. apply Ho.
    + destruct opts as [o'|]; [subst; now apply jval_create_options in H2 as (? & ? & ?)|].
      rewrite H4 in Ho. apply Ho.
  - cbn. auto.
  - revert E. change (1 <= upd (w_nextseq w) id (n + 1) s0). unfold upd.
    destruct (String.eqb id s0); [|apply Hn]. pose proof (Hn id). subst n. lia.
  - destruct qs; subst s'; cbn; auto.
  - cbn. auto.
  - cbn. auto.
  - cbn. auto.
  - cbn. auto.
  - cbn. auto.
  - cbn. auto.
  - destruct d as [res|err]; [destruct H7 as (-> & _)|destruct H7 as (-> & _)]; cbn; auto.
  - destruct (is_ordered cs); cbn; auto.
Qed.

Theorem visited_base c w : cfg_ok c -> visited c w -> base w.
Proof.
  intros Hc. induction 1 as [|w a w' b V IH H].
  - split; [intro; cbn; lia|discriminate].
  - eapply trans_base; [exact IH|]. eapply act_trans; eassumption.
Qed.

(** Worlds between transactions, and inside them, are visited. *)
Lemma runs_visited c (f : tx -> world -> option world) l :
  Forall (fun t => forall w w', visited c w -> f t w = Some w' -> visited c w') l ->
  forall w, visited c w -> visited c (runs f l w).
Proof.
  induction 1 as [|t l Ht Hl IH]; intros w V; [exact V|]. cbn. apply IH.
  destruct (f t w) eqn:E; [eapply Ht; eassumption|exact V].
Qed.

Fixpoint step_visited c (t : tx) {struct t} :
  forall w w', visited c w -> step c t w = Some w' -> visited c w'.
Proof.
  destruct t as [a beh]. intros w w' V H. cbn [step] in H.
  apply obind_some in H as ([w1 called] & HA & H).
  assert (V1 : visited c w1) by (eapply visited_act; eassumption).
  destruct called; [|injection H as <-; exact V1].
  destruct beh as [l|]; [|discriminate]. injection H as <-.
  apply runs_visited; [|exact V1]. clear -step_visited. induction l as [|t l IH]; constructor.
  - exact (step_visited c t).
  - exact IH.
Qed.

Theorem run_visited c l w : visited c w -> visited c (run c l w).
Proof.
  intro V. apply runs_visited; [|exact V]. apply Forall_forall. intros t _. apply step_visited.
Qed.

Theorem history_visited c l : visited c (history c l).
Proof. apply run_visited. constructor. Qed.

(** Induction over the changes. *)
Theorem visited_ind' c (P : world -> Prop) : cfg_ok c ->
  P init_world ->
  (forall w w' b, visited c w -> base w -> P w -> trans c w w' b -> P w') ->
  forall w, visited c w -> P w.
Proof.
  intros Hc H0 HS w V. induction V as [|w a w' b V IH H]; [exact H0|].
  assert (B := visited_base c w Hc V). eapply HS; [exact V|exact B|exact IH|].
  eapply act_trans; eassumption.
Qed.
