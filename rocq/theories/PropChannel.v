(** * PropChannel: the channel life cycle (C03-C05, C08-C15, C17, C18, C46, C53). *)

From Verif Require Import Base Text Utf8 Json JsonCodec Types JsonTypes Store Metadata PacketData Ownable Contract JsonSound HostSpec
  PacketFacts EntryFacts Chain ChainSpec Trans Inv HistorySpec History Queries HistFacts Enabled Witness.
Local Open Scope string_scope.
Local Open Scope list_scope.
Local Open Scope N_scope.

(** ** C03, C04: nobody but the contract can open or close a channel *)

Theorem C03_open_init_rejected : forall c w id o cp_port conn version beh,
  cfg_ok c -> visited c w -> step c (Tx (AOpenInit id o cp_port conn version) beh) w = None.
Proof.
  intros c w id o cp_port conn version beh Hc V. cbn [step act]. unfold core_open.
  destruct (w_store w) as [s|] eqn:Hs; [|destruct (guard _), (guard _); reflexivity].
  destruct (visited_base c w Hc V) as [_ B]. destruct (B s Hs) as (B1 & _).
  cbn [obind ibc_channel_open]. unfold on_open_init. rewrite B1.
  destruct (guard _), (guard _); reflexivity.
Qed.

Theorem C04_close_init_rejected : forall c w id beh,
  cfg_ok c -> visited c w -> step c (Tx (ACloseInit id) beh) w = None.
Proof.
  intros c w id beh Hc V. cbn [step act]. unfold core_close_init.
  destruct (w_chans w id); [|reflexivity]. destruct (w_store w) as [s|] eqn:Hs; [|reflexivity].
  destruct (visited_base c w Hc V) as [_ B]. destruct (B s Hs) as (_ & B2 & _).
  cbn [obind ibc_channel_close]. unfold on_close_init. now rewrite B2.
Qed.

(** Attempts of others to open or close channels, anywhere in a history, make
    no difference. *)
Definition foreign (t : tx) : bool :=
  match t with Tx (AOpenInit _ _ _ _ _) _ | Tx (ACloseInit _) _ => true | _ => false end.
Theorem C03_C04_no_difference : forall c l, cfg_ok c ->
  history c l = history c (filter (fun t => negb (foreign t)) l).
Proof.
  intros c l Hc. unfold history. assert (V := visited_init c). revert V. generalize init_world as w.
  induction l as [|t l IH]; intros w V; [reflexivity|].
  assert (V1 : visited c (run c [t] w)) by now apply run_visited.
  change (run c (t :: l) w) with (run c l (run c [t] w)). cbn [filter].
  destruct (foreign t) eqn:E; cbn [negb].
  - assert (Es : step c t w = None).
    { destruct t as [a beh]. destruct a; try discriminate E;
        [now apply C03_open_init_rejected|now apply C04_close_init_rejected]. }
    unfold run at 2. cbn [runs]. rewrite Es. apply IH; exact V.
  - rewrite IH by exact V1. reflexivity.
Qed.

Example C03_case : exists w, visited cfg0 w /\ (exists ch, channel_reported w ch StClosed) /\
  step cfg0 (Tx (AOpenInit "channel-9" Ordered "icahost" "connection-0" (host_version "")) None) w = None /\
  step cfg0 (exec "owner" (XCreateChannel None) "channel-9") w <> None.
Proof.
  exists (world_of (ordered_open ++ [exec "owner" XCloseChannel ""])). split; [apply world_visited|].
  split; [eexists; apply channel_reported_by; vm_compute; reflexivity|].
  split; vm_compute; [reflexivity|discriminate].
Qed.
Example C04_case : exists w ch, visited cfg0 w /\ channel_reported w ch StOpen /\
  step cfg0 (Tx (ACloseInit (e_chan (ch_endpoint ch))) None) w = None /\
  step cfg0 (exec "owner" XCloseChannel "") w <> None.
Proof.
  exists (world_of ordered_open). eexists. split; [apply world_visited|].
  split; [apply channel_reported_by; vm_compute; reflexivity|].
  split; vm_compute; [reflexivity|discriminate].
Qed.

(** ** C05: one request, one handshake *)

(** Instantiate and CreateChannel request a channel. *)
Definition requests_channel (a : action) : bool :=
  match a with
  | AInstantiate _ _ _ _ _ _ _ => true
  | AExecute _ _ _ raw _ _ => match from_json jc_execute_msg raw with Some (XCreateChannel _) => true | _ => false end
  | _ => false
  end.
Definition request_item (i : logitem) : bool :=
  match i with LInstantiated _ _ _ | LExecuted _ _ (XCreateChannel _) => true | _ => false end.

Lemma request_log c a w w' b : act c a w = Some (w', b) ->
  exists new, w_log w' = new ++ w_log w /\ requests_channel a = existsb request_item new.
Proof.
  intro H. destruct (act_log c a w w' b H) as (pre & E & F). exists (pre ++ call_item c a).
  split; [now rewrite <- app_assoc|]. rewrite existsb_app.
  assert (Ep : existsb request_item pre = false).
  { clear E. induction F as [|i l Hi _ IH]; [reflexivity|]. cbn [existsb]. rewrite IH. destruct i; try contradiction; reflexivity. }
  rewrite Ep. cbn [orb]. destruct a; try reflexivity.
  - cbn [act] in H. apply obind_some in H as (? & _ & H). apply obind_some in H as (m & Hm & _).
    cbn [call_item requests_channel]. now rewrite Hm.
  - cbn [act] in H. apply obind_some in H as (? & _ & H). apply obind_some in H as (? & _ & H).
    apply obind_some in H as (m & Hm & _). cbn [call_item requests_channel]. rewrite Hm. destruct m; reflexivity.
Qed.

(** A successful action that requests a channel creates exactly one, in INIT;
    any other leaves the set of channels, and the channels in INIT, as they were
    (apart from those it completes). *)
Theorem C05_one_request_one_handshake : forall c w a w' b,
  cfg_ok c -> visited c w -> act c a w = Some (w', b) ->
  if requests_channel a then
    exists id ce, w_chans w id = None /\ w_chans w' id = Some ce /\ ce_state ce = CInit /\
      forall id', id' <> id -> w_chans w' id' = w_chans w id'
  else
    (forall id, w_chans w' id = None <-> w_chans w id = None) /\
    (forall id ce, w_chans w' id = Some ce -> ce_state ce = CInit -> w_chans w id = Some ce).
Proof.
  intros c w a w' b Hc V H. destruct (request_log _ _ _ _ _ H) as (new & El & ->).
  pose proof (act_trans c w a w' b Hc (visited_base c w Hc V) H) as T.
  assert (Hkeep : forall id0 ce0 ce1, w_chans w id0 = Some ce0 -> ce_state ce1 <> CInit ->
    (forall id, upd (w_chans w) id0 (Some ce1) id = None <-> w_chans w id = None) /\
    (forall id ce, upd (w_chans w) id0 (Some ce1) id = Some ce -> ce_state ce = CInit -> w_chans w id = Some ce)).
  { intros id0 ce0 ce1 H0 H1. split.
    - intro id. unfold upd. destruct (String.eqb_spec id0 id) as [<-|]; [|tauto]. split; intro E; congruence.
    - intros id ce. unfold upd. destruct (String.eqb_spec id0 id) as [<-|]; [|auto]. intros E Ei. congruence. }
  assert (Hnew : forall l, w_log w' = l ++ w_log w -> new = l).
  { intros l E2. rewrite E2 in El. apply app_inv_tail in El. congruence. }
  assert (Hcalls : forall cb m l, existsb request_item (calls cb m l) = existsb request_item l).
  { intros [x|] m l; reflexivity. }
  assert (Happ : forall cb m l1 l2, calls cb m (l1 ++ l2) = calls cb m l1 ++ l2).
  { intros [x|] m l1 l2; reflexivity. }
  destruct T; cbn [w_log w_chans] in *.
  - rewrite (Hnew [_; _] eq_refl). cbn. exists id, (init_end (im_options m)).
    match goal with F : fresh_id _ _ |- _ => destruct F as (F1 & _) end.
    split; [exact F1|]. split; [apply upd_same|]. split; [reflexivity|]. intros id1 Hne. apply upd_other. congruence.
  - rewrite (Hnew [_; _] eq_refl). cbn. exists id, (init_end o).
    match goal with F : fresh_id _ _ |- _ => destruct F as (F1 & _) end.
    split; [exact F1|]. split; [apply upd_same|]. split; [reflexivity|]. intros id1 Hne. apply upd_other. congruence.
  - rewrite (Hnew [_; _] eq_refl). cbn. eapply Hkeep; [eassumption|discriminate].
  - rewrite (Hnew [_; _] eq_refl). cbn. split; [tauto|auto].
  - rewrite (Hnew [_] eq_refl). cbn. split; [tauto|auto].
  - rewrite (Hnew [_] eq_refl). cbn. split; [tauto|auto].
  - rewrite (Hnew [_] eq_refl). cbn. split; [tauto|auto].
  - rewrite (Hnew [_] eq_refl). cbn. split; [tauto|auto].
  - rewrite (Hnew _ (Happ _ _ [_] _)), Hcalls. cbn. eapply Hkeep; [eassumption|discriminate].
  - rewrite (Hnew [_] eq_refl). cbn. eapply Hkeep; [eassumption|discriminate].
  - rewrite (Hnew _ (Happ _ _ [_; _] _)), Hcalls. cbn. split; [tauto|auto].
  - rewrite (Hnew _ (Happ _ _ [_] _)), Hcalls. cbn.
    destruct (ce_order ce); [eapply Hkeep; [eassumption|discriminate]|split; [tauto|auto]].
Qed.

(** Over a whole history: as many channels as requests. *)
Theorem C05_counts : forall c w, cfg_ok c -> visited c w ->
  channels_created (w_log w) = open_requests (w_log w).
Proof.
  intros c w Hc V. pose proof (visited_hist c w Hc V) as H. induction H as [|l new Hl IH B]; [reflexivity|].
  destruct B as [B|B]; destruct B;
    repeat match goal with H : callback _ _ _ |- _ => apply callback_quiet in H as [->|(? & ? & ->)] end;
    cbn [app channels_created open_requests]; auto.
Qed.
Example C05_case : exists w w', visited cfg0 w /\ later cfg0 w w' /\
  channels_created (w_log w) = 1%nat /\ channels_created (w_log w') = 2%nat.
Proof.
  exists (world_of ordered_open), (run cfg0 [exec "owner" XCloseChannel ""; exec "owner" (XCreateChannel None) "channel-1"] (world_of ordered_open)).
  split; [apply world_visited|]. split; [apply run_later|]. split; vm_compute; reflexivity.
Qed.

(** ** C53: permanent closure *)

(** The claim: a channel that was closed stays closed until the owner asks for a
    new one.  It fails if the owner asked for two channels before the first one
    opened: the second handshake can be completed after the first channel was
    closed. *)
Definition stale_handshake : list tx :=
  [inst None (Some "cb"); exec "owner" (XCreateChannel None) "channel-1"; open_ack "channel-0" "channel-7" "cosmos1acc";
   exec "owner" XCloseChannel ""].
Theorem C53_permanent_closure_refuted : exists c w w' ch ch',
  cfg_ok c /\ visited c w /\ later c w w' /\ channel_reported w ch StClosed /\
  open_requests (w_log w') = open_requests (w_log w) /\ channel_reported w' ch' StOpen.
Proof.
  exists cfg0, (world_of stale_handshake),
    (run cfg0 [open_ack "channel-1" "channel-8" "cosmos1acc"] (world_of stale_handshake)). eexists _, _.
  split; [apply cfg0_ok|]. split; [apply world_visited|]. split; [apply run_later|].
  split; [apply channel_reported_by; vm_compute; reflexivity|].
  split; [vm_compute; reflexivity|]. apply channel_reported_by. vm_compute. reflexivity.
Qed.

Definition no_handshake (w : world) : Prop := forall id ce, w_chans w id = Some ce -> ce_state ce <> CInit.

Lemma closed_step c w w' b ch : trans c w w' b -> no_handshake w -> recorded (w_log w) = Some (ch, false) ->
  open_requests (w_log w') = open_requests (w_log w) ->
  recorded (w_log w') = Some (ch, false) /\ no_handshake w' /\
  (forall id ce, w_chans w' id = Some ce -> ce_state ce = COpen -> w_chans w id = Some ce).
Proof.
  intros T Hn Hr Ho.
  assert (Hcl : forall id0 ce0, w_chans w id0 = Some ce0 ->
    (forall id ce, upd (w_chans w) id0 (Some (closed_end ce0)) id = Some ce -> ce_state ce <> CInit) /\
    (forall id ce, upd (w_chans w) id0 (Some (closed_end ce0)) id = Some ce -> ce_state ce = COpen -> w_chans w id = Some ce)).
  { intros id0 ce0 H0. split; intros id ce; unfold upd; destruct (String.eqb_spec id0 id) as [<-|]; auto.
    - intro E. injection E as <-. discriminate.
    - apply Hn.
    - intro E. injection E as <-. discriminate. }
  unfold no_handshake.
  destruct T; cbn [w_log w_chans open_requests] in *;
    rewrite ?(log_calls recorded), ?(log_calls open_requests) in * by reflexivity;
    cbn [recorded open_requests] in *; try lia; rewrite ?Hr;
    try (split; [reflexivity|split; [exact Hn|auto]]).
  - match goal with H : w_chans w id = Some ce |- _ => destruct (Hcl id ce H) as [C1 C2] end.
    split; [destruct (on_chan id ch); reflexivity|]. split; assumption.
  - match goal with H : w_chans w id = Some ce |- _ => elim (Hn id ce H); assumption end.
  - match goal with H : w_chans w id = Some ce |- _ => destruct (Hcl id ce H) as [C1 C2] end.
    split; [destruct (on_chan id ch); reflexivity|]. split; assumption.
  - match goal with H : w_chans w id = Some ce |- _ => destruct (Hcl id ce H) as [C1 C2] end.
    split; [destruct (order_eqb _ _); reflexivity|]. destruct (ce_order ce); [split; assumption|split; [exact Hn|auto]].
Qed.

Lemma requests_grow c w w' b : trans c w w' b -> (open_requests (w_log w) <= open_requests (w_log w'))%nat.
Proof.
  intros T. destruct T; repeat match goal with x := _ |- _ => subst x end; cbn [w_log]; rewrite ?(log_calls open_requests) by reflexivity; cbn [open_requests]; lia.
Qed.
Lemma later_grow c w w' : cfg_ok c -> visited c w -> later c w w' ->
  (open_requests (w_log w) <= open_requests (w_log w'))%nat.
Proof.
  intros Hc V L. induction L as [|w1 a w2 b L IH H]; [lia|].
  pose proof (act_trans c w1 a w2 b Hc (visited_base c w1 Hc (later_visited _ _ _ V L)) H) as T.
  apply requests_grow in T. lia.
Qed.

(** If no handshake is under way, a closed channel stays closed, and no channel
    opens on the chain, whatever anybody does, as long as no new channel is
    requested. *)
Theorem C53_permanent_closure_partial : forall c w w' ch,
  cfg_ok c -> visited c w -> later c w w' ->
  channel_reported w ch StClosed -> no_handshake w ->
  open_requests (w_log w') = open_requests (w_log w) ->
  channel_reported w' ch StClosed /\
  (forall id ce, w_chans w' id = Some ce -> ce_state ce = COpen -> w_chans w id = Some ce).
Proof.
  intros c w w' ch Hc V L Hch Hn Ho.
  destruct (channel_reported_log c w ch StClosed Hc V Hch) as (_ & [|] & Hr & Hb); [discriminate|].
  assert (G : recorded (w_log w') = Some (ch, false) /\ no_handshake w' /\
    (forall id ce, w_chans w' id = Some ce -> ce_state ce = COpen -> w_chans w id = Some ce)).
  { revert Ho. induction L as [|w1 a w2 b L IH H]; intro Ho; [auto|].
    pose proof (act_trans c w1 a w2 b Hc (visited_base c w1 Hc (later_visited _ _ _ V L)) H) as T.
    pose proof (requests_grow _ _ _ _ T). pose proof (later_grow c w w1 Hc V L).
    destruct IH as (I1 & I2 & I3); [lia|].
    destruct (closed_step _ _ _ _ _ T I2 I1) as (J1 & J2 & J3); [lia|]. auto. }
  destruct G as (G1 & _ & G3). split; [|exact G3].
  apply (recorded_reported c w' ch false Hc (later_visited _ _ _ V L) G1).
Qed.
Definition created (l : list logitem) : list string :=
  flat_map (fun i => match i with LChanInit id => [id] | _ => [] end) l.
Lemma no_handshake_by c w : cfg_ok c -> visited c w ->
  forallb (fun id => is_some (opened (w_log w) id)) (created (w_log w)) = true -> no_handshake w.
Proof.
  intros Hc V H id ce Hce Hi. pose proof (ic_chan _ _ (inv_chans _ _ (visited_inv c w Hc V)) id) as C.
  rewrite Hce, Hi in C. destruct C as ((o & Hr & _) & _ & _ & _ & _ & Ho).
  assert (Hin : In id (created (w_log w))).
  { clear -Hr. induction (w_log w) as [|i l IH]; [discriminate|].
    destruct i; cbn [requested created flat_map app] in *; auto. cbn.
    destruct (String.eqb_spec id0 id); auto. }
  rewrite forallb_forall in H. specialize (H id Hin). rewrite Ho in H. discriminate.
Qed.
Example C53_case : exists w w' ch, visited cfg0 w /\ later cfg0 w w' /\ channel_reported w ch StClosed /\
  no_handshake w /\ open_requests (w_log w') = open_requests (w_log w) /\ w_log w' <> w_log w.
Proof.
  exists (world_of (ordered_open ++ [exec "owner" (send0 [bank0] []) ""; exec "owner" XCloseChannel ""])),
   (run cfg0 [timed_out "channel-0" 1] (world_of (ordered_open ++ [exec "owner" (send0 [bank0] []) ""; exec "owner" XCloseChannel ""]))).
  eexists. split; [apply world_visited|]. split; [apply run_later|].
  split; [apply channel_reported_by; vm_compute; reflexivity|].
  split; [apply (no_handshake_by cfg0 _ cfg0_ok (world_visited _)); vm_compute; reflexivity|].
  split; [vm_compute; reflexivity|]. vm_compute. discriminate.
Qed.

(** ** C08: the options of a new channel *)

(** The new channel is the one described by the given options or, if none are
    given, by those given last. *)
Definition describes (o : open_options) (ce : chan_end) : Prop :=
  ce_order ce = unwrap_or (oo_ordering o) Ordered /\ ce_conn ce = oo_connection o /\
  ce_cp ce = Endpoint (unwrap_or (oo_cp_port o) "icahost") "" /\
  from_json jc_metadata (ce_version ce) =
    Some (Metadata "ics27-1" (oo_connection o) (oo_cp_connection o) "" Protobuf "sdk_multi_msg").

Lemma init_describes o : utf8_options o -> unwrap_or (oo_cp_port o) "icahost" = "icahost" -> describes o (init_end o).
Proof.
  intros Hu Hp. split; [reflexivity|]. split; [reflexivity|]. split; [now rewrite Hp|].
  apply metadata_roundtrip, fresh_jval; apply Hu.
Qed.

Theorem C08_create_uses_last_options : forall c w h t sender raw id ok opts w' b,
  cfg_ok c -> visited c w -> from_json jc_execute_msg raw = Some (XCreateChannel opts) ->
  act c (AExecute h t sender raw id ok) w = Some (w', b) ->
  exists o ce, match opts with Some o' => o = o' | None => options_of (w_log w) = Some o end /\
    w_chans w id = None /\ w_chans w' id = Some ce /\ ce_state ce = CInit /\ describes o ce.
Proof.
  intros c w h t sender raw id ok opts w' b Hc V Hm H.
  destruct (create_id _ _ _ _ _ _ _ _ _ _ _ Hc V H Hm) as (o & Ho & Hu & Hp & _ & F & E).
  exists o, (init_end o). split; [destruct opts; cbn in Ho; congruence|].
  split; [exact F|]. split; [exact E|]. split; [reflexivity|now apply init_describes].
Qed.
Theorem C08_instantiate_uses_options : forall c w rel h t sender raw id ok w' b,
  cfg_ok c -> visited c w -> act c (AInstantiate rel h t sender raw id ok) w = Some (w', b) ->
  exists m ce, from_json jc_instantiate_msg raw = Some m /\
    w_chans w' id = Some ce /\ ce_state ce = CInit /\ describes (im_options m) ce.
Proof.
  intros c w rel h t sender raw id ok w' b Hc V H.
  assert (V' : visited c w') by (eapply visited_act; eassumption).
  destruct (inst_id _ _ _ _ _ _ _ _ _ _ _ Hc H) as (m & Hm & El & Ece). exists m, (init_end (im_options m)).
  split; [exact Hm|]. split; [exact Ece|]. split; [reflexivity|].
  assert (J : jval jc_instantiate_msg m) by (eapply from_json_valid; [apply jc_instantiate_msg_sound|exact Hm]).
  apply init_describes; [now apply jval_inst_options|].
  destruct (act_block_call _ _ _ _ _ Hc V H) as (pre & F & B & El'). cbn [call_item] in *. rewrite Hm in *.
  block_cases B; injection E as E1 E2 E3; subst. assumption.
Qed.
Example C08_case : exists ce, w_chans (world_of
    [inst (Some Unordered) None; exec "owner" (XCreateChannel (Some (OpenOptions "connection-3" "connection-4" None None))) "channel-1";
     open_ack "channel-0" "channel-7" "cosmos1acc"; exec "owner" XCloseChannel "";
     exec "owner" (XCreateChannel None) "channel-2"]) "channel-2" = Some ce /\
  ce_conn ce = "connection-3" /\ ce_order ce = Ordered.
Proof. eexists. split; [vm_compute; reflexivity|]. split; reflexivity. Qed.

(** ** C09: the open acknowledgement *)

(** In any store: success exactly for an agreed version on a port other than
    icahost; then exactly the account, the channel and one callback. *)
Theorem C09_open_ack_any_store : forall c s ch v,
  ((exists s' r, ibc_channel_connect (c_api c) s (MOpenAck ch v) = Ok (s', r)) <->
   st_state s <> None /\ e_port (ch_endpoint ch) <> "icahost" /\
   exists md, from_json jc_metadata v = Some md /\ agreed_version c (ch_connection ch) md) /\
  forall s' r, ibc_channel_connect (c_api c) s (MOpenAck ch v) = Ok (s', r) ->
    exists st md, st_state s = Some st /\ from_json jc_metadata v = Some md /\
    let ch' := Channel (ch_endpoint ch) (ch_counterparty ch) (ch_order ch) v (ch_connection ch) in
    st_state s' = Some (ContractState (Some (IcaInfo (md_address md) (e_chan (ch_endpoint ch)) Protobuf)) (cs_callback st)) /\
    st_channel s' = Some (ChannelState ch' StOpen) /\
    st_version s' = st_version s /\ st_owner s' = st_owner s /\ st_options s' = st_options s /\
    st_allow_open s' = st_allow_open s /\ st_allow_close s' = st_allow_close s /\ st_query s' = st_query s /\
    (forall id n, st_pending s' id n = st_pending s id n) /\
    r_events r = [] /\
    r_msgs r = match cs_callback st with
      | Some cb => [SubMsg (MWasm (WasmExecute cb (to_json jc_receiver (CbOpenAck ch' (md_address md) Protobuf)) [])) None]
      | None => []
      end.
Proof.
  intros c s ch v.
  assert (D : forall s' r, ibc_channel_connect (c_api c) s (MOpenAck ch v) = Ok (s', r) ->
    exists st md, st_state s = Some st /\ e_port (ch_endpoint ch) <> "icahost" /\ from_json jc_metadata v = Some md /\
      agreed_version c (ch_connection ch) md /\
      s' = set_channel (Some (ChannelState (Channel (ch_endpoint ch) (ch_counterparty ch) (ch_order ch) v (ch_connection ch)) StOpen))
             (set_state (Some (ContractState (Some (IcaInfo (md_address md) (e_chan (ch_endpoint ch)) Protobuf)) (cs_callback st))) s) /\
      r = match cs_callback st with
          | Some cb => add_message (callback_cosmos_msg (CbOpenAck (Channel (ch_endpoint ch) (ch_counterparty ch) (ch_order ch) v (ch_connection ch)) (md_address md) Protobuf) cb) response_default
          | None => response_default end).
  { intros s' r H. cbn [ibc_channel_connect] in H. unfold on_open_ack in H.
    apply bindo_ok in H as (st & Hst & H). apply load_ok in Hst.
    destruct (String.eqb_spec (e_port (ch_endpoint ch)) HOST_PORT_ID) as [|Hp]; [discriminate|].
    apply bindo_ok in H as (md & Hmd & H). unfold metadata_from_string in Hmd.
    destruct (from_json jc_metadata v) as [md'|] eqn:Ev; [|discriminate]. injection Hmd as ->.
    apply bindo_ok in H as ([] & Hv & H). destruct (sempty (md_address md)) eqn:Es; [discriminate|].
    assert (Ha : agreed_version c (ch_connection ch) md).
    { apply agreed; [exact Hv|]. intro E. rewrite E in Es. discriminate. }
    assert (Ee : md_encoding md = Protobuf) by apply Ha. rewrite Ee in H.
    exists st, md. split; [exact Hst|]. split; [exact Hp|]. split; [reflexivity|]. split; [exact Ha|].
    destruct (cs_callback st); injection H as <- <-; auto. }
  split.
  - split.
    + intros (s' & r & H). destruct (D s' r H) as (st & md & D1 & D2 & D3 & D4 & _).
      split; [congruence|]. split; [exact D2|]. eauto.
    + intros (H1 & H2 & md & H3 & H4). cbn [ibc_channel_connect]. unfold on_open_ack.
      destruct (st_state s) as [st|]; [|congruence]. cbn [load of_option bindo].
      apply String.eqb_neq in H2. change HOST_PORT_ID with "icahost". rewrite H2. unfold metadata_from_string.
      rewrite H3. cbn [of_option bindo]. rewrite (validate_agreed c md ch H4). cbn [bindo].
      assert (Hs : sempty (md_address md) = false) by (destruct H4 as (_ & _ & _ & _ & H4 & _); destruct (md_address md); [congruence|reflexivity]).
      rewrite Hs. destruct (cs_callback st); eauto.
  - intros s' r H. destruct (D s' r H) as (st & md & D1 & D2 & D3 & D4 & -> & ->). exists st, md.
    split; [exact D1|]. split; [exact D3|]. cbv zeta. cbn. destruct (cs_callback st); repeat split.
Qed.

(** On the chain: the handshake of a requested channel can be completed, once,
    exactly with an agreed version. *)
Theorem C09_open_ack : forall c w id cp_chan v,
  cfg_ok c -> visited c w ->
  ((exists w' b, act c (AOpenAck id cp_chan v) w = Some (w', b)) <->
   utf8 cp_chan /\ utf8 v /\ exists o md, requested (w_log w) id = Some o /\ opened (w_log w) id = None /\
     from_json jc_metadata v = Some md /\ agreed_version c (oo_connection o) md) /\
  forall w' b, act c (AOpenAck id cp_chan v) w = Some (w', b) ->
    exists o md, requested (w_log w) id = Some o /\ from_json jc_metadata v = Some md /\
      state_reported w' (ContractState (Some (IcaInfo (md_address md) id Protobuf)) (callback_of (w_log w))) /\
      channel_reported w' (Channel (Endpoint (own_port c) id) (Endpoint "icahost" cp_chan)
        (unwrap_or (oo_ordering o) Ordered) v (oo_connection o)) StOpen.
Proof.
  intros c w id cp_chan v Hc V.
  assert (D : forall w' b, act c (AOpenAck id cp_chan v) w = Some (w', b) ->
    utf8 cp_chan /\ utf8 v /\ exists o md, requested (w_log w) id = Some o /\ opened (w_log w) id = None /\
     from_json jc_metadata v = Some md /\ agreed_version c (oo_connection o) md).
  { intros w' b H. cbn [act] in H. apply obind_some in H as (? & Hg & H). apply guard_some in Hg.
    apply andb_prop in Hg as [G1 G2]. split; [exact G1|]. split; [exact G2|].
    apply obind_some in H as (ce & Hce & H). apply obind_some in H as (? & Hi & H). apply guard_some in Hi.
    apply obind_some in H as (s & Hs & H). apply obind_some in H as ([s' r] & HA & _). apply ok_of_some in HA.
    destruct (ce_state ce) eqn:Ei; try discriminate.
    pose proof (ic_chan _ _ (inv_chans _ _ (visited_inv c w Hc V)) id) as C. rewrite Hce, Ei in C.
    destruct C as ((o & C1 & C2 & C3 & C4 & C5 & C6) & C7 & C8 & C9 & C10 & C11).
    destruct (proj1 (proj1 (C09_open_ack_any_store c s _ v)) (ex_intro _ s' (ex_intro _ r HA))) as (_ & _ & md & M1 & M2).
    cbn in M2. exists o, md. rewrite <- C3. auto. }
  split.
  - split.
    + intros (w' & b & H). exact (D w' b H).
    + intros (H1 & H2 & o & md & H3 & H4 & H5 & H6).
      destruct (act_open_ack c w id cp_chan v o md) as (w' & b & _ & _ & E & _); eauto.
  - intros w' b H. destruct (D w' b H) as (H1 & H2 & o & md & H3 & H4 & H5 & H6). exists o, md.
    split; [exact H3|]. split; [exact H5|].
    destruct (act_open_ack c w id cp_chan v o md) as (w2 & b2 & i & ch & E & Ech & El & _ & [_ Ei] & _); try assumption.
    rewrite E in H. injection H as -> ->.
    assert (V' : visited c w') by (eapply visited_act; eassumption).
    assert (Hl : w_log w' <> []) by (rewrite El; destruct i; discriminate).
    assert (Hlast : last_opened (w_log w') = Some ch /\ recorded (w_log w') = Some (ch, true) /\ callback_of (w_log w') = callback_of (w_log w)).
    { rewrite El, Ei. destruct (callback_of (w_log w)) eqn:Ecb; cbn; auto. }
    destruct Hlast as (L1 & L2 & L3). split.
    + pose proof (ask_state c w' Hc V' Hl) as Q. unfold account_of in Q. rewrite L1, L3 in Q. rewrite Ech in Q at 1.
      cbn [ch_version] in Q. rewrite H5 in Q. rewrite Ech in Q. exact Q.
    + rewrite <- Ech. apply (recorded_reported c w' ch true Hc V' L2).
Qed.
Example C09_case : exists w, visited cfg0 w /\
  act cfg0 (AOpenAck "channel-0" "channel-7" (host_version "cosmos1acc")) w <> None /\
  act cfg0 (AOpenAck "channel-0" "channel-7" (host_version "")) w = None /\
  act cfg0 (AOpenAck "channel-0" "channel-7" (host_version "cosmos1/acc")) w = None /\
  act cfg0 (AOpenAck "channel-1" "channel-7" (host_version "cosmos1acc")) w = None.
Proof.
  exists (world_of [inst None None]). split; [apply world_visited|].
  repeat split; vm_compute; try reflexivity; discriminate.
Qed.

(** ** C10: the handshake completes with a conforming host *)

(** The host answers with the proposed metadata, with an account address put in
    (as JSON, in any layout). *)
Theorem C10_handshake_completes : forall c w id ce md0 cp_chan v addr l,
  cfg_ok c -> visited c w -> w_chans w id = Some ce -> ce_state ce = CInit ->
  from_json jc_metadata (ce_version ce) = Some md0 ->
  utf8 cp_chan -> utf8 v -> account_address c addr ->
  from_json jc_metadata v = Some (Metadata (md_version md0) (md_controller md0) (md_host md0) addr
                                    (md_encoding md0) (md_tx_type md0)) ->
  exists w' b, act c (AOpenAck id cp_chan v) w = Some (w', b) /\
    step c (Tx (AOpenAck id cp_chan v) (Some l)) w = Some (if b then run c l w' else w') /\
    state_reported w' (ContractState (Some (IcaInfo addr id Protobuf)) (callback_of (w_log w))) /\
    channel_reported w' (Channel (Endpoint (own_port c) id) (Endpoint "icahost" cp_chan) (ce_order ce) v (ce_conn ce)) StOpen /\
    exists ce', w_chans w' id = Some ce' /\ ce_state ce' = COpen.
Proof.
  intros c w id ce md0 cp_chan v addr l Hc V Hce Hi Hmd0 Hu1 Hu2 Ha Hv.
  pose proof (ic_chan _ _ (inv_chans _ _ (visited_inv c w Hc V)) id) as C. rewrite Hce, Hi in C.
  destruct C as ((o & C1 & C2 & C3 & C4 & C5 & C6) & C7 & C8 & C9 & C10 & C11).
  rewrite (C6 eq_refl) in Hmd0. cbn [init_end ce_version] in Hmd0.
  rewrite metadata_roundtrip in Hmd0 by (apply fresh_jval; apply C5). injection Hmd0 as <-.
  unfold fresh_metadata in Hv. cbn [md_version md_controller md_host md_encoding md_tx_type] in Hv.
  assert (Hag : agreed_version c (oo_connection o) (Metadata "ics27-1" (oo_connection o) (oo_cp_connection o) addr Protobuf "sdk_multi_msg")).
  { repeat split; auto; apply Ha. }
  destruct (act_open_ack c w id cp_chan v o _ Hc V Hu1 Hu2 C1 C11 Hv Hag) as (w' & b & i & ch & E & _ & _ & _ & _ & ce' & E1 & E2 & _).
  exists w', b. split; [exact E|].
  destruct (proj2 (C09_open_ack c w id cp_chan v Hc V) w' b E) as (o' & md' & R1 & R2 & R3 & R4).
  rewrite C1 in R1. injection R1 as <-. rewrite Hv in R2. injection R2 as <-. cbn [md_address] in R3.
  split. { cbn [step]. rewrite E. cbn [obind]. destruct b; reflexivity. }
  split; [exact R3|]. rewrite C2, C3. split; [exact R4|]. eauto.
Qed.
Example C10_case : exists w ce, visited cfg0 w /\ w_chans w "channel-0" = Some ce /\ ce_state ce = CInit /\
  from_json jc_metadata (ce_version ce) = Some (Metadata "ics27-1" "connection-0" "connection-1" "" Protobuf "sdk_multi_msg").
Proof.
  exists (world_of [inst None None]). eexists. split; [apply world_visited|].
  split; [vm_compute; reflexivity|]. split; [reflexivity| vm_compute; reflexivity].
Qed.

(** ** C11: GetContractState and GetChannel agree *)

Theorem C11_queries_agree : forall c w,
  cfg_ok c -> visited c w -> w_store w <> None ->
  exists st, state_reported w st /\
    match cs_ica st with
    | None => ask w get_channel = None
    | Some info => exists ch status md,
        channel_reported w ch status /\ (status = StOpen \/ status = StClosed) /\
        e_chan (ch_endpoint ch) = ii_channel info /\ ii_encoding info = Protobuf /\
        from_json jc_metadata (ch_version ch) = Some md /\ md_address md = ii_address info /\
        account_address c (ii_address info)
    end.
Proof.
  intros c w Hc V Hs. assert (Hl : w_log w <> []) by (intro E; apply Hs; now apply (store_log c w Hc V)).
  eexists. split; [apply (ask_state c w Hc V Hl)|]. cbn [cs_ica]. unfold account_of.
  pose proof (recorded_last (w_log w)) as L. pose proof (ask_channel c w Hc V Hl) as Q.
  destruct (recorded (w_log w)) as [[ch b]|]; rewrite L; [|exact Q].
  destruct (last_opened_end c w ch Hc V L) as (ce & md & E1 & E2 & E3 & E4 & E5 & E6). rewrite E3.
  exists ch, (if b then StOpen else StClosed), md. cbn.
  split; [exact Q|]. split; [destruct b; auto|]. repeat split; auto; apply E4.
Qed.
Example C11_case : exists info, state_reported (world_of ordered_open) (ContractState (Some info) (Some "cb")) /\
  ii_address info = "cosmos1acc".
Proof. eexists. split; [apply state_reported_by; vm_compute; reflexivity|reflexivity]. Qed.

(** ** C12: no new handshake while a channel is recorded open *)

Theorem C12_no_create_while_open : forall c w ch h t sender raw id ok opts beh,
  cfg_ok c -> visited c w -> channel_reported w ch StOpen ->
  from_json jc_execute_msg raw = Some (XCreateChannel opts) ->
  step c (Tx (AExecute h t sender raw id ok) beh) w = None.
Proof.
  intros c w ch h t sender raw id ok opts beh Hc V Hch Hm. cbn [step].
  destruct (act c _ w) as [[w' b]|] eqn:H; [exfalso|reflexivity].
  destruct (channel_reported_log c w ch StOpen Hc V Hch) as (_ & [|] & Hr & Hb); [|discriminate].
  destruct (act_block_call _ _ _ _ _ Hc V H) as (pre & F & B & El). cbn [call_item] in *. rewrite Hm in *.
  block_cases B; injection E as E1 E2 E3; subst.
  match goal with K : recorded_open_in _ = false |- _ => unfold recorded_open_in in K; rewrite Hr in K; discriminate end.
Qed.
Example C12_case : (exists ch, channel_reported (world_of ordered_open) ch StOpen) /\
  step cfg0 (exec "owner" (XCreateChannel None) "channel-9") (world_of ordered_open) = None.
Proof. split; [eexists; apply channel_reported_by; vm_compute; reflexivity| vm_compute; reflexivity]. Qed.

(** ** C13: an open acknowledgement never replaces an open channel *)

(** It does, if the owner asked for a second channel before the first opened. *)
Definition two_handshakes : list tx :=
  [inst None (Some "cb"); exec "owner" (XCreateChannel None) "channel-1"; open_ack "channel-0" "channel-7" "cosmos1acc"].
Theorem C13_never_replaces_refuted : exists c w id cp v w' b ch ch' ce ce',
  cfg_ok c /\ visited c w /\ act c (AOpenAck id cp v) w = Some (w', b) /\
  channel_reported w ch StOpen /\ channel_reported w' ch' StOpen /\
  e_chan (ch_endpoint ch) <> e_chan (ch_endpoint ch') /\
  (* both are open on the chain, but the contract no longer knows the first *)
  w_chans w' (e_chan (ch_endpoint ch)) = Some ce /\ ce_state ce = COpen /\
  w_chans w' (e_chan (ch_endpoint ch')) = Some ce' /\ ce_state ce' = COpen.
Proof.
  exists cfg0, (world_of two_handshakes), "channel-1", "channel-8", (host_version "cosmos1acc").
  eexists _, _, _, _, _, _.
  split; [apply cfg0_ok|]. split; [apply world_visited|]. split; [vm_compute; reflexivity|].
  split; [apply channel_reported_by; vm_compute; reflexivity|].
  split; [apply channel_reported_by; vm_compute; reflexivity|].
  split; [vm_compute; discriminate|].
  split; [vm_compute; reflexivity|]. split; [reflexivity|].
  split; [vm_compute; reflexivity|reflexivity].
Qed.

(** It does not, if every handshake was started only after all earlier ones had
    been completed. *)
Definition one_at_a_time (i : logitem) (l : list logitem) : Prop :=
  match i with
  | LChanInit _ => forall id, requested l id <> None -> opened l id <> None
  | _ => True
  end.

Lemma one_pending c l : hist c l -> always one_at_a_time l ->
  (recorded_open_in l = true -> forall id, requested l id <> None -> opened l id <> None) /\
  (forall id1 id2, requested l id1 <> None -> opened l id1 = None ->
     requested l id2 <> None -> opened l id2 = None -> id1 = id2).
Proof.
  intro H. induction H as [|l new Hl IH B]; intro A.
  - split; [discriminate|]. intros id1 id2 H. now elim H.
  - assert (A' : always one_at_a_time l).
    { clear -A. induction new as [|x new IH]; [exact A|]. apply IH. apply A. }
    destruct (IH A') as [I1 I2]. clear IH.
    assert (Hnew : forall id, (forall id', requested l id' <> None -> opened l id' <> None) ->
       recorded_open_in l = false -> forall o,
      (recorded_open_in l = true -> forall id', (if String.eqb id id' then o else requested l id') <> None -> opened l id' <> None) /\
      (forall id1 id2 : string, (if String.eqb id id1 then o else requested l id1) <> None -> opened l id1 = None ->
        (if String.eqb id id2 then o else requested l id2) <> None -> opened l id2 = None -> id1 = id2)).
    { intros id Hall Hro o. split; [congruence|]. intros id1 id2.
      destruct (String.eqb_spec id id1), (String.eqb_spec id id2); intros; try congruence;
      exfalso; eapply Hall; eassumption. }
    assert (Hopen : forall id ch o, requested l id = Some o -> opened l id = None -> on_chan id ch = true ->
      (true = true -> forall id', requested l id' <> None -> (if on_chan id' ch then Some ch else opened l id') <> None) /\
      (forall id1 id2, requested l id1 <> None -> (if on_chan id1 ch then Some ch else opened l id1) = None ->
        requested l id2 <> None -> (if on_chan id2 ch then Some ch else opened l id2) = None -> id1 = id2)).
    { intros id ch o Hr Ho Hon.
      assert (G : forall id', requested l id' <> None -> (if on_chan id' ch then Some ch else opened l id') <> None).
      { intros id' Hr' E. destruct (on_chan id' ch) eqn:E'; [discriminate|].
        assert (id' = id) by (apply I2; congruence). congruence. }
      split; [auto|]. intros id1 id2 R1 O1. now elim (G id1 R1). }
    destruct B as [B|B]; destruct B;
    repeat match goal with H : callback _ _ _ |- _ => apply callback_quiet in H as [->|(? & ? & ->)] end;
    cbn [app always one_at_a_time] in A; unfold recorded_open_in in *; cbn [app requested opened recorded options_of] in *; auto.
    + apply Hnew; [apply A|]. subst l. reflexivity.
    + apply Hnew; [apply A|assumption].
    + match goal with H : recorded l = _ |- _ => rewrite H end.
      unfold on_chan. rewrite String.eqb_refl. split; [discriminate|exact I2].
    + eapply Hopen; try eassumption.
      match goal with H : ch_endpoint ch = _ |- _ => unfold on_chan; rewrite H; apply String.eqb_refl end.
    + eapply Hopen; try eassumption.
      match goal with H : ch_endpoint ch = _ |- _ => unfold on_chan; rewrite H; apply String.eqb_refl end.
    + match goal with H : recorded l = _ |- _ => rewrite H end.
      unfold on_chan. rewrite String.eqb_refl. split; [discriminate|exact I2].
    + split; [|exact I2]. destruct (recorded l) as [[ch b]|]; [|discriminate]. destruct (order_eqb _ _); [discriminate|exact I1].
    + split; [|exact I2]. destruct (recorded l) as [[ch b]|]; [|discriminate]. destruct (order_eqb _ _); [discriminate|exact I1].
Qed.

Theorem C13_never_replaces_partial : forall c w id cp v w' b,
  cfg_ok c -> visited c w -> always one_at_a_time (w_log w) ->
  act c (AOpenAck id cp v) w = Some (w', b) -> ~ exists ch, channel_reported w ch StOpen.
Proof.
  intros c w id cp v w' b Hc V A H (ch & Hch).
  destruct (channel_reported_log c w ch StOpen Hc V Hch) as (_ & [|] & Hr & Hb); [|discriminate].
  destruct (proj1 (proj1 (C09_open_ack c w id cp v Hc V)) (ex_intro _ w' (ex_intro _ b H)))
    as (_ & _ & o & md & H1 & H2 & _).
  destruct (one_pending c _ (visited_hist c w Hc V) A) as [I1 _].
  apply (I1 ltac:(unfold recorded_open_in; rewrite Hr; reflexivity) id); congruence.
Qed.
Example C13_case : exists w w' b, visited cfg0 w /\ always one_at_a_time (w_log w) /\
  act cfg0 (AOpenAck "channel-1" "channel-8" (host_version "cosmos1acc")) w = Some (w', b).
Proof.
  exists (world_of (ordered_open ++ [exec "owner" XCloseChannel ""; exec "owner" (XCreateChannel None) "channel-1"])).
  eexists _, _. split; [apply world_visited|]. split; [| vm_compute; reflexivity].
  set (w := world_of _). assert (Hl : exists x1 x2 x3 ch x4 x5, w_log w =
     [LChanInit x1; x2; LChanClosed x3; LExecuted x5 "owner" XCloseChannel; LCall "cb" x4; LChanOpen ch; LChanInit "channel-0"; LInstantiated (Env 10 1000 "controller") "owner" (InstantiateMsg None (opts0 None) (Some "cb"))] /\
     e_chan (ch_endpoint ch) = "channel-0" /\ exists e s m, x2 = LExecuted e s m).
  { eexists _, _, _, _, _, _. split; [vm_compute; reflexivity|]. split; [vm_compute; reflexivity|eauto]. }
  destruct Hl as (x1 & x2 & x3 & ch & x4 & x5 & -> & E & (e & s & m & ->)). cbn [always one_at_a_time requested opened].
  repeat split; auto.
  - intros id. unfold on_chan. rewrite E. destruct (String.eqb "channel-0" id); [discriminate|intro H; now elim H].
Qed.

(** ** C14: a recorded OPEN channel is really open *)

Theorem C14_open_is_open : forall c w ch,
  cfg_ok c -> visited c w -> channel_reported w ch StOpen ->
  exists ce, w_chans w (e_chan (ch_endpoint ch)) = Some ce /\ ce_state ce = COpen /\
    e_port (ch_endpoint ch) = own_port c /\
    ce_order ce = ch_order ch /\ ce_conn ce = ch_connection ch /\ ce_cp ce = ch_counterparty ch /\
    ce_version ce = ch_version ch.
Proof.
  intros c w ch Hc V Hch.
  destruct (channel_reported_log c w ch StOpen Hc V Hch) as (_ & [|] & Hr & Hb); [|discriminate].
  pose proof (recorded_last (w_log w)) as L. rewrite Hr in L.
  destruct (last_opened_end c w ch Hc V L) as (ce & md & E1 & E2 & E3 & E4 & E5 & E6). exists ce.
  split; [exact E1|]. split; [apply E6; unfold recorded_open_in; now rewrite Hr|].
  rewrite <- E2. repeat split.
Qed.
Example C14_case : exists ch, channel_reported (world_of ordered_open) ch StOpen.
Proof. eexists. apply channel_reported_by. vm_compute. reflexivity. Qed.

(** ** C15: a recorded CLOSED channel is really closed *)

(** It is not, if a packet sent on an earlier channel times out after a new
    ordered channel was opened. *)
Definition late_timeout : list tx :=
  ordered_open ++ [exec "owner" (send0 [bank0] []) ""; exec "owner" XCloseChannel "";
    exec "owner" (XCreateChannel None) "channel-1"; open_ack "channel-1" "channel-8" "cosmos1acc";
    timed_out "channel-0" 1].
Theorem C15_closed_is_closed_refuted : exists c w ch ce,
  cfg_ok c /\ visited c w /\ channel_reported w ch StClosed /\
  w_chans w (e_chan (ch_endpoint ch)) = Some ce /\ ce_state ce = COpen.
Proof.
  exists cfg0, (world_of late_timeout). eexists _, _. split; [apply cfg0_ok|]. split; [apply world_visited|].
  split; [apply channel_reported_by; vm_compute; reflexivity|]. split; [vm_compute; reflexivity|reflexivity].
Qed.

(** It is, if every timeout concerned the channel recorded at that time, or that
    channel was unordered. *)
Definition timely (i : logitem) (l : list logitem) : Prop :=
  match i with
  | LTimeout p _ => forall ch, last_opened l = Some ch ->
      e_chan (p_src p) = e_chan (ch_endpoint ch) \/ ch_order ch = Unordered
  | _ => True
  end.

Lemma last_opened_opened l ch : last_opened l = Some ch -> opened l (e_chan (ch_endpoint ch)) = Some ch.
Proof.
  induction l as [|i l IH]; [discriminate|]. destruct i; cbn [last_opened opened]; auto.
  intro E. injection E as ->. unfold on_chan. now rewrite String.eqb_refl.
Qed.

Lemma closed_closed l : always timely l -> forall ch, recorded l = Some (ch, false) ->
  chan_open l (e_chan (ch_endpoint ch)) = false.
Proof.
  induction l as [|i l IH]; [discriminate|]. intros [A1 A2] ch. specialize (IH A2).
  destruct i; cbn [recorded chan_open]; auto.
  - discriminate.
  - destruct (recorded l) as [[ch' b]|] eqn:Er; [|discriminate]. unfold on_chan.
    destruct (String.eqb_spec (e_chan (ch_endpoint ch')) id) as [E|E]; intro H; assert (ch' = ch) by congruence; subst.
    + now rewrite String.eqb_refl.
    + destruct (String.eqb_spec id (e_chan (ch_endpoint ch))); [reflexivity|]. now apply IH.
  - pose proof (recorded_last l) as L. destruct (recorded l) as [[ch' b]|] eqn:Er; [|discriminate].
    cbn [timely] in A1. specialize (A1 ch' L). intro H.
    assert (ch' = ch) by (destruct (order_eqb _ _); congruence). subst ch'.
    unfold chan_ordered. destruct (String.eqb_spec (e_chan (p_src p)) (e_chan (ch_endpoint ch))) as [E|E]; cbn [andb].
    + rewrite (last_opened_opened l ch L). destruct (ch_order ch); cbn [order_eqb] in *; [reflexivity|].
      apply IH. congruence.
    + destruct A1 as [A1|A1]; [contradiction|]. rewrite A1 in H. cbn [order_eqb] in H. apply IH. congruence.
Qed.

Theorem C15_closed_is_closed_partial : forall c w ch,
  cfg_ok c -> visited c w -> always timely (w_log w) -> channel_reported w ch StClosed ->
  exists ce, w_chans w (e_chan (ch_endpoint ch)) = Some ce /\ ce_state ce = CClosed.
Proof.
  intros c w ch Hc V A Hch.
  destruct (channel_reported_log c w ch StClosed Hc V Hch) as (_ & [|] & Hr & Hb); [discriminate|].
  pose proof (recorded_last (w_log w)) as L. rewrite Hr in L.
  destruct (last_opened_end c w ch Hc V L) as (ce & md & E1 & E2 & E3 & E4 & E5 & E6). exists ce.
  split; [exact E1|]. destruct E5 as [E5|E5]; [|exact E5].
  pose proof (ic_chan _ _ (inv_chans _ _ (visited_inv c w Hc V)) (e_chan (ch_endpoint ch))) as C.
  rewrite E1, E5 in C. destruct C as (_ & _ & _ & _ & _ & _ & C).
  rewrite (closed_closed _ A _ Hr) in C. discriminate.
Qed.

Example C15_case : exists w ch, visited cfg0 w /\ always timely (w_log w) /\ channel_reported w ch StClosed.
Proof.
  exists (world_of (ordered_open ++ [exec "owner" (send0 [bank0] []) ""; timed_out "channel-0" 1])). eexists.
  split; [apply world_visited|]. split; [|apply channel_reported_by; vm_compute; reflexivity].
  set (w := world_of _). assert (Hl : exists x1 p x2 x3 x4 x5 x6 x7 x8 x9 x10 ch x11 x12 x13 x14 x15, w_log w =
     [LCall "cb" x1; LTimeout p x2; LSent x3 x4 x5 x6; LExecuted x7 x8 x9; LCall "cb" x10; LChanOpen ch; LChanInit x11; LInstantiated x13 x14 x15] /\
     e_chan (ch_endpoint ch) = "channel-0" /\ e_chan (p_src p) = "channel-0" /\ x12 = 0).
  { eexists _, _, _, _, _, _, _, _, _, _, _, _, _, 0, _, _, _. split; [vm_compute; reflexivity|].
    split; [vm_compute; reflexivity|]. split; [vm_compute|]; reflexivity. }
  destruct Hl as (x1 & p & x2 & x3 & x4 & x5 & x6 & x7 & x8 & x9 & x10 & ch & x11 & x12 & x13 & x14 & x15 & -> & E1 & E2 & _).
  cbn [always timely last_opened]. repeat split; auto. intros ch' H. left. congruence.
Qed.

(** ** C17: the owner can always close an open channel *)

Theorem C17_owner_can_close : forall c w ch o sender h t raw id beh,
  cfg_ok c -> visited c w -> channel_reported w ch StOpen ->
  owner_reported w o -> ow_owner o = Some sender ->
  h < u64_lim -> t < u64_lim -> utf8 sender -> from_json jc_execute_msg raw = Some XCloseChannel ->
  exists w' ce, step c (Tx (AExecute h t sender raw id true) beh) w = Some w' /\
    channel_reported w' ch StClosed /\
    w_chans w' (e_chan (ch_endpoint ch)) = Some ce /\ ce_state ce = CClosed /\
    forall id', id' <> e_chan (ch_endpoint ch) -> w_chans w' id' = w_chans w id'.
Proof.
  intros c w ch o sender h t raw id beh Hc V Hch Ho Hos Hh Ht Hu Hm.
  destruct (channel_reported_log c w ch StOpen Hc V Hch) as (_ & [|] & Hr & Hb); [|discriminate].
  destruct (owner_reported_log c w o Hc V Ho) as [_ Eo]. rewrite Hos in Eo. symmetry in Eo.
  destruct (act_close c h t sender raw id w ch Hc V Hh Ht Hu Hm Eo Hr) as (w' & E & El & ce & C1 & C2 & C3).
  assert (V' : visited c w') by (eapply visited_act; eassumption).
  exists w', ce. split; [cbn [step]; rewrite E; reflexivity|]. split.
  { apply (recorded_reported c w' ch false Hc V'). rewrite El. cbn [recorded]. rewrite Hr. unfold on_chan.
    now rewrite String.eqb_refl. }
  split; [exact C1|]. split; [exact C2|].
  intros id' Hne. pose proof (act_trans c w _ w' _ Hc (visited_base c w Hc V) E) as T.
  remember false as b eqn:Eb.
  destruct T; cbn [w_log w_chans] in *;
    try match goal with x := _ |- _ => subst x end;
    try (injection El as X1 X2); try discriminate; try (destruct (cs_callback st); discriminate).
  - subst id0. apply upd_other. congruence.
  - exfalso. apply (f_equal (@length _)) in X2. cbn [length] in X2. lia.
Qed.
Theorem C17_nothing_to_close : forall c w sender h t raw id ok beh,
  cfg_ok c -> visited c w -> ~ (exists ch, channel_reported w ch StOpen) ->
  from_json jc_execute_msg raw = Some XCloseChannel ->
  step c (Tx (AExecute h t sender raw id ok) beh) w = None.
Proof.
  intros c w sender h t raw id ok beh Hc V Hn Hm. cbn [step].
  destruct (act c _ w) as [[w' b]|] eqn:H; [exfalso|reflexivity].
  destruct (act_block_call _ _ _ _ _ Hc V H) as (pre & F & B & El). cbn [call_item] in *. rewrite Hm in *.
  block_cases B; injection E as E1 E2; subst.
  apply Hn. exists ch. apply (recorded_reported c w ch true Hc V). assumption.
Qed.
Example C17_case : exists w ch, visited cfg0 w /\ channel_reported w ch StOpen /\
  owner_reported w (Ownership (Some "owner") None None).
Proof.
  exists (world_of ordered_open). eexists. split; [apply world_visited|].
  split; [apply channel_reported_by|apply owner_reported_by]; vm_compute; reflexivity.
Qed.

(** ** C18: the owner can always open a new channel *)

(** [ok = true]: the chain accepts the connection; the new id is one the chain
    has not used; the message is below 4 GiB. *)
Theorem C18_reopen : forall c w oo sender h t raw id opts o beh,
  cfg_ok c -> visited c w -> ~ (exists ch, channel_reported w ch StOpen) ->
  owner_reported w oo -> ow_owner oo = Some sender ->
  h < u64_lim -> t < u64_lim -> utf8 sender ->
  from_json jc_execute_msg raw = Some (XCreateChannel opts) ->
  match opts with Some o' => o = o' | None => options_of (w_log w) = Some o end ->
  unwrap_or (oo_cp_port o) "icahost" = "icahost" ->
  w_chans w id = None -> utf8 id -> slen id <= 64 -> slen (open_init_bytes (c_self c) o) < u32_lim ->
  exists w' ce, step c (Tx (AExecute h t sender raw id true) beh) w = Some w' /\
    w_chans w' id = Some ce /\ ce_state ce = CInit /\ describes o ce.
Proof.
  intros c w oo sender h t raw id opts o beh Hc V Hn Ho Hos Hh Ht Hu Hm Hopts Hp Hid Hui Hli Hb.
  destruct (owner_reported_log c w oo Hc V Ho) as [Hl Eo]. rewrite Hos in Eo. symmetry in Eo.
  assert (Hr : recorded_open_in (w_log w) = false).
  { unfold recorded_open_in. destruct (recorded (w_log w)) as [[ch []]|] eqn:E; try reflexivity.
    elim Hn. exists ch. apply (recorded_reported c w ch true Hc V E). }
  destruct (act_create c h t sender raw id opts o w) as (w' & E & El & Ece); try assumption.
  - destruct opts; cbn; congruence.
  - repeat split; assumption.
  - exists w', (init_end o). split; [cbn [step]; rewrite E; reflexivity|]. split; [exact Ece|].
    split; [reflexivity|]. apply init_describes; [|exact Hp].
    destruct (create_id _ _ _ _ _ _ _ _ _ _ _ Hc V E Hm) as (o' & Ho' & Hu' & _).
    assert (o' = o) by (destruct opts; cbn in Ho'; congruence). now subst.
Qed.
Example C18_case : exists w w', visited cfg0 w /\ ~ (exists ch, channel_reported w ch StOpen) /\
  owner_reported w (Ownership (Some "owner") None None) /\
  step cfg0 (exec "owner" (XCreateChannel None) "channel-1") w = Some w'.
Proof.
  set (w := world_of (ordered_open ++ [exec "owner" XCloseChannel ""])).
  exists w. eexists. split; [apply world_visited|]. split.
  { intros (ch & H). apply (channel_reported_log cfg0 w ch StOpen cfg0_ok (world_visited _)) in H as (_ & b & H & Hb).
    assert (E : recorded_open_in (w_log w) = false) by (vm_compute; reflexivity). unfold recorded_open_in in E.
    rewrite H in E. subst b. discriminate. }
  split; [apply owner_reported_by; vm_compute; reflexivity| vm_compute; reflexivity].
Qed.

(** ** C46: the state queries *)

(** The answers are exactly what the history says; nothing but an instantiated
    contract answers; and GetChannel has no answer until the first handshake is
    completed.  (Queries cannot change the state: [ask] returns no world.) *)
Theorem C46_state_queries : forall c w, cfg_ok c -> visited c w -> w_store w <> None ->
  owner_reported w (Ownership (owner_of (w_log w)) (option_map fst (nominee_of (w_log w)))
     (n <-? nominee_of (w_log w) ;; snd n)) /\
  state_reported w (ContractState (account_of (w_log w)) (callback_of (w_log w))) /\
  (ask w get_channel = None <-> last_opened (w_log w) = None) /\
  (forall ch st, channel_reported w ch st <->
     exists b, recorded (w_log w) = Some (ch, b) /\ st = if b then StOpen else StClosed).
Proof.
  intros c w Hc V Hs. assert (Hl : w_log w <> []) by (intro E; apply Hs; now apply (store_log c w Hc V)).
  split; [apply (ask_ownership c w Hc V Hl)|]. split; [apply (ask_state c w Hc V Hl)|].
  pose proof (ask_channel c w Hc V Hl) as Q. pose proof (recorded_last (w_log w)) as L. split.
  - destruct (recorded (w_log w)) as [[ch b]|]; [|tauto]. destruct Q as (t & Q & _). split; congruence.
  - intros ch st. split.
    + intro H. apply (channel_reported_log c w ch st Hc V H).
    + intros (b & E & ->). now apply (recorded_reported c).
Qed.
(** In any store: the answer is the JSON of the stored value, or an error. *)
Theorem C46_state_queries_any_store : forall s,
  query s QOwnership = match st_owner s with Some o => Ok (to_json jc_ownership o) | None => Err EStd end /\
  query s QGetContractState = match st_state s with Some x => Ok (to_json jc_contract_state x) | None => Err EStd end /\
  query s QGetChannel = match st_channel s with Some x => Ok (to_json jc_channel_state x) | None => Err EStd end.
Proof.
  intro s. cbn [query]. unfold load. destruct (st_owner s), (st_state s), (st_channel s); repeat split.
Qed.
Example C46_case : ask (world_of [inst None None]) get_channel = None /\
  ask (world_of ordered_open) get_channel <> None /\ ask init_world get_contract_state = None.
Proof. repeat split; vm_compute; try reflexivity; discriminate. Qed.

Print Assumptions C03_open_init_rejected.
Print Assumptions C04_close_init_rejected.
Print Assumptions C03_C04_no_difference.
Print Assumptions C05_one_request_one_handshake.
Print Assumptions C05_counts.
Print Assumptions C08_create_uses_last_options.
Print Assumptions C08_instantiate_uses_options.
Print Assumptions C09_open_ack_any_store.
Print Assumptions C09_open_ack.
Print Assumptions C10_handshake_completes.
Print Assumptions C11_queries_agree.
Print Assumptions C12_no_create_while_open.
Print Assumptions C13_never_replaces_refuted.
Print Assumptions C13_never_replaces_partial.
Print Assumptions C14_open_is_open.
Print Assumptions C15_closed_is_closed_refuted.
Print Assumptions C15_closed_is_closed_partial.
Print Assumptions C17_owner_can_close.
Print Assumptions C17_nothing_to_close.
Print Assumptions C18_reopen.
Print Assumptions C46_state_queries.
Print Assumptions C46_state_queries_any_store.
Print Assumptions C53_permanent_closure_refuted.
Print Assumptions C53_permanent_closure_partial.
