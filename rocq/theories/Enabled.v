(** * Enabled: when transactions succeed.

    [Trans.v] says what successful actions do; here are sufficient conditions
    for success. *)

From Verif Require Import Base Text Utf8 Base64 Proto ProtoFacts Schemas Json JsonCodec Types JsonTypes Store
  CosmosMsg QueryMsg Metadata Stargate PacketData Ownable Semver Contract JsonSound HostSpec HostFacts PacketFacts
  AnswerSpec AnswerFacts AnswerJson EntryFacts Chain ChainSpec Trans Inv HistorySpec History Queries HistFacts.
From Coq Require Import ZifyBool ZifyN.
Local Open Scope string_scope.
Local Open Scope list_scope.
Local Open Scope N_scope.

Lemma env_ok_true h t x : h < u64_lim -> t < u64_lim -> utf8 x -> env_ok h t x = true.
Proof.
  intros H1 H2 H3. unfold env_ok. rewrite H3. apply N.ltb_lt in H1, H2. now rewrite H1, H2.
Qed.

Lemma core_open_succeeds c id o s w :
  utf8_options o -> w_store w = Some s -> flag (st_allow_open s) = true ->
  recorded_open s = false -> fresh_id w id -> unwrap_or (oo_cp_port o) "icahost" = "icahost" ->
  core_open c id (unwrap_or (oo_ordering o) Ordered) "icahost" (oo_connection o)
    (to_json jc_metadata (fresh_metadata (oo_connection o) (oo_cp_connection o))) w =
  Some (note (LChanInit id) (put_chan id (init_end o) (put_store (set_allow_open (Some false) s) w))).
Proof.
  intros (Hc1 & Hc2 & Hc3) Hs Hf Hr (F1 & F2 & F3) Hp.
  unfold core_open. rewrite F1, F2. apply N.leb_le in F3. rewrite F3. cbn [is_some negb andb guard obind].
  rewrite Hc1. change (utf8_valid "icahost") with true.
  assert (Hv : utf8_valid (to_json jc_metadata (fresh_metadata (oo_connection o) (oo_cp_connection o))) = true).
  { apply to_json_utf8; [apply jc_metadata_ok|]. now apply fresh_jval. }
  rewrite Hv. cbn [andb guard obind]. rewrite Hs. cbn [obind ibc_channel_open].
  rewrite on_open_init_own by assumption. cbn [String.eqb]. rewrite Hr. reflexivity.
Qed.

Lemma dispatch_open_succeeds c e sender m id o s w :
  cfg_ok c -> env_contract e = c_self c -> utf8_options o ->
  w_store w = Some s -> flag (st_allow_open s) = true ->
  recorded_open s = false -> fresh_id w id -> unwrap_or (oo_cp_port o) "icahost" = "icahost" ->
  slen (open_init_bytes (c_self c) o) < u32_lim ->
  dispatch_exec c e sender m id true (add_message (open_init_msg e o) response_default) w =
  Some (note (LChanInit id) (put_chan id (init_end o) (put_store (set_allow_open (Some false) s) w))).
Proof.
  intros Hc He Ho Hs Hf Hr Hid Hp Hl. rewrite open_init_msg_bytes, He.
  unfold dispatch_exec, add_message. cbn [r_msgs r_events response_default app note_events sm_msg sm_reply guard obind].
  change (String.eqb "/ibc.core.channel.v1.MsgChannelOpenInit" "/ibc.core.channel.v1.MsgChannelOpenInit") with true.
  apply N.ltb_lt in Hl as Hl'. rewrite Hl'. cbn [guard obind].
  rewrite (open_init_decodes (c_self c) o (proj1 Hc) Ho) by (eapply N.lt_trans; [exact Hl|reflexivity]).
  cbn [obind oi_signer oi_port oi_state oi_cp_chan oi_order oi_hops oi_cp_port oi_version].
  unfold port. rewrite !String.eqb_refl. cbn [andb N.eqb Pos.eqb sempty guard obind].
  rewrite Hp. destruct (oo_ordering o) as [[]|] eqn:Eo; cbn [order_number order_of_number N.eqb Pos.eqb obind];
    (rewrite <- (core_open_succeeds c id o s w) by assumption; rewrite Eo; reflexivity).
Qed.

Lemma act_instantiate c rel h t sender raw id m w :
  cfg_ok c -> w_store w = None -> h < u64_lim -> t < u64_lim -> utf8 sender ->
  from_json jc_instantiate_msg raw = Some m ->
  addr_validate (c_api c) (unwrap_or (im_owner m) sender) = true -> valid_opt (c_api c) (im_callbacks m) ->
  fresh_id w id -> unwrap_or (oo_cp_port (im_options m)) "icahost" = "icahost" ->
  slen (open_init_bytes (c_self c) (im_options m)) < u32_lim ->
  exists w', act c (AInstantiate rel h t sender raw id true) w = Some (w', false) /\
    w_log w' = LChanInit id :: LInstantiated (Env h t (c_self c)) sender m :: w_log w.
Proof.
  intros Hc Hs Hh Ht Hu Hm Ha Hv Hf Hp Hl. cbn [act]. rewrite Hs, env_ok_true by assumption.
  cbn [is_some negb andb guard obind]. rewrite Hm. cbn [obind].
  unfold instantiate, initialize_owner. rewrite Ha. cbn [bindo].
  assert (E : validate_opt (c_api c) (im_callbacks m) = Ok (im_callbacks m)).
  { unfold validate_opt. destruct (im_callbacks m) as [x|]; [|reflexivity]. cbn in Hv. now rewrite Hv. }
  rewrite E. cbn [bindo ok_of obind].
  match goal with |- context[dispatch_exec c ?e sender None id true _ (note ?i (put_store ?s0 w))] =>
    rewrite (dispatch_open_succeeds c e sender None id (im_options m) s0) end; try assumption; try reflexivity.
  - cbn [obind]. eexists. split; [reflexivity|]. reflexivity.
  - apply jval_inst_options. eapply from_json_valid; [apply jc_instantiate_msg_sound|exact Hm].
  - now destruct rel.
  - now destruct rel.
Qed.

(** ** In terms of the history *)

Lemma store_some c w : cfg_ok c -> visited c w -> w_log w <> [] -> exists s, w_store w = Some s.
Proof.
  intros Hc V H. destruct (w_store w) as [s|] eqn:E; [eauto|]. elim H. eapply store_log; eassumption.
Qed.

Lemma owner_is c w s x : cfg_ok c -> visited c w -> w_store w = Some s ->
  (owner_of (w_log w) = Some x <-> is_owner s x).
Proof.
  intros Hc V Hs. destruct (io_owner _ _ (inv_owner _ _ (visited_inv c w Hc V) _ Hs)) as (o & y & O1 & O2 & O3 & _).
  unfold is_owner. split.
  - intro E. exists o. split; [exact O1|]. congruence.
  - intros (o' & E1 & E2). congruence.
Qed.

Lemma recorded_is c w s : cfg_ok c -> visited c w -> w_store w = Some s ->
  st_channel s = recorded_state (w_log w) /\ recorded_open s = recorded_open_in (w_log w).
Proof.
  intros Hc V Hs. pose proof (il_rec _ (visited_log c w Hc V) _ Hs) as R. split; [exact R|].
  now apply recorded_open_eq.
Qed.

Lemma options_is c w s : cfg_ok c -> visited c w -> w_store w = Some s ->
  exists o, st_options s = Some o /\ options_of (w_log w) = Some o /\ utf8_options o.
Proof.
  intros Hc V Hs. destruct (io_options _ _ (inv_owner _ _ (visited_inv c w Hc V) _ Hs)) as (o & O1 & O2).
  exists o. split; [exact O1|]. split; [exact O2|].
  destruct (inv_base _ _ (visited_inv c w Hc V)) as [_ B]. destruct (B _ Hs) as (_ & _ & _ & B4).
  rewrite O1 in B4. exact B4.
Qed.

(** The options a CreateChannel uses. *)
Definition create_options (l : list logitem) (opts : option open_options) : option open_options :=
  match opts with Some o => Some o | None => options_of l end.

Lemma act_create c h t sender raw id opts o w :
  cfg_ok c -> visited c w -> h < u64_lim -> t < u64_lim -> utf8 sender ->
  from_json jc_execute_msg raw = Some (XCreateChannel opts) ->
  owner_of (w_log w) = Some sender -> recorded_open_in (w_log w) = false ->
  create_options (w_log w) opts = Some o ->
  fresh_id w id -> unwrap_or (oo_cp_port o) "icahost" = "icahost" ->
  slen (open_init_bytes (c_self c) o) < u32_lim ->
  exists w', act c (AExecute h t sender raw id true) w = Some (w', false) /\
    w_log w' = LChanInit id :: LExecuted (Env h t (c_self c)) sender (XCreateChannel opts) :: w_log w /\
    w_chans w' id = Some (init_end o).
Proof.
  intros Hc V Hh Ht Hu Hm Ho Hr Hopt Hf Hp Hl.
  destruct (store_some c w Hc V) as [s Hs]; [intro E; rewrite E in Ho; discriminate|].
  cbn [act]. rewrite env_ok_true by assumption. cbn [guard obind]. rewrite Hs. cbn [obind]. rewrite Hm. cbn [obind execute].
  unfold create_channel. rewrite (proj2 (assert_owner_ok s sender)) by (eapply owner_is; eassumption). cbn [bindo].
  destruct (options_is c w s Hc V Hs) as (o' & O1 & O2 & O3).
  destruct (recorded_is c w s Hc V Hs) as [R1 R2].
  assert (Huo : utf8_options o).
  { destruct opts as [x|]; cbn in Hopt; [injection Hopt as <-|congruence].
    apply jval_create_options. eapply from_json_valid; [apply jc_execute_msg_sound|exact Hm]. }
  match goal with |- context[bindo ?x _] => assert (E : exists s1, x = Ok (s1, o) /\ st_channel s1 = st_channel s) end.
  { destruct opts as [x|]; cbn in Hopt.
    - injection Hopt as ->. eexists. split; reflexivity.
    - rewrite O2 in Hopt. injection Hopt as ->. rewrite O1. eexists. split; reflexivity. }
  destruct E as (s1 & -> & Hs1). cbn [bindo ok_of obind].
  match goal with |- context[dispatch_exec c ?e sender ?mm id true _ (note ?i (put_store ?s0 w))] =>
    rewrite (dispatch_open_succeeds c e sender mm id o s0) end; try assumption; try reflexivity.
  - cbn [obind]. eexists. split; [reflexivity|]. split; [reflexivity|]. cbn. apply upd_same.
  - unfold recorded_open. cbn. rewrite Hs1. fold (recorded_open s). congruence.
Qed.

Lemma act_close c h t sender raw id w ch :
  cfg_ok c -> visited c w -> h < u64_lim -> t < u64_lim -> utf8 sender ->
  from_json jc_execute_msg raw = Some XCloseChannel ->
  owner_of (w_log w) = Some sender -> recorded (w_log w) = Some (ch, true) ->
  exists w', act c (AExecute h t sender raw id true) w = Some (w', false) /\
    w_log w' = LChanClosed (e_chan (ch_endpoint ch)) :: LExecuted (Env h t (c_self c)) sender XCloseChannel :: w_log w /\
    exists ce, w_chans w' (e_chan (ch_endpoint ch)) = Some ce /\ ce_state ce = CClosed /\
      channel_of c (e_chan (ch_endpoint ch)) ce = ch.
Proof.
  intros Hc V Hh Ht Hu Hm Ho Hr.
  destruct (store_some c w Hc V) as [s Hs]; [intro E; rewrite E in Ho; discriminate|].
  cbn [act]. rewrite env_ok_true by assumption. cbn [guard obind]. rewrite Hs. cbn [obind]. rewrite Hm. cbn [obind execute].
  unfold close_channel. rewrite (proj2 (assert_owner_ok s sender)) by (eapply owner_is; eassumption). cbn [bindo].
  destruct (recorded_is c w s Hc V Hs) as [R1 R2]. unfold recorded_state in R1. rewrite Hr in R1. cbn in R1.
  rewrite R1. cbn [load of_option bindo is_open cst_status negb cst_channel].
  cbn [ok_of obind]. unfold dispatch_exec.
  cbn [add_message response_default r_msgs r_events app note_events sm_msg sm_reply guard obind].
  pose proof (inv_recorded _ _ (visited_inv c w Hc V) _ Hs) as I. unfold inv_rec in I. rewrite R1 in I.
  destruct I as (st' & info & ce & md & I1 & I2 & I3 & I4 & I5 & I6 & I7 & _). cbn [cst_channel cst_status] in *.
  assert (Eid : e_chan (ch_endpoint ch) = ii_channel info) by (rewrite I6; reflexivity).
  rewrite Eid. unfold core_close_init. cbn [w_chans note put_store]. rewrite I3. cbn [obind w_store note put_store].
  cbn [ibc_channel_close]. unfold on_close_init. cbn [flag st_allow_close set_allow_close unwrap_or negb].
  unfold close_recorded. cbn [st_channel set_allow_close]. rewrite R1. cbn [load of_option bindo cst_channel].
  rewrite I6, (proj2 (channel_eqb_spec _ _) eq_refl). cbn [negb is_open cst_status ok_of obind].
  assert (Eo : ce_state ce = COpen) by (destruct I7 as [[_ I7]|I7]; [exact I7|discriminate]).
  rewrite Eo. cbn [guard obind response_default r_msgs r_events note_events].
  eexists. split; [reflexivity|]. cbn [w_log w_chans note put_chan put_store]. rewrite <- Eid. split; [reflexivity|].
  eexists. cbn [w_chans]. split; [apply upd_same|]. split; [reflexivity|]. rewrite Eid. reflexivity.
Qed.

Lemma act_open_ack c w id cp_chan cp_version o md :
  cfg_ok c -> visited c w -> utf8 cp_chan -> utf8 cp_version ->
  requested (w_log w) id = Some o -> opened (w_log w) id = None ->
  from_json jc_metadata cp_version = Some md -> agreed_version c (oo_connection o) md ->
  exists w' b i ch, act c (AOpenAck id cp_chan cp_version) w = Some (w', b) /\
    ch = Channel (Endpoint (own_port c) id) (Endpoint "icahost" cp_chan) (unwrap_or (oo_ordering o) Ordered)
           cp_version (oo_connection o) /\
    w_log w' = i ++ LChanOpen ch :: w_log w /\
    b = is_some (callback_of (w_log w)) /\
    callback (w_log w) (CbOpenAck ch (md_address md) Protobuf) i /\
    exists ce, w_chans w' id = Some ce /\ ce_state ce = COpen /\ channel_of c id ce = ch.
Proof.
  intros Hc V Hu1 Hu2 Hreq Hop Hmd (A1 & A2 & A3 & A4 & A5 & A6 & cps & A7 & A8).
  assert (I := visited_inv c w Hc V).
  assert (Hl : w_log w <> []) by (intro E; rewrite E in Hreq; discriminate).
  destruct (store_some c w Hc V Hl) as [s Hs].
  pose proof (ic_chan _ _ (inv_chans _ _ I) id) as C.
  destruct (w_chans w id) as [ce|] eqn:Ece; [|destruct C; congruence].
  destruct C as ((o' & C1 & C2 & C3 & C4 & C5 & C6) & C7 & C8 & C9 & C10 & C11).
  rewrite Hreq in C1. injection C1 as <-.
  assert (Ei : ce_state ce = CInit) by (destruct (ce_state ce); [reflexivity|destruct C11; congruence..]).
  destruct (io_callback _ _ (inv_owner _ _ I _ Hs)) as (st & S1 & S2).
  set (ch := Channel (Endpoint (own_port c) id) (Endpoint "icahost" cp_chan) (unwrap_or (oo_ordering o) Ordered)
           cp_version (oo_connection o)).
  assert (Ech : channel_of c id (open_end ce cp_chan cp_version) = ch).
  { unfold channel_of, open_end, ch, own_port, port. cbn. now rewrite C2, C3, C4. }
  assert (Jch : jval jc_channel ch).
  { rewrite <- Ech. apply jval_channel_of; try assumption; cbn; [|rewrite C3; apply C5].
    rewrite C4. reflexivity. }
  assert (Jcb : jval jc_receiver (CbOpenAck ch (md_address md) Protobuf)).
  { apply jval_callback. split; [exact Jch|]. split; [|exact Logic.I].
    apply jval_metadata_address. eapply from_json_valid; [apply jc_metadata_sound|exact Hmd]. }
  assert (Hv : validate_metadata (c_api c) md ch = Ok tt).
  { unfold validate_metadata. rewrite A1. change (String.eqb "ics27-1" ICA_VERSION) with true.
    cbn [negb]. rewrite A2. cbn [ch ch_connection]. rewrite String.eqb_refl. cbn [negb]. rewrite A3. cbn [negb].
    assert (Ea : sempty (md_address md) = false) by (destruct (md_address md); [congruence|reflexivity]).
    rewrite Ea. cbn [negb]. unfold validate_ica_address.
    assert (E1 : (128 <? slen (md_address md)) = false) by lia. rewrite E1, A7.
    assert (E2 : forallb (is_alnum (c_api c)) cps = true).
    { rewrite forallb_forall. rewrite Forall_forall in A8. intros x Hx. specialize (A8 x Hx).
      unfold is_alnum, alphanumeric, between in *. destruct (N.ltb_spec x 128); [|destruct A8 as [?|[?|[?|[? ?]]]]; [lia..|assumption]].
      destruct A8 as [?|[?|[?|[? ?]]]]; lia. }
    rewrite E2. cbn [orb negb bindo]. rewrite A4. reflexivity. }
  assert (Hp : String.eqb (e_port (ch_endpoint ch)) HOST_PORT_ID = false).
  { reflexivity. }
  assert (He : sempty (md_address md) = false) by (destruct (md_address md); [congruence|reflexivity]).
  cbn [act]. rewrite Hu1, Hu2. cbn [andb guard obind]. rewrite Ece. cbn [obind]. rewrite Ei. cbn [guard obind].
  rewrite Hs. cbn [obind]. change (ChanEnd COpen (ce_order ce) _ (ce_conn ce) cp_version) with (open_end ce cp_chan cp_version).
  rewrite Ech. cbn [ibc_channel_connect]. unfold on_open_ack. rewrite S1. cbn [load of_option bindo].
  rewrite Hp. unfold metadata_from_string. rewrite Hmd. cbn [of_option bindo]. rewrite Hv. cbn [bindo]. rewrite He.
  rewrite S2. change (Channel (ch_endpoint ch) _ _ _ _) with ch. rewrite A3.
  destruct (callback_of (w_log w)) as [addr|] eqn:Ecb.
  - cbn [ok_of obind]. unfold dispatch_call. cbn [add_message response_default r_msgs r_events app note_events sm_msg sm_reply callback_cosmos_msg].
    eexists _, _, [LCall addr (to_json jc_receiver (CbOpenAck ch (md_address md) Protobuf))], ch.
    split; [reflexivity|]. split; [reflexivity|]. split; [reflexivity|]. split; [reflexivity|].
    split; [split; [exact Jcb|now rewrite Ecb]|]. exists (open_end ce cp_chan cp_version).
    split; [apply upd_same|]. split; [reflexivity|exact Ech].
  - cbn [ok_of obind]. unfold dispatch_call. cbn [response_default r_msgs r_events app note_events sm_msg sm_reply].
    eexists _, _, [], ch.
    split; [reflexivity|]. split; [reflexivity|]. split; [reflexivity|]. split; [reflexivity|].
    split; [split; [exact Jcb|now rewrite Ecb]|]. exists (open_end ce cp_chan cp_version).
    split; [apply upd_same|]. split; [reflexivity|exact Ech].
Qed.

(** The channel id of the transaction is the one in the history. *)
Lemma inst_id c w rel h t sender raw id ok w' b :
  cfg_ok c -> act c (AInstantiate rel h t sender raw id ok) w = Some (w', b) ->
  exists m, from_json jc_instantiate_msg raw = Some m /\
    w_log w' = LChanInit id :: LInstantiated (Env h t (c_self c)) sender m :: w_log w /\
    w_chans w' id = Some (init_end (im_options m)).
Proof.
  intros Hc H. cbn [act] in H.
  apply obind_some in H as (? & Hg & H).
  apply obind_some in H as (m & Hm & H). exists m. split; [exact Hm|].
  apply (from_json_valid _ _ _ jc_instantiate_msg_sound) in Hm.
  apply obind_some in H as ([s r] & HI & H). apply ok_of_some in HI.
  apply obind_some in H as (w2 & HD & H). injection H as <- <-.
  apply instantiate_ok in HI as (Ha & Hv & -> & ->).
  set (s0 := match rel with Some v => _ | None => _ end) in HD.
  eapply (dispatch_open c _ sender _ id ok (im_options m) s0) in HD as (Hr & Hf & Hp & ->);
    [|assumption|reflexivity|now apply jval_inst_options|reflexivity|now destruct rel].
  split; [reflexivity|]. apply upd_same.
Qed.

Lemma create_id c w h t sender raw id ok w' b opts :
  cfg_ok c -> visited c w -> act c (AExecute h t sender raw id ok) w = Some (w', b) ->
  from_json jc_execute_msg raw = Some (XCreateChannel opts) ->
  exists o, create_options (w_log w) opts = Some o /\ utf8_options o /\
    unwrap_or (oo_cp_port o) "icahost" = "icahost" /\
    w_log w' = LChanInit id :: LExecuted (Env h t (c_self c)) sender (XCreateChannel opts) :: w_log w /\
    w_chans w id = None /\ w_chans w' id = Some (init_end o).
Proof.
  intros Hc V H Hm. cbn [act] in H.
  apply obind_some in H as (? & Hg & H). apply obind_some in H as (s & Hs & H). rewrite Hm in H. cbn [obind execute] in H.
  apply (from_json_valid _ _ _ jc_execute_msg_sound) in Hm.
  apply obind_some in H as ([s' r] & HX & H). apply ok_of_some in HX. apply obind_some in H as (w2 & HD & H).
  injection H as <- <-. apply create_channel_ok in HX as (_ & o & Hopts & -> & ->).
  destruct (options_is c w s Hc V Hs) as (o' & O1 & O2 & O3).
  assert (Hu : utf8_options o).
  { destruct opts as [x'|]; [subst x'; now apply jval_create_options|]. congruence. }
  eapply (dispatch_open c _ sender _ id ok o (set_allow_open (Some true) (set_options (Some o) s)))
    in HD as (Hr & Hf & Hp & ->); [|assumption|reflexivity|assumption|reflexivity|reflexivity].
  exists o. split; [destruct opts as [x'|]; cbn; congruence|]. split; [exact Hu|]. split; [exact Hp|].
  split; [reflexivity|]. split; [apply Hf|apply upd_same].
Qed.

Lemma validate_agreed c md ch : agreed_version c (ch_connection ch) md -> validate_metadata (c_api c) md ch = Ok tt.
Proof.
  intros (A1 & A2 & A3 & A4 & A5 & A6 & cps & A7 & A8).
  unfold validate_metadata. rewrite A1. change (String.eqb "ics27-1" ICA_VERSION) with true.
  cbn [negb]. rewrite A2, String.eqb_refl. cbn [negb]. rewrite A3. cbn [negb].
  assert (Ea : sempty (md_address md) = false) by (destruct (md_address md); [congruence|reflexivity]).
  rewrite Ea. cbn [negb]. unfold validate_ica_address.
  assert (E1 : (128 <? slen (md_address md)) = false) by lia. rewrite E1, A7.
  assert (E2 : forallb (is_alnum (c_api c)) cps = true).
  { rewrite forallb_forall. rewrite Forall_forall in A8. intros x Hx. specialize (A8 x Hx).
    unfold is_alnum, alphanumeric, between in *. destruct (N.ltb_spec x 128); [|destruct A8 as [?|[?|[?|[? ?]]]]; [lia..|assumption]].
    destruct A8 as [?|[?|[?|[? ?]]]]; lia. }
  rewrite E2. cbn [orb negb bindo]. rewrite A4. reflexivity.
Qed.

(** ** The queries, as functions of the history *)

Lemma channel_reported_log c w ch st : cfg_ok c -> visited c w -> channel_reported w ch st ->
  w_log w <> [] /\ exists b, recorded (w_log w) = Some (ch, b) /\ st = if b then StOpen else StClosed.
Proof.
  intros Hc V (t & A & D).
  assert (Hl : w_log w <> []).
  { intro E. apply (store_log c w Hc V) in E. unfold ask in A. rewrite E in A. discriminate. }
  split; [exact Hl|]. pose proof (ask_channel c w Hc V Hl) as Q.
  destruct (recorded (w_log w)) as [[ch' b]|]; [|congruence].
  destruct Q as (t' & A' & D'). rewrite A in A'. injection A' as <-. rewrite D in D'. injection D' as -> ->. eauto.
Qed.

Lemma recorded_reported c w ch b : cfg_ok c -> visited c w -> recorded (w_log w) = Some (ch, b) ->
  channel_reported w ch (if b then StOpen else StClosed).
Proof.
  intros Hc V H. assert (Hl : w_log w <> []) by (intro E; rewrite E in H; discriminate).
  pose proof (ask_channel c w Hc V Hl) as Q. now rewrite H in Q.
Qed.

Lemma owner_reported_log c w o : cfg_ok c -> visited c w -> owner_reported w o ->
  w_log w <> [] /\ ow_owner o = owner_of (w_log w).
Proof.
  intros Hc V (t & A & D).
  assert (Hl : w_log w <> []).
  { intro E. apply (store_log c w Hc V) in E. unfold ask in A. rewrite E in A. discriminate. }
  split; [exact Hl|]. destruct (ask_ownership c w Hc V Hl) as (t' & A' & D').
  rewrite A in A'. injection A' as <-. rewrite D in D'. now injection D' as ->.
Qed.

Lemma state_reported_log c w st : cfg_ok c -> visited c w -> state_reported w st ->
  w_log w <> [] /\ st = ContractState (account_of (w_log w)) (callback_of (w_log w)).
Proof.
  intros Hc V (t & A & D).
  assert (Hl : w_log w <> []).
  { intro E. apply (store_log c w Hc V) in E. unfold ask in A. rewrite E in A. discriminate. }
  split; [exact Hl|]. destruct (ask_state c w Hc V Hl) as (t' & A' & D').
  rewrite A in A'. injection A' as <-. rewrite D in D'. now injection D' as ->.
Qed.

(** The last channel opened, on the chain. *)
Lemma last_opened_end c w ch : cfg_ok c -> visited c w -> last_opened (w_log w) = Some ch ->
  exists ce md, w_chans w (e_chan (ch_endpoint ch)) = Some ce /\ channel_of c (e_chan (ch_endpoint ch)) ce = ch /\
    from_json jc_metadata (ch_version ch) = Some md /\ agreed_version c (ch_connection ch) md /\
    (ce_state ce = COpen \/ ce_state ce = CClosed) /\
    (recorded_open_in (w_log w) = true -> ce_state ce = COpen).
Proof.
  intros Hc V H.
  assert (Hl : w_log w <> []) by (intro E; rewrite E in H; discriminate).
  destruct (store_some c w Hc V Hl) as [s Hs]. assert (I := visited_inv c w Hc V).
  pose proof (inv_recorded _ _ I _ Hs) as R. unfold inv_rec in R.
  destruct (recorded_is c w s Hc V Hs) as [_ R2]. unfold recorded_open, is_open in R2.
  destruct (st_channel s) as [cs|]; [|destruct R; congruence].
  destruct R as (st' & info & ce & md & I1 & I2 & I3 & I4 & I5 & I6 & I7 & I8 & I9 & I10 & I11 & I12).
  assert (cst_channel cs = ch) by congruence. subst ch.
  assert (E1 : e_chan (ch_endpoint (cst_channel cs)) = ii_channel info) by (rewrite I6; reflexivity).
  assert (E2 : ch_version (cst_channel cs) = ce_version ce) by (rewrite I6; reflexivity).
  rewrite E1, E2. exists ce, md.
  split; [exact I3|]. split; [congruence|]. split; [exact I9|].
  split. { apply agreed; [exact I11|]. rewrite I10. apply I12. }
  split; [destruct (ce_state ce); [congruence|auto..]|].
  rewrite <- R2. destruct I7 as [[-> I7]| ->]; [auto|discriminate].
Qed.
