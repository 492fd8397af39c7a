(** * PropFlow: properties of whole flows (C63-C66): the account can always be
    put to use, callbacks find the state they speak of, acknowledgements of an
    ordered channel come in order, and every packet is accounted for. *)

From Verif Require Import Base Text Utf8 Base64 Json JsonCodec Types JsonTypes Store CosmosMsg QueryMsg Metadata PacketData Ownable Contract
  JsonSound HostSpec AnswerSpec HostFacts PacketFacts EntryFacts Chain ChainSpec Trans Inv HistorySpec History Queries
  HistFacts Enabled Witness PropPacket PropAnswer PropChannel PropCallback.
From Coq Require Import ZifyBool ZifyN Sorted.
Local Open Scope string_scope.
Local Open Scope list_scope.
Local Open Scope N_scope.

(** ** C63: the owner can always get to send *)

(** Every supported request of [sender] is accepted and puts a packet with
    exactly the requested messages on channel [id], signed by [account], unless
    the packet has 2^32 bytes or more. *)
Definition accepts_requests (c : cfg) (w : world) (sender account id : string) : Prop :=
  forall h tm raw x ms qs memo t,
  h < u64_lim -> tm < u64_lim -> from_json jc_execute_msg raw = Some (XSendCosmosMsgs ms qs memo t) ->
  Forall supported ms -> Forall qsupported qs -> tm + unwrap_or t 600 * 10 ^ 9 < u64_lim ->
  exists s s' r data, w_store w = Some s /\
    execute (c_api c) s (Env h tm (c_self c)) sender (XSendCosmosMsgs ms qs memo t) = Ok (s', r) /\ sends_data r data /\
    (slen data < u32_lim -> exists w' p anys, step c (Tx (AExecute h tm sender raw x true) None) w = Some w' /\
       w_commit w' id (w_nextseq w id) = Some p /\ p_data p = data /\
       host_packet data = Some (anys, unwrap_or memo "") /\ packet_spec account ms qs anys).

(** While a channel is reported open, the owner can send on it. *)
Theorem C63_open_is_usable : forall c w ch oo owner,
  cfg_ok c -> visited c w -> channel_reported w ch StOpen -> owner_reported w oo -> ow_owner oo = Some owner ->
  w_nextseq w (e_chan (ch_endpoint ch)) < u64_lim ->
  exists info cb, state_reported w (ContractState (Some info) cb) /\ ii_channel info = e_chan (ch_endpoint ch) /\
    accepts_requests c w owner (ii_address info) (e_chan (ch_endpoint ch)).
Proof.
  intros c w ch oo owner Hc V RC RO Ho Hn.
  destruct (C14_open_is_open c w ch Hc V RC) as (ce & E1 & E2 & _).
  destruct (channel_reported_log _ _ _ _ Hc V RC) as (Hl & [|] & Hr & Hb); [|discriminate].
  destruct (C11_queries_agree c w Hc V) as ([info cb] & S1 & S2).
  { intro E. apply (store_log c w Hc V) in E. contradiction. }
  cbn [cs_ica] in S2. destruct info as [info|].
  2:{ destruct RC as (t & A & _). congruence. }
  destruct S2 as (ch' & st & md & R & _ & Eid & _).
  destruct (channel_reported_log _ _ _ _ Hc V R) as (_ & b & Hr' & _). rewrite Hr in Hr'. injection Hr' as <- <-.
  exists info, cb. split; [exact S1|]. split; [congruence|].
  intros h tm raw x ms qs memo t Hh Htm Hm Sm Sq Ht. rewrite Eid in *.
  assert (Hu : utf8 owner).
  { destruct (owner_reported_log _ _ _ Hc V RO) as (_ & Eo). rewrite Ho in Eo. symmetry in Eo.
    eapply owner_utf8; [exact (visited_hist c w Hc V)|exact Eo]. }
  destruct (C22_owner_can_send c w h tm owner raw x _ info oo ce ms qs memo t Hc V Hh Htm Hu Hm RO Ho S1 eq_refl E1 E2 Sm Sq Ht Hn)
    as (s & s' & r & data & H1 & H2 & H3 & H4).
  exists s, s', r, data. repeat split; try assumption. intro Hsz. destruct (H4 Hsz) as (w' & p & anys & A & H5).
  exists w', p, anys. split; [|exact H5]. cbn [step]. rewrite A. reflexivity.
Qed.

(** Otherwise two transactions suffice: CreateChannel by the owner and the
    host's answer.  They work with any valid options for icahost, any unused
    channel id and any account address. *)
Definition create_text (o : open_options) : string := to_json jc_execute_msg (XCreateChannel (Some o)).
Definition host_answer (o : open_options) (addr : string) : string :=
  to_json jc_metadata (Metadata "ics27-1" (oo_connection o) (oo_cp_connection o) addr Protobuf "sdk_multi_msg").

Lemma jval_options_conv o : utf8_options o -> jval jc_options o.
Proof.
  destruct o as [a b d e]. intros (H1 & H2 & H3). cbn [oo_connection oo_cp_connection oo_cp_port] in *.
  split; [exact H1|]. split; [exact H2|]. split.
  - destruct d; [split; [exact H3|discriminate]|exact I].
  - destruct e as [[]|]; repeat split; discriminate.
Qed.
Lemma create_text_reads o : utf8_options o -> from_json jc_execute_msg (create_text o) = Some (XCreateChannel (Some o)).
Proof.
  intro H. apply json_roundtrip; [apply jc_execute_msg_ok|]. split; [exact (jval_options_conv o H)|discriminate].
Qed.
Lemma host_answer_reads c o addr : utf8_options o -> account_address c addr ->
  utf8 (host_answer o addr) /\
  from_json jc_metadata (host_answer o addr) =
    Some (Metadata "ics27-1" (oo_connection o) (oo_cp_connection o) addr Protobuf "sdk_multi_msg").
Proof.
  intros (H1 & H2 & _) (_ & _ & l & Hl & _).
  assert (Hu : utf8 addr). { unfold utf8, utf8_valid. now rewrite Hl. }
  assert (J : jval jc_metadata (Metadata "ics27-1" (oo_connection o) (oo_cp_connection o) addr Protobuf "sdk_multi_msg")).
  { repeat split; assumption. }
  split; [apply to_json_utf8; [apply jc_metadata_ok|exact J]|apply json_roundtrip; [apply jc_metadata_ok|exact J]].
Qed.

Lemma no_sends c l id : hist c l -> opened l id = None -> sends l id = 0.
Proof.
  induction 1 as [|l new H IH B]; [reflexivity|]. intro E.
  destruct B as [B|B]; destruct B;
    repeat match goal with X : callback _ _ _ |- _ => destruct X as [? ->] end;
    try destruct (callback_of l); cbn [app sends opened] in *;
    try match goal with X : context [on_chan id ?ch] |- _ => destruct (on_chan id ch); [discriminate|] end; auto.
  all: match goal with X : p_src _ = ch_endpoint _ |- _ => rewrite X in * end.
  all: match goal with |- context [String.eqb ?x ?y] => destruct (String.eqb_spec x y) as [<-|]; [|auto] end.
  all: match goal with X : chan_open _ _ = true |- _ => apply chan_open_opened in X as [? X]; congruence end.
Qed.
Lemma callback_quiet l m i : callback l m i -> i = [] \/ exists x y, i = [LCall x y].
Proof. intros [_ ->]. destruct (callback_of l); eauto. Qed.

Theorem C63_reopen_and_use : forall c w st oo owner o id cp addr h t,
  cfg_ok c -> visited c w -> state_reported w st -> owner_reported w oo -> ow_owner oo = Some owner ->
  ~ (exists ch, channel_reported w ch StOpen) ->
  utf8_options o -> unwrap_or (oo_cp_port o) "icahost" = "icahost" ->
  slen (open_init_bytes (c_self c) o) < u32_lim ->
  w_chans w id = None -> utf8 id -> slen id <= 64 -> utf8 cp -> account_address c addr ->
  h < u64_lim -> t < u64_lim ->
  exists w', run c [Tx (AExecute h t owner (create_text o) id true) None;
                    Tx (AOpenAck id cp (host_answer o addr)) (Some [])] w = w' /\
    state_reported w' (ContractState (Some (IcaInfo addr id Protobuf)) (cs_callback st)) /\
    channel_reported w' (Channel (Endpoint (own_port c) id) (Endpoint "icahost" cp)
      (unwrap_or (oo_ordering o) Ordered) (host_answer o addr) (oo_connection o)) StOpen /\
    accepts_requests c w' owner addr id.
Proof.
  intros c w st oo owner o id cp addr h t Hc V RS0 RO Ho Hn Hu Hp Hsz Hid Hid1 Hid2 Hcp Ha Hh Ht.
  destruct (state_reported_log _ _ _ Hc V RS0) as (_ & ->). cbn [cs_callback].
  destruct (owner_reported_log _ _ _ Hc V RO) as (Hl & Eo). rewrite Ho in Eo. symmetry in Eo.
  assert (Huo : utf8 owner) by (eapply owner_utf8; [exact (visited_hist c w Hc V)|exact Eo]).
  assert (Hro : recorded_open_in (w_log w) = false).
  { unfold recorded_open_in. destruct (recorded (w_log w)) as [[ch b]|] eqn:Er; [|reflexivity].
    destruct b; [|reflexivity]. elim Hn. exists ch. exact (recorded_reported c w ch true Hc V Er). }
  destruct (act_create c h t owner (create_text o) id (Some o) o w Hc V Hh Ht Huo (create_text_reads o Hu) Eo Hro eq_refl
    (conj Hid (conj Hid1 Hid2)) Hp Hsz) as (w1 & A1 & L1 & C1).
  assert (V1 := visited_act _ _ _ _ _ V A1).
  destruct (host_answer_reads c o addr Hu Ha) as [Hv Hmd].
  pose proof (ic_chan _ _ (inv_chans _ _ (visited_inv c w Hc V)) id) as Ic. rewrite Hid in Ic. destruct Ic as [Ir Io].
  destruct (act_open_ack c w1 id cp (host_answer o addr) o (Metadata "ics27-1" (oo_connection o) (oo_cp_connection o) addr Protobuf "sdk_multi_msg") Hc V1 Hcp Hv) as (w2 & b & i & ch & A2 & Ech & L2 & Eb & Cb & ce & C2 & C3 & C4);
    [rewrite L1; cbn [requested]; rewrite String.eqb_refl; reflexivity|rewrite L1; cbn [opened]; exact Io|exact Hmd|
     repeat split; try reflexivity; apply Ha|].
  assert (V2 := visited_act _ _ _ _ _ V1 A2).
  assert (Hrun : run c [Tx (AExecute h t owner (create_text o) id true) None;
                    Tx (AOpenAck id cp (host_answer o addr)) (Some [])] w = w2).
  { unfold run. cbn [runs]. cbn [step]. rewrite A1. cbn [obind]. rewrite A2. cbn [obind]. destruct b; reflexivity. }
  exists w2. split; [exact Hrun|].
  assert (Ecb : callback_of (w_log w1) = callback_of (w_log w)) by (rewrite L1; reflexivity).
  assert (Hi : i = [] \/ exists x y, i = [LCall x y]) by (eapply callback_quiet; exact Cb).
  assert (Hne : w_log w2 <> []) by (rewrite L2; destruct i; discriminate).
  assert (Hlo : last_opened (w_log w2) = Some ch) by (rewrite L2; destruct Hi as [->|(? & ? & ->)]; reflexivity).
  assert (Hrec : recorded (w_log w2) = Some (ch, true)) by (rewrite L2; destruct Hi as [->|(? & ? & ->)]; reflexivity).
  assert (Ecb2 : callback_of (w_log w2) = callback_of (w_log w)).
  { rewrite L2, <- Ecb. destruct Hi as [->|(? & ? & ->)]; reflexivity. }
  assert (Eow2 : owner_of (w_log w2) = Some owner).
  { rewrite L2. destruct Hi as [->|(? & ? & ->)]; cbn [app owner_of]; rewrite L1; exact Eo. }
  assert (Eac : account_of (w_log w2) = Some (IcaInfo addr id Protobuf)).
  { unfold account_of. rewrite Hlo, Ech. cbn [ch_version ch_endpoint e_chan]. rewrite Hmd. reflexivity. }
  assert (RS : state_reported w2 (ContractState (Some (IcaInfo addr id Protobuf)) (callback_of (w_log w)))).
  { pose proof (ask_state c w2 Hc V2 Hne) as Q. rewrite Eac, Ecb2 in Q. exact Q. }
  assert (RC : channel_reported w2 ch StOpen) by exact (recorded_reported c w2 ch true Hc V2 Hrec).
  split; [exact RS|]. split; [rewrite <- Ech; exact RC|].
  destruct (ask_ownership c w2 Hc V2 Hne) as (tx & Q1 & Q2).
  assert (Hns : w_nextseq w2 id < u64_lim).
  { rewrite (il_seq _ (visited_log c w2 Hc V2)).
    assert (E0 : sends (w_log w2) id = sends (w_log w) id).
    { rewrite L2. destruct Hi as [->|(? & ? & ->)]; cbn [app sends]; rewrite L1; reflexivity. }
    rewrite E0, (no_sends c _ _ (visited_hist c w Hc V) Io). apply N.ltb_lt. vm_compute. reflexivity. }
  assert (Eid : e_chan (ch_endpoint ch) = id) by (rewrite Ech; reflexivity).
  destruct (C63_open_is_usable c w2 ch _ owner Hc V2 RC (ex_intro _ tx (conj Q1 Q2)) Eow2) as (info & cb & S1 & S2 & S3);
    [rewrite Eid; exact Hns|].
  destruct (state_reported_log _ _ _ Hc V2 S1) as (_ & S4). rewrite Eac in S4. injection S4 as -> _.
  rewrite Eid in S3. exact S3.
Qed.

Theorem C63_owner_gets_to_send : forall c w st oo owner o id cp addr h t,
  cfg_ok c -> visited c w -> state_reported w st -> owner_reported w oo -> ow_owner oo = Some owner ->
  utf8_options o -> unwrap_or (oo_cp_port o) "icahost" = "icahost" ->
  slen (open_init_bytes (c_self c) o) < u32_lim ->
  w_chans w id = None -> utf8 id -> slen id <= 64 -> utf8 cp -> account_address c addr ->
  h < u64_lim -> t < u64_lim -> (forall id, w_nextseq w id < u64_lim) ->
  exists l account id', (List.length l <= 2)%nat /\ accepts_requests c (run c l w) owner account id'.
Proof.
  intros c w st oo owner o id cp addr h t Hc V RS RO Ho Hu Hp Hsz Hid Hid1 Hid2 Hcp Ha Hh Ht Hn.
  destruct (recorded_open_in (w_log w)) eqn:E.
  - unfold recorded_open_in in E. destruct (recorded (w_log w)) as [[ch b]|] eqn:Er; [|discriminate]. subst b.
    destruct (C63_open_is_usable c w ch oo owner Hc V (recorded_reported c w ch true Hc V Er) RO Ho (Hn _))
      as (info & cb & _ & _ & A).
    exists [], (ii_address info), (e_chan (ch_endpoint ch)). split; [apply Nat.le_0_l|exact A].
  - destruct (C63_reopen_and_use c w st oo owner o id cp addr h t Hc V RS RO Ho) as (w' & R & _ & _ & A); try assumption.
    { intros (ch & RC). destruct (channel_reported_log _ _ _ _ Hc V RC) as (_ & [|] & Hr & Hb); [|discriminate].
      unfold recorded_open_in in E. rewrite Hr in E. discriminate. }
    eexists _, addr, id. split; [|rewrite R; exact A]. apply Nat.le_refl.
Qed.

Lemma other_address : account_address cfg0 "cosmos1other".
Proof.
  split; [discriminate|]. split; [apply N.leb_le; vm_compute; reflexivity|]. eexists. split; [vm_compute; reflexivity|].
  repeat (apply Forall_cons; [unfold alphanumeric; lia|]). apply Forall_nil.
Qed.
(** A closed channel, where two transactions are needed, and an open one. *)
Example C63_case : exists w w',
  visited cfg0 w /\ (exists st, state_reported w st) /\ owner_reported w (Ownership (Some "owner") None None) /\
  ~ (exists ch, channel_reported w ch StOpen) /\
  utf8_options (opts0 (Some Unordered)) /\ unwrap_or (oo_cp_port (opts0 (Some Unordered))) "icahost" = "icahost" /\
  slen (open_init_bytes "controller" (opts0 (Some Unordered))) < u32_lim /\ w_chans w "channel-1" = None /\
  account_address cfg0 "cosmos1other" /\
  run cfg0 [Tx (AExecute 5 6 "owner" (create_text (opts0 (Some Unordered))) "channel-1" true) None;
            Tx (AOpenAck "channel-1" "channel-8" (host_answer (opts0 (Some Unordered)) "cosmos1other")) (Some [])] w = w' /\
  (exists ch, channel_reported w' ch StOpen /\ w_nextseq w' (e_chan (ch_endpoint ch)) < u64_lim).
Proof.
  set (w := world_of (ordered_open ++ [exec "owner" XCloseChannel ""])).
  eexists w, _. split; [apply world_visited|]. split; [eexists; apply state_reported_by; vm_compute; reflexivity|].
  split; [apply owner_reported_by; vm_compute; reflexivity|]. split.
  { intros (ch & H). apply (channel_reported_log cfg0 w ch StOpen cfg0_ok (world_visited _)) in H as (_ & b & H & Hb).
    assert (E : recorded_open_in (w_log w) = false) by (vm_compute; reflexivity). unfold recorded_open_in in E.
    rewrite H in E. subst b. discriminate Hb. }
  split; [repeat split; vm_compute; reflexivity|]. split; [reflexivity|].
  split; [apply N.ltb_lt; vm_compute; reflexivity|]. split; [vm_compute; reflexivity|].
  split; [exact other_address|]. split; [reflexivity|]. eexists. split; [apply channel_reported_by; vm_compute; reflexivity|].
  apply N.ltb_lt. vm_compute. reflexivity.
Qed.

(** ** C64: a callback speaks of the state its receiver finds *)

(** The queries of the contract and the chain, when the callback contract runs. *)
Theorem C64_callback_state : forall c w a addr w' b,
  cfg_ok c -> visited c w -> lifecycle a -> calls_back w addr -> act c a w = Some (w', b) ->
  exists msg m l info, w_log w' = LCall addr msg :: l /\ from_json jc_receiver msg = Some m /\
    state_reported w' (ContractState info (Some addr)) /\
    match m with
    | CbOpenAck ch account enc =>
        info = Some (IcaInfo account (e_chan (ch_endpoint ch)) enc) /\ channel_reported w' ch StOpen /\
        exists ce, w_chans w' (e_chan (ch_endpoint ch)) = Some ce /\ ce_state ce = COpen
    | CbAck _ p _ _ => w_commit w' (e_chan (p_src p)) (p_seq p) = None
    | CbTimeout p _ => w_commit w' (e_chan (p_src p)) (p_seq p) = None /\
        (forall ch st, channel_reported w' ch st -> ch_order ch = Ordered -> st = StClosed) /\
        exists ce, w_chans w' (e_chan (p_src p)) = Some ce /\ (ce_order ce = Ordered -> ce_state ce = CClosed)
    end.
Proof.
  intros c w a addr w' b Hc V L [info0 R] H. assert (V' := visited_act _ _ _ _ _ V H).
  apply (state_reported_log c w _ Hc V) in R as [Hl R]. injection R as _ Ecb. symmetry in Ecb.
  assert (G : forall m l, w_log w' = LCall addr (to_json jc_receiver m) :: l -> callback_of l = Some addr -> jval jc_receiver m ->
    exists msg l', w_log w' = LCall addr msg :: l' /\ from_json jc_receiver msg = Some m /\
      state_reported w' (ContractState (account_of l) (Some addr))).
  { intros m l E Cl J. eexists _, _. split; [exact E|]. split; [apply json_roundtrip; [exact jc_receiver_ok|exact J]|].
    pose proof (ask_state c w' Hc V') as Q. rewrite E in Q. cbn [callback_of] in Q. rewrite Cl in Q. apply Q. discriminate. }
  destruct a; try (now elim L).
  - destruct (open_ack_block _ _ _ _ _ _ _ Hc V H) as (ce & ch & md & i & Hce & Ech & Hmd & [J Ei] & El).
    rewrite Ecb in Ei. subst i. cbn [app] in El.
    destruct (G _ _ El Ecb J) as (msg & l' & G1 & G2 & G3). eexists msg, _, l', (account_of (LChanOpen ch :: w_log w)).
    split; [exact G1|]. split; [exact G2|]. split; [exact G3|].
    split. { unfold account_of. cbn [last_opened]. rewrite Ech. cbn [ch_version]. rewrite Hmd. reflexivity. }
    assert (RC : channel_reported w' ch StOpen) by (apply (recorded_reported c w' ch true Hc V'); rewrite El; reflexivity).
    split; [exact RC|]. destruct (C14_open_is_open c w' ch Hc V' RC) as (ce' & E1 & E2 & _). eauto.
  - destruct (ack_block _ _ _ _ _ _ _ _ Hc V H) as (p & d & qr & last & i & Hp & _ & _ & Hd & _ & [J Ei] & El).
    rewrite Ecb in Ei. subst i. cbn [app] in El.
    destruct (G _ _ El Ecb J) as (msg & l' & G1 & G2 & G3). eexists msg, _, l', _.
    split; [exact G1|]. split; [exact G2|]. split; [exact G3|].
    rewrite (ip_commit _ (inv_pkts _ _ (visited_inv c w' Hc V'))), El. cbn [unresolved]. unfold at_pkt.
    rewrite String.eqb_refl, N.eqb_refl. reflexivity.
  - destruct (timeout_block _ _ _ _ _ _ _ Hc V H) as (p & i & Hp & [J Ei] & El).
    rewrite Ecb in Ei. subst i. cbn [app] in El.
    destruct (G _ _ El Ecb J) as (msg & l' & G1 & G2 & G3). eexists msg, _, l', _.
    split; [exact G1|]. split; [exact G2|]. split; [exact G3|].
    split.
    { rewrite (ip_commit _ (inv_pkts _ _ (visited_inv c w' Hc V'))), El. cbn [unresolved]. unfold at_pkt.
      rewrite String.eqb_refl, N.eqb_refl. reflexivity. }
    split.
    { intros ch st RC Ho. destruct (channel_reported_log _ _ _ _ Hc V' RC) as (_ & b' & Hr & Hb).
      rewrite El in Hr. cbn [recorded] in Hr. destruct (recorded (w_log w)) as [[ch0 b0]|]; [|discriminate].
      destruct (order_eqb (ch_order ch0) Ordered) eqn:Eo; injection Hr as -> <-; [exact Hb|].
      rewrite Ho in Eo. discriminate. }
    assert (U : unresolved (w_log w) id seq = Some p)
      by (rewrite <- (ip_commit _ (inv_pkts _ _ (visited_inv c w Hc V))); exact Hp).
    destruct (ic_pkt _ _ (inv_chans _ _ (visited_inv c w Hc V)) _ _ _ U) as (ce0 & E0 & S0 & Esrc & _).
    pose proof (ic_chan _ _ (inv_chans _ _ (visited_inv c w Hc V)) id) as I0. rewrite E0 in I0.
    destruct I0 as (_ & _ & _ & _ & _ & I0).
    assert (Op : opened (w_log w) id <> None) by (destruct (ce_state ce0); [now elim S0|destruct I0; congruence|destruct I0; congruence]).
    pose proof (ic_chan _ _ (inv_chans _ _ (visited_inv c w' Hc V')) id) as I1. rewrite El in I1.
    cbn [opened chan_open] in I1. rewrite Esrc in *. cbn [e_chan] in *. rewrite String.eqb_refl in I1. cbn [andb] in I1.
    destruct (w_chans w' id) as [ce|]; [|destruct I1; contradiction]. exists ce. split; [reflexivity|]. intro Eo.
    destruct I1 as (_ & _ & _ & _ & _ & I1). destruct (ce_state ce); [contradiction| |reflexivity].
    destruct I1 as [I1 I2]. unfold chan_ordered in I2. rewrite I1 in I2. unfold channel_of in I2. cbn [ch_order] in I2.
    rewrite Eo in I2. discriminate.
Qed.

(** The owner, as callback contract, can send as soon as it is told that the
    channel is open. *)
Theorem C64_send_in_callback : forall c w id cp v addr oo w' b beh,
  cfg_ok c -> visited c w -> calls_back w addr -> owner_reported w oo -> ow_owner oo = Some addr ->
  act c (AOpenAck id cp v) w = Some (w', b) ->
  step c (Tx (AOpenAck id cp v) (Some beh)) w = Some (run c beh w') /\
  exists info, state_reported w' (ContractState (Some info) (Some addr)) /\ ii_channel info = id /\
    accepts_requests c w' addr (ii_address info) id.
Proof.
  intros c w id cp v addr oo w' b beh Hc V CB RO Ho H.
  split; [exact (C35_retry c w (AOpenAck id cp v) addr w' b beh Hc V I CB H)|]. assert (V' := visited_act _ _ _ _ _ V H).
  destruct (open_ack_block _ _ _ _ _ _ _ Hc V H) as (ce & ch & md & i & Hce & Ech & Hmd & Cb & El).
  destruct CB as [info0 R]. apply (state_reported_log c w _ Hc V) in R as [Hl R]. injection R as _ Ecb. symmetry in Ecb.
  destruct (owner_reported_log _ _ _ Hc V RO) as (_ & Eo). rewrite Ho in Eo. symmetry in Eo.
  assert (Hi : exists x y, i = [LCall x y]) by (destruct Cb as [_ ->]; rewrite Ecb; eauto).
  destruct Hi as (x & y & ->). cbn [app] in El.
  assert (RC : channel_reported w' ch StOpen) by (apply (recorded_reported c w' ch true Hc V'); rewrite El; reflexivity).
  assert (Eid : e_chan (ch_endpoint ch) = id) by (rewrite Ech; reflexivity).
  pose proof (ask_ownership c w' Hc V') as RO'. rewrite El in RO'. specialize (RO' ltac:(discriminate)).
  assert (Op : opened (w_log w) id = None).
  { pose proof (ic_chan _ _ (inv_chans _ _ (visited_inv c w Hc V)) id) as I0. rewrite Hce in I0.
    cbn [act] in H. apply obind_some in H as (? & _ & H). apply obind_some in H as (ce' & Hce' & H).
    rewrite Hce in Hce'. injection Hce' as <-. apply obind_some in H as (? & Hg & _).
    destruct I0 as (_ & _ & _ & _ & _ & I0). destruct (ce_state ce); [exact I0|discriminate|discriminate]. }
  destruct (C63_open_is_usable c w' ch _ addr Hc V' RC RO' Eo) as (info & cb & S1 & S2 & S3).
  { rewrite Eid, (il_seq _ (visited_log c w' Hc V')), El. cbn [sends]. rewrite (no_sends c _ _ (visited_hist c w Hc V) Op).
    apply N.ltb_lt. vm_compute. reflexivity. }
  rewrite Eid in *. exists info. split; [|split; [exact S2|exact S3]].
  destruct (state_reported_log _ _ _ Hc V' S1) as (_ & S4). rewrite El in S4. cbn [callback_of] in S4. rewrite Ecb in S4.
  injection S4 as _ <-. exact S1.
Qed.

(** An opening, an acknowledgement and a timeout with a callback contract that
    owns the controller. *)
Definition own_callback : list tx := [inst None (Some "owner")].
Definition own_callback_sent : list tx :=
  own_callback ++ [open_ack "channel-0" "channel-7" "cosmos1acc"; exec "owner" (send0 [bank0] [query0]) ""].
Example C64_case :
  calls_back (world_of own_callback) "owner" /\ owner_reported (world_of own_callback) (Ownership (Some "owner") None None) /\
  act cfg0 (AOpenAck "channel-0" "channel-7" (host_version "cosmos1acc")) (world_of own_callback) <> None /\
  calls_back (world_of own_callback_sent) "owner" /\
  act cfg0 (AAck "channel-0" 1 (to_json jc_ack (AckError "failed")) "relayer") (world_of own_callback_sent) <> None /\
  act cfg0 (ATimeout "channel-0" 1 "relayer") (world_of own_callback_sent) <> None.
Proof.
  split; [eexists; apply state_reported_by; vm_compute; reflexivity|].
  split; [apply owner_reported_by; vm_compute; reflexivity|]. split; [vm_compute; discriminate|].
  split; [eexists; apply state_reported_by; vm_compute; reflexivity|]. split; vm_compute; discriminate.
Qed.

(** ** C65: order of packets and acknowledgements *)

(** The sequences sent, acknowledged and told to the callback contract as
    acknowledged, on channel [id], oldest first. *)
Fixpoint sent_on (id : string) (l : list logitem) : list N :=
  match l with
  | [] => []
  | LSent _ _ _ p :: r => if String.eqb (e_chan (p_src p)) id then sent_on id r ++ [p_seq p] else sent_on id r
  | _ :: r => sent_on id r
  end.
Fixpoint acked_on (id : string) (l : list logitem) : list N :=
  match l with
  | [] => []
  | LAck p _ _ :: r => if String.eqb (e_chan (p_src p)) id then acked_on id r ++ [p_seq p] else acked_on id r
  | _ :: r => acked_on id r
  end.
Fixpoint told_on (id : string) (l : list logitem) : list N :=
  match l with
  | [] => []
  | LCall _ msg :: r =>
      match from_json jc_receiver msg with
      | Some (CbAck _ p _ _) => if String.eqb (e_chan (p_src p)) id then told_on id r ++ [p_seq p] else told_on id r
      | _ => told_on id r
      end
  | _ :: r => told_on id r
  end.
(** 1, 2, ..., k *)
Definition upto (k : nat) : list N := map N.of_nat (seq 1 k).

Lemma upto_S k : upto (S k) = upto k ++ [N.of_nat k + 1].
Proof. unfold upto. rewrite seq_S, map_app. cbn [map]. do 3 f_equal. lia. Qed.
Lemma sends_count c l id : hist c l -> sent_on id l = upto (N.to_nat (sends l id)).
Proof.
  induction 1 as [|l new H IH B]; [reflexivity|].
  destruct B as [B|B]; destruct B;
    repeat match goal with X : callback _ _ _ |- _ => destruct X as [? ->] end;
    try destruct (callback_of l); cbn [app sends sent_on] in *; auto.
  all: match goal with X : p_src _ = ch_endpoint _ |- _ => rewrite X in * end.
  all: match goal with |- context [String.eqb ?x ?y] => destruct (String.eqb_spec x y) as [<-|]; [|auto] end.
  all: match goal with X : p_seq _ = _ |- _ => rewrite X end.
  all: rewrite IH, N2Nat.inj_add; change (N.to_nat 1) with 1%nat; cbn [Nat.add]; rewrite upto_S, N2Nat.id; reflexivity.
Qed.
Lemma call_told id addr m r : jval jc_receiver m ->
  told_on id (LCall addr (to_json jc_receiver m) :: r) =
  match m with CbAck _ p _ _ => if String.eqb (e_chan (p_src p)) id then told_on id r ++ [p_seq p] else told_on id r | _ => told_on id r end.
Proof. intro J. cbn [told_on]. rewrite json_roundtrip by first [exact jc_receiver_ok|exact J]. destruct m; reflexivity. Qed.
Lemma sorted_snoc l x : StronglySorted N.lt l -> Forall (fun y => y < x) l -> StronglySorted N.lt (l ++ [x]).
Proof.
  induction 1 as [|y l S IH F]; intro H; cbn [app]; [repeat constructor|]. inversion H; subst.
  constructor; [auto|]. apply Forall_app. split; [assumption|repeat constructor; assumption].
Qed.
Lemma acks_order c l id : hist c l ->
  (opened l id = None -> acked_on id l = [] /\ acks l id = 0 /\ told_on id l = []) /\
  (chan_ordered l id = true -> acked_on id l = upto (N.to_nat (acks l id)) /\
     StronglySorted N.lt (told_on id l) /\ Forall (fun n => 1 <= n <= acks l id) (told_on id l)).
Proof.
  induction 1 as [|l new H [IH1 IH2] B]; [split; [auto|discriminate]|].
  destruct B as [B|B]; destruct B;
    repeat match goal with X : callback _ _ _ |- _ => destruct X as [? ->] end;
    try (cbn [app opened acks acked_on told_on] in *; unfold chan_ordered in *; cbn [opened] in *; auto; fail).
  - assert (E : on_chan id ch = true -> id = id0).
    { unfold on_chan. intro E. apply String.eqb_eq in E. match goal with X : ch_endpoint ch = _ |- _ => rewrite X in E end. now symmetry. }
    assert (G : opened (LChanOpen ch :: l) id = None -> acked_on id l = [] /\ acks l id = 0 /\ told_on id l = []).
    { cbn [opened]. destruct (on_chan id ch); [discriminate|auto]. }
    assert (G2 : chan_ordered (LChanOpen ch :: l) id = true ->
       acked_on id l = upto (N.to_nat (acks l id)) /\ StronglySorted N.lt (told_on id l) /\
       Forall (fun n => 1 <= n <= acks l id) (told_on id l)).
    { unfold chan_ordered. cbn [opened]. destruct (on_chan id ch); [|auto]. specialize (E eq_refl). subst id0.
      intros _. destruct IH1 as (-> & -> & ->); [assumption|]. repeat constructor. }
    destruct (callback_of l); cbn [app]; rewrite ?call_told by assumption; exact (conj G G2).
  - assert (Eo : forall x, opened (LEvent (ack_event p last) :: LAck p ack relayer :: l) x = opened l x) by reflexivity.
    destruct (String.eqb_spec (e_chan (p_src p)) id) as [<-|Hne].
    + match goal with X : chan_open _ _ = true |- _ => apply chan_open_opened in X as [cho X]; rename X into Hop end.
      assert (Hn : opened l (e_chan (p_src p)) <> None) by congruence.
      assert (Ek : acks (LEvent (ack_event p last) :: LAck p ack relayer :: l) (e_chan (p_src p)) = 1 + acks l (e_chan (p_src p)))
        by (cbn [acks]; now rewrite String.eqb_refl).
      assert (Ea : acked_on (e_chan (p_src p)) (LEvent (ack_event p last) :: LAck p ack relayer :: l) =
        acked_on (e_chan (p_src p)) l ++ [p_seq p]) by (cbn [acked_on]; now rewrite String.eqb_refl).
      assert (G : chan_ordered l (e_chan (p_src p)) = true ->
        acked_on (e_chan (p_src p)) l ++ [p_seq p] = upto (N.to_nat (1 + acks l (e_chan (p_src p)))) /\
        (forall told, told = told_on (e_chan (p_src p)) l \/ told = told_on (e_chan (p_src p)) l ++ [p_seq p] ->
           StronglySorted N.lt told /\ Forall (fun n => 1 <= n <= 1 + acks l (e_chan (p_src p))) told)).
      { intro Ho. destruct (IH2 Ho) as (-> & S & F).
        match goal with X : _ -> p_seq p = _ |- _ => rewrite (X Ho) end. split.
        - rewrite N2Nat.inj_add. change (N.to_nat 1) with 1%nat. cbn [Nat.add]. now rewrite upto_S, N2Nat.id.
        - intros told [->| ->].
          + split; [exact S|]. eapply Forall_impl; [|exact F]. cbn beta. lia.
          + split; [apply sorted_snoc; [exact S|]; eapply Forall_impl; [|exact F]; cbn beta; lia|].
            apply Forall_app. split; [eapply Forall_impl; [|exact F]; cbn beta; lia|repeat constructor; lia]. }
      destruct (callback_of l); cbn [app]; rewrite ?call_told by assumption; split;
        try (cbn [opened]; intro; contradiction); intro Ho; destruct (G Ho) as [G1 G2].
      * rewrite String.eqb_refl. cbn [acked_on acks]. rewrite String.eqb_refl. split; [exact G1|]. apply G2. now right.
      * cbn [acked_on acks]. rewrite String.eqb_refl. split; [exact G1|]. apply G2. now left.
    + apply String.eqb_neq in Hne.
      destruct (callback_of l); cbn [app]; rewrite ?call_told by assumption; cbn [opened acked_on acks told_on];
        unfold chan_ordered in *; cbn [opened]; rewrite Hne; exact (conj IH1 IH2).
  - destruct (callback_of l); cbn [app]; rewrite ?call_told by assumption; exact (conj IH1 IH2).
Qed.

(** Packets of a channel are numbered 1, 2, ... in the order they are sent. *)
Theorem C65_sent_in_order : forall c w id, cfg_ok c -> visited c w ->
  sent_on id (w_log w) = upto (List.length (sent_on id (w_log w))).
Proof.
  intros c w id Hc V. rewrite (sends_count c _ _ (visited_hist c w Hc V)). unfold upto.
  now rewrite map_length, seq_length.
Qed.

Lemma end_opened c w id ce : cfg_ok c -> visited c w -> w_chans w id = Some ce -> ce_state ce <> CInit ->
  opened (w_log w) id = Some (channel_of c id ce) /\ (ce_state ce = CClosed <-> chan_open (w_log w) id = false).
Proof.
  intros Hc V E Hs. pose proof (ic_chan _ _ (inv_chans _ _ (visited_inv c w Hc V)) id) as I0. rewrite E in I0.
  destruct I0 as (_ & _ & _ & _ & _ & I0). destruct (ce_state ce); [now elim Hs| |]; destruct I0 as [I0 I1];
    (split; [exact I0|]); rewrite I1; split; intro; congruence.
Qed.

(** On an ordered channel they are acknowledged 1, 2, ... without gaps, and the
    callback contract is told in that order. *)
Theorem C65_acknowledged_in_order : forall c w id ce, cfg_ok c -> visited c w ->
  w_chans w id = Some ce -> ce_order ce = Ordered ->
  acked_on id (w_log w) = upto (List.length (acked_on id (w_log w))) /\
  StronglySorted N.lt (told_on id (w_log w)) /\ incl (told_on id (w_log w)) (acked_on id (w_log w)).
Proof.
  intros c w id ce Hc V E Ho. destruct (acks_order c _ id (visited_hist c w Hc V)) as [A1 A2].
  assert (D : ce_state ce = CInit \/ ce_state ce <> CInit) by (destruct (ce_state ce); [now left|right|right]; discriminate).
  destruct D as [D|D].
  - pose proof (ic_chan _ _ (inv_chans _ _ (visited_inv c w Hc V)) id) as I0. rewrite E in I0.
    destruct I0 as (_ & _ & _ & _ & _ & I0). rewrite D in I0. destruct (A1 I0) as (-> & _ & ->).
    repeat split; [constructor|intros x []].
  - destruct (end_opened c w id ce Hc V E D) as [D1 _]. destruct A2 as (B1 & B2 & B3).
    { unfold chan_ordered. rewrite D1. unfold channel_of. cbn [ch_order]. now rewrite Ho. }
    split; [rewrite B1; unfold upto; now rewrite map_length, seq_length|]. split; [exact B2|].
    intros n Hn. rewrite B1. apply (proj1 (Forall_forall _ _) B3) in Hn. cbn beta in Hn.
    unfold upto. apply in_map_iff. exists (N.to_nat n). split; [apply N2Nat.id|]. apply in_seq. lia.
Qed.

Lemma sends_in e sd m p l : In (LSent e sd m p) l -> 1 <= sends l (e_chan (p_src p)).
Proof.
  induction l as [|x l IH]; [intros []|]. intros [->|H]; cbn [sends].
  - rewrite String.eqb_refl. lia.
  - specialize (IH H). destruct x; try exact IH. destruct (String.eqb _ _); lia.
Qed.
Lemma timed_out_closed c l id p relayer : hist c l -> In (LTimeout p relayer) l -> e_chan (p_src p) = id ->
  opened l id <> None /\ (chan_ordered l id = true -> chan_open l id = false).
Proof.
  intros H Hin <-. induction H as [|l new H IH B]; [contradiction|].
  assert (D : In (LTimeout p relayer) l \/ exists n1 n2, new = n1 ++ LTimeout p relayer :: n2).
  { apply in_app_or in Hin as [Hin|Hin]; [right; exact (in_split _ _ Hin)|now left]. }
  clear Hin. destruct D as [D|(n1 & n2 & D)].
  - specialize (IH D). destruct IH as [J1 J2].
    destruct B as [B|B]; destruct B;
      repeat match goal with X : callback _ _ _ |- _ => destruct X as [? ->] end;
      try destruct (callback_of l); unfold chan_ordered in *; cbn [app opened chan_open] in *; auto.
    all: try (destruct (String.eqb _ _); auto; fail).
    all: try (destruct (_ && _); auto; fail).
    all: unfold on_chan in *; match goal with X : ch_endpoint _ = _ |- _ => rewrite X in * end; cbn [e_chan] in *.
    all: match goal with |- context [String.eqb ?x ?y] => destruct (String.eqb_spec x y) as [E|]; [|auto] end.
    all: rewrite <- E in *; contradiction.
  - subst new. block_cases B.
    all: match goal with X : unresolved _ _ _ = Some _ |- _ => apply unresolved_in in X as (e & sd & m & U) end.
    all: apply sends_in in U. all: match goal with X : LTimeout _ _ = _ |- _ => injection X as -> -> end.
    all: assert (Ho : opened l (e_chan (p_src p)) <> None) by (intro Z; apply (no_sends c) in Z; [lia|assumption]).
    all: unfold chan_ordered in *; cbn [app opened chan_open] in *; unfold chan_ordered in *.
    all: split; [exact Ho|]; rewrite String.eqb_refl; intros ->; reflexivity.
Qed.

(** After a timeout on an ordered channel there is no acknowledgement, for the
    channel is closed for good. *)
Theorem C65_timeout_is_last : forall c w p relayer ce, cfg_ok c -> visited c w ->
  In (LTimeout p relayer) (w_log w) -> w_chans w (e_chan (p_src p)) = Some ce -> ce_order ce = Ordered ->
  ce_state ce = CClosed /\ (forall n ack relayer', act c (AAck (e_chan (p_src p)) n ack relayer') w = None).
Proof.
  intros c w p relayer ce Hc V Hin E Ho.
  destruct (timed_out_closed c _ _ p relayer (visited_hist c w Hc V) Hin eq_refl) as [T1 T2].
  assert (D : ce_state ce <> CInit).
  { intro D. pose proof (ic_chan _ _ (inv_chans _ _ (visited_inv c w Hc V)) (e_chan (p_src p))) as I0. rewrite E in I0.
    destruct I0 as (_ & _ & _ & _ & _ & I0). rewrite D in I0. contradiction. }
  destruct (end_opened c w _ ce Hc V E D) as [D1 D2].
  assert (S : ce_state ce = CClosed).
  { apply D2, T2. unfold chan_ordered. rewrite D1. unfold channel_of. cbn [ch_order]. now rewrite Ho. }
  split; [exact S|]. intros n ack relayer'. cbn [act].
  destruct (guard _); [|reflexivity]. cbn [obind]. rewrite E. cbn [obind]. rewrite S. reflexivity.
Qed.

(** Two packets on an ordered channel: the first acknowledged, the second timed out. *)
Definition in_order : list tx :=
  ordered_open ++ [exec "owner" (send0 [bank0] []) ""; exec "owner" (send0 [bank0] [query0]) "";
    ack "channel-0" 1 (AckError "failed"); timed_out "channel-0" 2].
Example C65_case : exists ce p relayer,
  sent_on "channel-0" (w_log (world_of in_order)) = [1; 2] /\ acked_on "channel-0" (w_log (world_of in_order)) = [1] /\
  told_on "channel-0" (w_log (world_of in_order)) = [1] /\
  w_chans (world_of in_order) "channel-0" = Some ce /\ ce_order ce = Ordered /\
  In (LTimeout p relayer) (w_log (world_of in_order)) /\ e_chan (p_src p) = "channel-0" /\ p_seq p = 2.
Proof.
  assert (L : exists p r x l, w_log (world_of in_order) = x :: LTimeout p r :: l /\ e_chan (p_src p) = "channel-0" /\ p_seq p = 2).
  { eexists _, _, _, _. split; [vm_compute; reflexivity|]. split; reflexivity. }
  destruct L as (p & r & x & l & L & L1 & L2).
  eexists _, p, r. split; [vm_compute; reflexivity|]. split; [vm_compute; reflexivity|]. split; [vm_compute; reflexivity|].
  split; [vm_compute; reflexivity|]. split; [reflexivity|]. split; [|auto]. rewrite L. right. now left.
Qed.

(** ** C66: every packet is accounted for *)

Definition acks_of (id : string) (n : N) (i : logitem) : bool := match i with LAck p _ _ => at_pkt id n p | _ => false end.
Definition timeouts_of (id : string) (n : N) (i : logitem) : bool := match i with LTimeout p _ => at_pkt id n p | _ => false end.

Lemma resolves_split id n l : count (resolves id n) l = (count (acks_of id n) l + count (timeouts_of id n) l)%nat.
Proof.
  induction l as [|x l IH]; [reflexivity|]. rewrite !count_cons. destruct x; cbn [resolves acks_of timeouts_of]; lia.
Qed.

Lemma count_in f x l : In x l -> f x = true -> (1 <= count f l)%nat.
Proof.
  intros Hin Hf. induction l as [|y l IH]; [contradiction|]. rewrite count_cons. destruct Hin as [->|Hin].
  - rewrite Hf. lia.
  - specialize (IH Hin). lia.
Qed.
Lemma count_one f x y l : (count f l <= 1)%nat -> In x l -> In y l -> f x = true -> f y = true -> x = y.
Proof.
  intros H Hx Hy Fx Fy. induction l as [|z l IH]; [contradiction|]. rewrite count_cons in H.
  destruct Hx as [->|Hx], Hy as [->|Hy].
  - reflexivity.
  - rewrite Fx in H. pose proof (count_in f y l Hy Fy). lia.
  - rewrite Fy in H. pose proof (count_in f x l Hx Fx). lia.
  - apply IH; try assumption. lia.
Qed.
Lemma commits_self p e sd m : commits (e_chan (p_src p)) (p_seq p) (LSent e sd m p) = true.
Proof. cbn [commits]. unfold at_pkt. now rewrite String.eqb_refl, N.eqb_refl. Qed.

(** A packet that was sent is outstanding, and then the chain still holds it; or
    it was acknowledged once; or it timed out once. *)
Theorem C66_accounted : forall c w e sender m p, cfg_ok c -> visited c w -> In (LSent e sender m p) (w_log w) ->
  let id := e_chan (p_src p) in let n := p_seq p in
  let acked := count (acks_of id n) (w_log w) in let timed := count (timeouts_of id n) (w_log w) in
  (w_commit w id n = Some p /\ acked = 0%nat /\ timed = 0%nat) \/
  (w_commit w id n = None /\ acked = 1%nat /\ timed = 0%nat) \/
  (w_commit w id n = None /\ acked = 0%nat /\ timed = 1%nat).
Proof.
  intros c w e sender m p Hc V Hin id n acked timed.
  destruct (resolved_hist c _ id n (visited_hist c w Hc V)) as (H1 & H2 & _). rewrite resolves_split in H1.
  fold acked timed in H1. rewrite (ip_commit _ (inv_pkts _ _ (visited_inv c w Hc V))).
  pose proof (count_in (commits id n) _ _ Hin (commits_self p e sender m)) as Hs.
  destruct (sent_by (w_log w) id n); [|lia].
  destruct (unresolved (w_log w) id n) as [q|] eqn:U;
    [|right; destruct (Nat.eq_dec acked 1); [left|right]; (split; [reflexivity|lia])]. left.
  split; [|lia]. f_equal.
  destruct (unresolved_in _ _ _ _ U) as (e' & sd' & m' & Hin'). apply unresolved_at in U as [U1 U2].
  assert (X : LSent e sender m p = LSent e' sd' m' q).
  { apply (count_one (commits id n) _ _ (w_log w)); [lia|exact Hin|exact Hin'|apply commits_self|].
    rewrite <- U1, <- U2. apply commits_self. }
  now injection X.
Qed.

(** What the chain holds was sent. *)
Theorem C66_held_was_sent : forall c w id n p, cfg_ok c -> visited c w -> w_commit w id n = Some p ->
  e_chan (p_src p) = id /\ p_seq p = n /\ exists e sender m, In (LSent e sender m p) (w_log w).
Proof.
  intros c w id n p Hc V H. rewrite (ip_commit _ (inv_pkts _ _ (visited_inv c w Hc V))) in H.
  destruct (unresolved_at _ _ _ _ H) as [H1 H2]. split; [exact H1|]. split; [exact H2|]. exact (unresolved_in _ _ _ _ H).
Qed.

(** The number of packets of a channel that are outstanding. *)
Definition held (w : world) (id : string) (n : N) : bool := match w_commit w id n with Some _ => true | None => false end.
Definition acks_on (id : string) (i : logitem) : bool := match i with LAck p _ _ => String.eqb (e_chan (p_src p)) id | _ => false end.
Definition timeouts_on (id : string) (i : logitem) : bool := match i with LTimeout p _ => String.eqb (e_chan (p_src p)) id | _ => false end.
Definition sends_on (id : string) (i : logitem) : bool := match i with LSent _ _ _ p => String.eqb (e_chan (p_src p)) id | _ => false end.

(** Packets sent on a channel are those acknowledged, those timed out and those
    the chain still holds. *)
Definition cnt (f : N -> bool) (k : nat) : nat := List.length (filter f (upto k)).
Lemma cnt_S f k : cnt f (S k) = (cnt f k + if f (N.of_nat k + 1)%N then 1 else 0)%nat.
Proof. unfold cnt. rewrite upto_S, filter_app, app_length. cbn [filter]. destruct (f _); reflexivity. Qed.
Lemma cnt_ext f g k : (forall n, n <= N.of_nat k -> f n = g n) -> cnt f k = cnt g k.
Proof.
  induction k as [|k IH]; intro H; [reflexivity|]. rewrite !cnt_S, IH by (intros n Hn; apply H; lia).
  now rewrite (H (N.of_nat k + 1)) by lia.
Qed.
Lemma cnt_flip f g k n : f n = true -> g n = false -> (forall m, m <> n -> f m = g m) -> 1 <= n <= N.of_nat k ->
  cnt f k = S (cnt g k).
Proof.
  intros Hf Hg He. induction k as [|k IH]; intro H; [lia|]. rewrite !cnt_S.
  destruct (N.eq_dec n (N.of_nat k + 1)) as [E|E].
  - subst n. rewrite Hf, Hg, (cnt_ext f g k) by (intros m Hm; apply He; lia). lia.
  - rewrite IH by lia. rewrite (He (N.of_nat k + 1)) by congruence. lia.
Qed.
Lemma in_sent_on e sd m p l : In (LSent e sd m p) l -> In (p_seq p) (sent_on (e_chan (p_src p)) l).
Proof.
  induction l as [|x l IH]; [intros []|]. intros [->|H]; cbn [sent_on].
  - rewrite String.eqb_refl. apply in_app_iff. right. now left.
  - specialize (IH H). destruct x; try exact IH. destruct (String.eqb _ _); [apply in_app_iff; now left|exact IH].
Qed.
Definition open_at (l : list logitem) (id : string) (n : N) : bool := if unresolved l id n then true else false.
Lemma balance c l id : hist c l ->
  (N.to_nat (sends l id) = count (sends_on id) l /\
   count (sends_on id) l = count (acks_on id) l + count (timeouts_on id) l + cnt (open_at l id) (N.to_nat (sends l id)))%nat.
Proof.
  induction 1 as [|l new H [I1 I2] B]; [split; reflexivity|].
  assert (R : forall p x, (forall i n, unresolved (x :: l) i n = if at_pkt i n p then None else unresolved l i n) ->
    unresolved l (e_chan (p_src p)) (p_seq p) = Some p ->
    cnt (open_at l id) (N.to_nat (sends l id)) =
      ((if String.eqb (e_chan (p_src p)) id then 1 else 0) + cnt (open_at (x :: l) id) (N.to_nat (sends l id)))%nat).
  { intros p x Hx U. destruct (String.eqb_spec (e_chan (p_src p)) id) as [<-|Hne].
    - apply cnt_flip with (n := p_seq p).
      + unfold open_at. now rewrite U.
      + unfold open_at. rewrite Hx. unfold at_pkt. now rewrite String.eqb_refl, N.eqb_refl.
      + intros k Hk. unfold open_at. rewrite Hx. unfold at_pkt. rewrite String.eqb_refl. cbn [andb].
        destruct (N.eqb_spec (p_seq p) k); [congruence|reflexivity].
      + apply unresolved_in in U as (e & sd & m & U). apply in_sent_on in U.
        rewrite (sends_count c _ _ H) in U. unfold upto in U. apply in_map_iff in U as (k & <- & U). apply in_seq in U. lia.
    - cbn [Nat.add]. apply cnt_ext. intros k _. unfold open_at. rewrite Hx. unfold at_pkt.
      apply String.eqb_neq in Hne. rewrite Hne. reflexivity. }
  destruct B as [B|B]; destruct B;
    repeat match goal with X : callback _ _ _ |- _ => destruct X as [? ->] end;
    try match goal with |- context [callback_of l] => destruct (callback_of l) end; cbn [app]; rewrite !count_cons; cbn [sends sends_on acks_on timeouts_on]; auto.
  - match goal with X : p_src p = _ |- _ => rewrite X in *; rename X into Hsrc end.
    match goal with X : p_seq p = _ |- _ => rename X into Hseq end.
    destruct (String.eqb_spec (e_chan (ch_endpoint ch)) id) as [<-|Hne].
    + rewrite N2Nat.inj_add. change (N.to_nat 1) with 1%nat. cbn [Nat.add]. split; [lia|].
      rewrite cnt_S, N2Nat.id, <- Hseq.
      replace (open_at _ _ (p_seq p)) with true.
      2:{ unfold open_at. cbn [unresolved]. unfold at_pkt. now rewrite Hsrc, String.eqb_refl, N.eqb_refl. }
      rewrite (cnt_ext _ (open_at l (e_chan (ch_endpoint ch)))); [lia|].
      intros k Hk. unfold open_at. cbn [unresolved]. unfold at_pkt. rewrite Hsrc, String.eqb_refl. cbn [andb].
      destruct (N.eqb_spec (p_seq p) k); [lia|reflexivity].
    + split; [exact I1|]. rewrite (cnt_ext _ (open_at l id)); [exact I2|]. intros k _. unfold open_at. cbn [unresolved].
      unfold at_pkt. apply String.eqb_neq in Hne. rewrite Hsrc, Hne. reflexivity.
  - split; [exact I1|]. change (open_at _ id) with (open_at (LAck p ack relayer :: l) id).
    rewrite (R p (LAck p ack relayer)) in I2 by (assumption || reflexivity). lia.
  - split; [exact I1|]. change (open_at _ id) with (open_at (LAck p ack relayer :: l) id).
    rewrite (R p (LAck p ack relayer)) in I2 by (assumption || reflexivity). lia.
  - split; [exact I1|]. change (open_at _ id) with (open_at (LTimeout p relayer :: l) id).
    rewrite (R p (LTimeout p relayer)) in I2 by (assumption || reflexivity). lia.
  - split; [exact I1|].
    rewrite (R p (LTimeout p relayer)) in I2 by (assumption || reflexivity). lia.
Qed.

Theorem C66_balance : forall c w id, cfg_ok c -> visited c w ->
  count (sends_on id) (w_log w) =
    (count (acks_on id) (w_log w) + count (timeouts_on id) (w_log w) +
     List.length (filter (held w id) (upto (count (sends_on id) (w_log w)))))%nat.
Proof.
  intros c w id Hc V. destruct (balance c _ id (visited_hist c w Hc V)) as [B1 B2].
  rewrite B2 at 1. rewrite B1. do 2 f_equal. apply cnt_ext. intros n _. unfold open_at, held.
  now rewrite (ip_commit _ (inv_pkts _ _ (visited_inv c w Hc V))).
Qed.
(** The three possibilities: sequences 1 (acknowledged), 2 (timed out) and 3 (outstanding). *)
Definition three_ways : list tx :=
  unordered_open ++ [exec "owner" (send0 [bank0] []) ""; exec "owner" (send0 [bank0] []) ""; exec "owner" (send0 [bank0] []) "";
    timed_out "channel-0" 2; ack "channel-0" 1 (AckError "failed")].
Example C66_case : forall n, In n [1; 2; 3] -> exists e sender m p,
  In (LSent e sender m p) (w_log (world_of three_ways)) /\ e_chan (p_src p) = "channel-0" /\ p_seq p = n /\
  w_commit (world_of three_ways) "channel-0" n = (if n =? 3 then Some p else None).
Proof.
  assert (L : exists x1 x2 x3 x4 x5 e sd m p1 p2 p3 l, w_log (world_of three_ways) =
     x1 :: x2 :: x3 :: x4 :: x5 :: LSent e sd m p3 :: LExecuted e sd m :: LSent e sd m p2 :: LExecuted e sd m :: LSent e sd m p1 :: l /\
     e_chan (p_src p1) = "channel-0" /\ e_chan (p_src p2) = "channel-0" /\ e_chan (p_src p3) = "channel-0" /\
     p_seq p1 = 1 /\ p_seq p2 = 2 /\ p_seq p3 = 3 /\ w_commit (world_of three_ways) "channel-0" 3 = Some p3).
  { eexists _, _, _, _, _, _, _, _, _, _, _, _. split; [vm_compute; reflexivity|]. repeat split; vm_compute; reflexivity. }
  destruct L as (x1 & x2 & x3 & x4 & x5 & e & sd & m & p1 & p2 & p3 & l & L & A1 & A2 & A3 & B1 & B2 & B3 & C).
  intros n [<-|[<-|[<-|[]]]].
  - exists e, sd, m, p1. rewrite L. split; [cbn; tauto|]. split; [exact A1|]. split; [exact B1| vm_compute; reflexivity].
  - exists e, sd, m, p2. rewrite L. split; [cbn; tauto|]. split; [exact A2|]. split; [exact B2| vm_compute; reflexivity].
  - exists e, sd, m, p3. rewrite L. split; [cbn; tauto|]. split; [exact A3|]. split; [exact B3|exact C].
Qed.
Example C66_balance_case : count (sends_on "channel-0") (w_log (world_of three_ways)) = 3%nat /\
  count (acks_on "channel-0") (w_log (world_of three_ways)) = 1%nat /\
  count (timeouts_on "channel-0") (w_log (world_of three_ways)) = 1%nat.
Proof. repeat split; vm_compute; reflexivity. Qed.

Print Assumptions C63_open_is_usable.
Print Assumptions C63_reopen_and_use.
Print Assumptions C63_owner_gets_to_send.
Print Assumptions C64_callback_state.
Print Assumptions C64_send_in_callback.
Print Assumptions C65_sent_in_order.
Print Assumptions C65_acknowledged_in_order.
Print Assumptions C65_timeout_is_last.
Print Assumptions C66_accounted.
Print Assumptions C66_held_was_sent.
Print Assumptions C66_balance.
