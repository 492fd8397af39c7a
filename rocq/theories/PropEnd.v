(** * PropEnd: what can be brought about with both chains.

    C80-C83: a requested channel can be opened, a request can be carried out
    and its result reported, and the owner can get there unless the host's
    active channel is one the contract has forgotten; the account stays the
    same. *)

From Verif Require Import Base Utf8 Proto Json JsonCodec Types JsonTypes Store Contract CosmosMsg QueryMsg Metadata PacketData Ownable
  JsonSound HostSpec AnswerSpec HostFacts PacketFacts EntryFacts
  Chain ChainSpec Trans Inv HistorySpec History HistFacts Queries Enabled PropChannel PropPacket PropFlow PropAnswer PropCallback
  Host HostInv Witness HostReach PropHost.
From Coq Require Import ZifyBool ZifyN.
Local Open Scope string_scope.
Local Open Scope list_scope.
Local Open Scope N_scope.

(** ** C80: a requested channel can be opened *)

Lemma answer_ok c o addr : utf8_options o -> account_address c addr ->
  answer_version (ce_version (init_end o)) (PropFlow.host_answer o addr) = Some addr.
Proof.
  intros Hu Ha. unfold answer_version. cbn [init_end ce_version].
  rewrite metadata_roundtrip by (apply fresh_jval; apply Hu). cbn [obind].
  rewrite (proj2 (host_answer_reads c o addr Hu Ha)). unfold same_terms. cbn [obind fresh_metadata md_version md_controller md_host md_tx_type md_encoding md_address].
  rewrite !String.eqb_refl. destruct Ha as (Ha & _). destruct addr; [congruence|reflexivity].
Qed.

Lemma sys_eta s : s = Sys (y_w s) (y_ws s) (y_h s) (y_hs s).
Proof. now destruct s. Qed.

(** The host's end [x] of a connection is free for a new channel of the
    contract: the active channel there, if any, is closed on the contract's chain. *)
Definition free_on (s : sys) (x : string) : Prop :=
  forall a hc, h_active (y_h s) x = Some a -> h_chans (y_h s) a = Some hc ->
    exists ce, w_chans (y_w s) (e_chan (hc_cp hc)) = Some ce /\ ce_state ce = CClosed.
(** The account [addr] is the one the host has for [x], if it has one. *)
Definition account_on (s : sys) (x addr : string) : Prop :=
  forall a, h_accounts (y_h s) x = Some a -> a = addr.

(** The host is told that its active channel was closed. *)
Lemma free_sys c k s x : cfg_ok c -> reached c k s -> free_on s x ->
  exists s', follows c k s s' /\ y_w s' = y_w s /\ h_log (y_h s') = h_log (y_h s) /\ h_clock (y_h s') = h_clock (y_h s) /\
    h_accounts (y_h s') = h_accounts (y_h s) /\ h_active (y_h s') = h_active (y_h s) /\
    (forall hid, h_chans (y_h s) hid = None -> h_chans (y_h s') hid = None) /\
    (forall a, h_active (y_h s') x = Some a -> exists hc, h_chans (y_h s') a = Some hc /\ hc_state hc = HsClosed).
Proof.
  intros Hc R Fr. pose proof (reached_inv c k s Hc R) as I. destruct (reached_terms c k s Hc R) as [_ T].
  destruct (h_active (y_h s) x) as [a|] eqn:Ea.
  2:{ exists s. split; [constructor|]. repeat split; auto. rewrite Ea. discriminate. }
  destruct (T _ _ Ea) as (hc & E1 & E2 & E3). destruct (Fr _ _ Ea E1) as (ce & C1 & C2).
  destruct (hc_state hc) eqn:Es; [congruence| |].
  2:{ exists s. split; [constructor|]. repeat split; auto. rewrite Ea. intros a' X. injection X as <-. eauto. }
  set (h1 := put_hchan a (with_state HsClosed hc) (y_h s)).
  destruct (lk_chan _ _ _ (si_link _ _ _ I) _ _ E1) as (id & ce' & K1 & K2 & K3 & K4 & _).
  destruct K4 as (K5 & K6 & K7); [congruence|]. rewrite K1 in C1. cbn [e_chan] in C1.
  assert (ce' = ce) by congruence. subst ce'.
  exists (Sys (y_w s) (y_ws s) h1 (h1 :: y_hs s)). split.
  { eapply follows_step; [constructor|]. apply (S_host c k s (HCloseConfirm a) (y_w s) h1 (si_here _ _ _ I)).
    cbn [hact]. rewrite E1. cbn [obind]. rewrite Es, K1. cbn [guard obind e_chan]. rewrite C1. cbn [obind]. rewrite C2.
    cbn [guard obind]. rewrite K6, K7. cbn [e_chan]. rewrite !String.eqb_refl. reflexivity. }
  cbn [y_w y_h h1 put_hchan h_log h_clock h_accounts h_active h_chans]. repeat split; auto.
  - intros hid Hn. rewrite upd_other; [exact Hn|congruence].
  - rewrite Ea. intros a' X. injection X as <-. rewrite upd_same. eexists. split; reflexivity.
Qed.

(** The three messages of the handshake. *)
Lemma open_closed c k s id ce hid addr x : cfg_ok c -> hcfg_ok k -> reached c k s ->
  w_chans (y_w s) id = Some ce -> ce_state ce = CInit -> peer k (ce_conn ce) = Some x ->
  (forall o, requested (w_log (y_w s)) id = Some o -> oo_cp_connection o = x) ->
  (forall a, h_active (y_h s) x = Some a -> exists hc, h_chans (y_h s) a = Some hc /\ hc_state hc = HsClosed) ->
  account_on s x addr ->
  h_chans (y_h s) hid = None -> utf8 hid -> account_address c addr ->
  exists s' v i ch ce', follows c k s s' /\
    from_json jc_metadata v = Some (Metadata "ics27-1" (ce_conn ce) (match requested (w_log (y_w s)) id with
                                      Some o => oo_cp_connection o | None => "" end) addr Protobuf "sdk_multi_msg") /\
    ch = Channel (Endpoint (own_port c) id) (Endpoint "icahost" hid) (ce_order ce) v (ce_conn ce) /\
    w_log (y_w s') = i ++ LChanOpen ch :: w_log (y_w s) /\
    callback (w_log (y_w s)) (CbOpenAck ch addr Protobuf) i /\
    w_chans (y_w s') id = Some ce' /\ ce_state ce' = COpen /\ channel_of c id ce' = ch /\
    h_log (y_h s') = h_log (y_h s) /\ h_clock (y_h s') = h_clock (y_h s) /\
    h_chans (y_h s') hid = Some (HChan HsOpen (ce_order ce) (Endpoint (own_port c) id) v addr 1 x).
Proof.
  intros Hc Hk R E St Px Ox Ax Bx Hh Hu Ha. pose proof (reached_terms c k s Hc R) as T. pose proof (reached_inv c k s Hc R) as I. pose proof (si_w _ _ _ I) as V.
  pose proof (ic_chan _ _ (inv_chans _ _ (visited_inv c _ Hc V)) id) as C. rewrite E, St in C.
  destruct C as ((o & C1 & C2 & C3 & C4 & C5 & C6) & C7 & C8 & C9 & C10 & C11).
  specialize (C6 eq_refl).
  destruct (host_answer_reads c o addr C5 Ha) as [Hv Hmd]. set (v := PropFlow.host_answer o addr) in *.
  destruct (act_open_ack c (y_w s) id hid v o _ Hc V Hu Hv C1 C11 Hmd) as
    (w' & b & i & ch & A & Ech & El & _ & Cb & ce' & E1 & E2 & E3); [repeat split; apply Ha|].
  assert (Av : answer_version (ce_version ce) v = Some addr) by (rewrite C6; exact (answer_ok c o addr C5 Ha)).
  specialize (Ox _ C1).
  assert (Md : from_json jc_metadata (ce_version ce) = Some (Metadata "ics27-1" (ce_conn ce) x "" Protobuf "sdk_multi_msg")).
  { rewrite C6 at 1. cbn [init_end ce_version]. rewrite metadata_roundtrip by (apply fresh_jval; apply C5).
    rewrite C3, <- Ox. reflexivity. }
  assert (Mo : may_open k (y_h s) (ce_conn ce) (Metadata "ics27-1" (ce_conn ce) x "" Protobuf "sdk_multi_msg") = true).
  { apply may_open_ok. cbn [md_controller md_host]. split; [reflexivity|]. split; [exact Px|]. intros a Ea.
    destruct (Ax a Ea) as (hc & A1 & A2). destruct (tm_active _ _ T _ _ Ea) as (hc' & T1 & _ & T3).
    assert (hc' = hc) by congruence. subst hc'. destruct (tm_chan _ _ T _ _ T1) as ((conn & T4 & T5) & _).
    exists hc. eexists. split; [exact A1|]. split; [exact A2|]. split; [exact T5|]. apply same_terms_ok.
    cbn [md_version md_controller md_host md_tx_type md_encoding]. rewrite T3 in T4 |- *.
    rewrite (proj2 Hk _ _ _ Px T4). auto. }
  assert (Ma : match h_accounts (y_h s) x with Some a => String.eqb a addr | None => true end = true).
  { destruct (h_accounts (y_h s) x) as [a|] eqn:Ea; [|reflexivity]. rewrite (Bx a Ea). apply String.eqb_refl. }
  set (hc := HChan HsTry (ce_order ce) (Endpoint (port c) id) v addr 1 x).
  set (h1 := put_account x addr (put_hchan hid hc (y_h s))).
  set (h2 := put_active x hid (put_hchan hid (with_state HsOpen hc) h1)).
  set (s1 := Sys (y_w s) (y_ws s) h1 (h1 :: y_hs s)). set (s2 := Sys w' (w' :: y_ws s) h1 (h1 :: y_hs s)).
  set (s3 := Sys w' (w' :: y_ws s) h2 (h2 :: h1 :: y_hs s)).
  assert (S1 : sstep c k s s1).
  { apply (S_host c k s (HTryOpen hid id v) (y_w s) h1 (si_here _ _ _ I)). cbn [hact]. rewrite Hh. cbn [is_some negb andb].
    rewrite Hu, Hv. cbn [andb guard obind]. rewrite E. cbn [obind]. rewrite St. cbn [guard obind]. rewrite C4, String.eqb_refl.
    cbn [guard obind]. rewrite Md. cbn [obind]. rewrite Mo. cbn [guard obind]. rewrite Av. cbn [obind md_host]. rewrite Ma. reflexivity. }
  assert (S2 : sstep c k s1 s2).
  { refine (S_controller c k s1 (AOpenAck id hid v) h1 w' b _ _ A); [now left|].
    exists ce, hc. split; [exact E|]. split; [apply upd_same|]. repeat split. }
  assert (S3 : sstep c k s2 s3).
  { apply (S_host c k s2 (HConfirm hid) w' h2); [now left|]. cbn [hact y_h s2 h1 put_account put_hchan h_chans]. rewrite upd_same.
    cbn [obind hc hc_state guard hc_cp e_chan]. rewrite E1. cbn [obind]. rewrite E2. cbn [guard obind].
    assert (X : e_chan (ce_cp ce') = hid /\ ce_version ce' = v).
    { rewrite Ech in E3. unfold channel_of in E3. injection E3 as X _ Y _. rewrite X, Y. split; reflexivity. }
    destruct X as [-> ->]. cbn [hc_version]. rewrite !String.eqb_refl. reflexivity. }
  exists s3, v, i, ch, ce'. split.
  { eapply follows_step; [eapply follows_step; [eapply follows_step; [constructor|]|]|]; eassumption. }
  rewrite C3, C1, C2. split; [exact Hmd|]. split; [rewrite Ech; reflexivity|]. split; [exact El|]. split; [exact Cb|].
  repeat (split; [first [assumption|reflexivity]|]). cbn [s3 y_h h2 put_active put_hchan h_chans]. rewrite upd_same. unfold hc. rewrite C2. reflexivity.
Qed.

Lemma open_sys c k s id ce hid addr x : cfg_ok c -> hcfg_ok k -> reached c k s ->
  w_chans (y_w s) id = Some ce -> ce_state ce = CInit -> peer k (ce_conn ce) = Some x ->
  (forall o, requested (w_log (y_w s)) id = Some o -> oo_cp_connection o = x) ->
  free_on s x -> account_on s x addr ->
  h_chans (y_h s) hid = None -> utf8 hid -> account_address c addr ->
  exists s' v i ch ce', follows c k s s' /\
    from_json jc_metadata v = Some (Metadata "ics27-1" (ce_conn ce) (match requested (w_log (y_w s)) id with
                                      Some o => oo_cp_connection o | None => "" end) addr Protobuf "sdk_multi_msg") /\
    ch = Channel (Endpoint (own_port c) id) (Endpoint "icahost" hid) (ce_order ce) v (ce_conn ce) /\
    w_log (y_w s') = i ++ LChanOpen ch :: w_log (y_w s) /\
    callback (w_log (y_w s)) (CbOpenAck ch addr Protobuf) i /\
    w_chans (y_w s') id = Some ce' /\ ce_state ce' = COpen /\ channel_of c id ce' = ch /\
    h_log (y_h s') = h_log (y_h s) /\ h_clock (y_h s') = h_clock (y_h s) /\
    h_chans (y_h s') hid = Some (HChan HsOpen (ce_order ce) (Endpoint (own_port c) id) v addr 1 x).
Proof.
  intros Hc Hk R E St Px Ox Fx Bx Hh Hu Ha.
  destruct (free_sys c k s x Hc R Fx) as (s1 & F1 & Ew & El & Ec & Eacc & Eact & En & Ea).
  rewrite <- Ew in E, Ox.
  destruct (open_closed c k s1 id ce hid addr x Hc Hk (reached_follows _ _ _ _ R F1) E St Px Ox Ea) as
    (s' & v & i & ch & ce' & F & Q); try assumption; [unfold account_on; rewrite Eacc; exact Bx|now apply En|].
  rewrite Ew, El, Ec in Q. exists s', v, i, ch, ce'. split; [eapply follows_trans; eassumption|exact Q].
Qed.

(** What the queries report after the handshake. *)
Lemma open_reported c w w' i ch addr id : cfg_ok c -> visited c w -> visited c w' ->
  w_log w' = i ++ LChanOpen ch :: w_log w -> callback (w_log w) (CbOpenAck ch addr Protobuf) i ->
  (exists md, from_json jc_metadata (ch_version ch) = Some md /\ md_address md = addr /\ md_encoding md = Protobuf) ->
  e_chan (ch_endpoint ch) = id ->
  state_reported w' (ContractState (Some (IcaInfo addr id Protobuf)) (callback_of (w_log w))) /\
  channel_reported w' ch StOpen /\ callback_of (w_log w') = callback_of (w_log w) /\
  owner_of (w_log w') = owner_of (w_log w) /\ sends (w_log w') id = sends (w_log w) id /\
  told_once (callback_of (w_log w)) (CbOpenAck ch addr Protobuf) (i ++ [LChanOpen ch]).
Proof.
  intros Hc V V' El Cb (md & Md & Ad & Ae) Eid.
  assert (Hi : i = [] \/ exists x y, i = [LCall x y]) by (eapply callback_quiet; exact Cb).
  assert (Hl : w_log w' <> []) by (rewrite El; destruct i; discriminate).
  assert (F : callback_of (w_log w') = callback_of (w_log w) /\ owner_of (w_log w') = owner_of (w_log w) /\
              sends (w_log w') id = sends (w_log w) id /\ recorded (w_log w') = Some (ch, true) /\ last_opened (w_log w') = Some ch).
  { rewrite El. destruct Hi as [->|(x & y & ->)]; repeat split; reflexivity. }
  destruct F as (F1 & F2 & F3 & F4 & F5).
  pose proof (reports c w' Hc V' Hl) as Rp.
  assert (Ac : account_of (w_log w') = Some (IcaInfo addr id Protobuf)).
  { unfold account_of. rewrite F5, Md, Ad, Eid. try rewrite Ae. reflexivity. }
  rewrite Ac, F1 in Rp. split; [exact Rp|]. split; [exact (recorded_reported c w' ch true Hc V' F4)|].
  split; [exact F1|]. split; [exact F2|]. split; [exact F3|]. apply told_callback; [exact Cb|reflexivity].
Qed.

(** A channel end that the contract has requested, naming the two ends of a
    connection to the host, can be opened if the host has no other active
    channel for the contract there: both ends are then open, the contract
    reports the host's account, and the callback contract is told. *)
Theorem C80_opens : forall c k s id ce md hid addr info cb,
  cfg_ok c -> hcfg_ok k -> reached c k s -> state_reported (y_w s) (ContractState info cb) ->
  w_chans (y_w s) id = Some ce -> ce_state ce = CInit ->
  from_json jc_metadata (ce_version ce) = Some md -> peer k (ce_conn ce) = Some (md_host md) ->
  free_on s (md_host md) -> account_on s (md_host md) addr ->
  h_chans (y_h s) hid = None -> utf8 hid -> account_address c addr ->
  exists s' ch ce' hc new, follows c k s s' /\
    ch_endpoint ch = Endpoint (own_port c) id /\ ch_counterparty ch = Endpoint "icahost" hid /\
    ch_order ch = ce_order ce /\ ch_connection ch = ce_conn ce /\
    state_reported (y_w s') (ContractState (Some (IcaInfo addr id Protobuf)) cb) /\
    channel_reported (y_w s') ch StOpen /\
    w_chans (y_w s') id = Some ce' /\ ce_state ce' = COpen /\
    h_chans (y_h s') hid = Some hc /\ hc_state hc = HsOpen /\ hc_account hc = addr /\
    hc_cp hc = ch_endpoint ch /\ hc_order hc = ch_order ch /\ hc_version hc = ch_version ch /\
    w_log (y_w s') = new ++ w_log (y_w s) /\ told_once cb (CbOpenAck ch addr Protobuf) new.
Proof.
  intros c k s id ce md hid addr info cb Hc Hk R Rs E St Hmd Px Fx Bx Hh Hu Ha. pose proof (reached_inv c k s Hc R) as I. pose proof (si_w _ _ _ I) as V.
  destruct (state_reported_log _ _ _ Hc V Rs) as (_ & Es). injection Es as _ ->.
  assert (Ox : forall o, requested (w_log (y_w s)) id = Some o -> oo_cp_connection o = md_host md).
  { intros o Ho. pose proof (ic_chan _ _ (inv_chans _ _ (visited_inv c _ Hc V)) id) as C. rewrite E, St in C.
    destruct C as ((o' & C1 & _ & _ & _ & C5 & C6) & _). assert (o' = o) by congruence. subst o'. rewrite (C6 eq_refl) in Hmd.
    cbn [init_end ce_version] in Hmd. rewrite metadata_roundtrip in Hmd by (apply fresh_jval; apply C5). injection Hmd as <-. reflexivity. }
  destruct (open_sys c k s id ce hid addr _ Hc Hk R E St Px Ox Fx Bx Hh Hu Ha) as (s' & v & i & ch & ce' & F & Md & Ech & El & Cb & E1 & E2 & E3 & _ & _ & Hc').
  pose proof (si_w _ _ _ (follows_inv c k _ _ Hc I F)) as V'.
  destruct (open_reported c (y_w s) (y_w s') i ch addr id Hc V V' El Cb) as (O1 & O2 & _ & _ & _ & O6);
    [rewrite Ech; cbn [ch_version]; rewrite Md; eauto|rewrite Ech; reflexivity|].
  exists s', ch, ce'. eexists _, (i ++ [LChanOpen ch]). split; [exact F|].
  split; [rewrite Ech; reflexivity|]. split; [rewrite Ech; reflexivity|]. split; [rewrite Ech; reflexivity|]. split; [rewrite Ech; reflexivity|].
  split; [exact O1|]. split; [exact O2|]. split; [exact E1|]. split; [exact E2|]. split; [exact Hc'|]. 
  split; [reflexivity|]. split; [reflexivity|]. do 3 (split; [now rewrite Ech|]). split; [rewrite <- app_assoc; exact El|exact O6].
Qed.
(** A second handshake, requested after the first channel was closed. *)
Definition again0 := closed0 ++ [on_contract (exec "owner" (XCreateChannel None) "channel-1")].
Lemma acc_address : account_address cfg0 "cosmos1acc".
Proof.
  split; [discriminate|]. split; [apply N.leb_le; vm_compute; reflexivity|]. eexists. split; [vm_compute; reflexivity|].
  repeat (apply Forall_cons; [unfold alphanumeric; lia|]). apply Forall_nil.
Qed.
Lemma again0_free : free_on (sys0 again0) "connection-1" /\ account_on (sys0 again0) "connection-1" "cosmos1acc".
Proof.
  split.
  - intros a hc E1 E2. assert (X : h_active (y_h (sys0 again0)) "connection-1" = Some "channel-7") by (vm_compute; reflexivity).
    rewrite X in E1. injection E1 as <-.
    assert (Y : option_map hc_cp (h_chans (y_h (sys0 again0)) "channel-7") = Some (Endpoint (port cfg0) "channel-0"))
      by (vm_compute; reflexivity).
    rewrite E2 in Y. injection Y as ->. eexists. split; [vm_compute; reflexivity|reflexivity].
  - intros a E. assert (X : h_accounts (y_h (sys0 again0)) "connection-1" = Some "cosmos1acc") by (vm_compute; reflexivity). congruence.
Qed.
Example C80_case : exists ce md, reached cfg0 k0 (sys0 again0) /\ (exists st, state_reported (y_w (sys0 again0)) st) /\
  w_chans (y_w (sys0 again0)) "channel-1" = Some ce /\ ce_state ce = CInit /\
  from_json jc_metadata (ce_version ce) = Some md /\ peer k0 (ce_conn ce) = Some (md_host md) /\
  free_on (sys0 again0) (md_host md) /\ account_on (sys0 again0) (md_host md) "cosmos1acc" /\
  h_chans (y_h (sys0 again0)) "channel-8" = None /\ account_address cfg0 "cosmos1acc".
Proof.
  eexists _, _. split; [apply sys0_reached|]. split; [eexists; apply state_reported_by; vm_compute; reflexivity|].
  split; [vm_compute; reflexivity|]. split; [reflexivity|]. split; [vm_compute; reflexivity|]. split; [reflexivity|].
  split; [exact (proj1 again0_free)|]. split; [exact (proj2 again0_free)|].
  split; [vm_compute; reflexivity|exact acc_address].
Qed.

(** ** C81: a request can be carried out and its result reported *)

(** The packet of a request without raw messages, held for an open channel and
    presentable to the host (not too late, and next in order on an ordered
    channel): for any responses and answers of the host there is a way on in
    which the account runs exactly the requested messages and queries and the
    callback contract is told that result, with the answers to the queries. *)
Theorem C81_done_and_told : forall c k s id n p ce e sender ms qs memo t hid hc legacy resps answers info addr,
  cfg_ok c -> hcfg_ok k -> reached c k s -> state_reported (y_w s) (ContractState info (Some addr)) ->
  In (LSent e sender (XSendCosmosMsgs ms qs memo t) p) (w_log (y_w s)) -> w_commit (y_w s) id n = Some p ->
  w_chans (y_w s) id = Some ce -> ce_state ce = COpen ->
  Forall (fun m => match m with MStargate _ _ => False | _ => True end) ms ->
  h_chans (y_h s) hid = Some hc -> hc_state hc = HsOpen -> e_chan (p_dest p) = hid ->
  h_clock (y_h s) < env_time e + unwrap_or t 600 * 10 ^ 9 ->
  match hc_order hc with
  | Ordered => n = hc_next hc
  | Unordered => forall i, In i (h_log (y_h s)) -> item_pkt i <> p
  end ->
  length resps = length ms ->
  match qs, answers with
  | [], None => True
  | _ :: _, Some (h, bs) => length bs = length qs /\ h < u64_lim
  | _, _ => False
  end ->
  sizes_fit legacy resps answers = true ->
  exists s' anys msg relayer qr, follows c k s s' /\
    In (Ran hid p (hc_account hc) anys (result_bytes legacy resps answers) answers) (h_log (y_h s')) /\
    packet_spec (hc_account hc) ms qs anys /\
    In (LCall addr msg) (w_log (y_w s')) /\
    from_json jc_receiver msg = Some (CbAck (AckResult (result_bytes legacy resps answers)) p relayer qr) /\
    match answers with
    | Some (h, bs) => exists r, qr = Some r /\ result_spec qs h bs r
    | None => True
    end.
Proof.
  intros c k s id n p ce e sender ms qs memo t hid hc legacy resps answers info addr
    Hc Hk R Rs Hs Hp E So Ns Hh Hso Hd Ht Hn Hl Ha Sz.
  set (res := result_bytes legacy resps answers).
  assert (Hj : from_json jc_ack (ack_of (AckResult res)) = Some (AckResult res)).
  { apply json_roundtrip; [exact jc_ack_ok|]. repeat split; discriminate. }
  destruct (C79_host_accepts c k s id n p e sender ms qs memo t hid hc legacy resps answers _ Hc Hk R Hs Hp Ns Hh Hso Hd Ht Hn Hl Ha Sz Hj)
    as (h' & anys & A & El & Sp).
  pose proof (reached_inv c k s Hc R) as I.
  set (s1 := Sys (y_w s) (y_ws s) h' (h' :: y_hs s)).
  assert (F1 : follows c k s s1).
  { eapply follows_step; [constructor|]. eapply S_host; [exact (si_here _ _ _ I)|exact A]. }
  pose proof (reached_follows _ _ _ _ R F1) as R1.
  assert (Hi : In (Ran hid p (hc_account hc) anys res answers) (h_log (y_h s1))) by (cbn [s1 y_h]; rewrite El; now left).
  destruct (settle_ack c k id n p Hc Hk _ s1 ce _ R1 Hp E So Hi eq_refl (le_n _)) as (s' & F & _ & Eh & Tl).
  destruct (state_reported_log _ _ _ Hc (si_w _ _ _ I) Rs) as (_ & Es). injection Es as _ Ecb.
  destruct (Tl addr (eq_sym Ecb)) as (msg & qr & T1 & T2). cbn [item_ack] in T2.
  pose proof (reached_follows _ _ _ _ R1 F) as R'. pose proof (reached_inv c k s1 Hc R1) as I1.
  exists s', anys, msg, "relayer", qr. split; [eapply follows_trans; eassumption|].
  split; [rewrite Eh; exact Hi|]. split; [exact Sp|]. split; [exact T1|]. split; [exact T2|].
  destruct answers as [[h bs]|]; [|exact Logic.I].
  destruct qs as [|q qs]; [contradiction|].
  pose proof (log_grows c k s1 s' _ Hc I1 F Hs) as Hs'.
  destruct (C75_answers c k s' addr msg res p "relayer" qr e sender ms (q :: qs) memo t Hc Hk R' T1 T2 Hs' ltac:(discriminate))
    as (hid2 & acc2 & anys2 & h2 & bs2 & r & Q1 & Q2 & Q3 & Q4 & _).
  assert (Hi' : In (Ran hid p (hc_account hc) anys res (Some (h, bs))) (h_log (y_h s'))) by (rewrite Eh; exact Hi).
  pose proof (same_item c k s' _ _ Hc R' Q1 Hi' eq_refl) as X. injection X as _ _ _ -> ->. eauto.
Qed.
Example C81_case : exists p ce e sender memo t hc info,
  state_reported (y_w (sys0 (asked0 Ordered))) (ContractState info (Some "cb")) /\
  In (LSent e sender (XSendCosmosMsgs [bank0] [query0] memo t) p) (w_log (y_w (sys0 (asked0 Ordered)))) /\
  w_commit (y_w (sys0 (asked0 Ordered))) "channel-0" 1 = Some p /\
  w_chans (y_w (sys0 (asked0 Ordered))) "channel-0" = Some ce /\ ce_state ce = COpen /\
  h_chans (y_h (sys0 (asked0 Ordered))) "channel-7" = Some hc /\ hc_state hc = HsOpen /\ e_chan (p_dest p) = "channel-7" /\
  h_clock (y_h (sys0 (asked0 Ordered))) < env_time e + unwrap_or t 600 * 10 ^ 9 /\ hc_order hc = Ordered /\ 1 = hc_next hc /\
  sizes_fit [] [resp0] (Some (42, [answer0])) = true.
Proof.
  eexists _, _, _, _, _, _, _, _. split; [apply state_reported_by; vm_compute; reflexivity|].
  split; [vm_compute; left; reflexivity|]. split; [vm_compute; reflexivity|]. split; [vm_compute; reflexivity|].
  split; [reflexivity|]. split; [vm_compute; reflexivity|]. repeat (split; [reflexivity|]). vm_compute. reflexivity.
Qed.

(** ** C82: the owner can always get a request carried out *)

Lemma unused_requested c w id : cfg_ok c -> visited c w -> (w_chans w id = None <-> requested (w_log w) id = None).
Proof.
  intros Hc V. pose proof (ic_chan _ _ (inv_chans _ _ (visited_inv c w Hc V)) id) as C.
  destruct (w_chans w id) as [ce|]; [|split; [intros _; apply C|reflexivity]].
  destruct C as ((o & C & _) & _). split; congruence.
Qed.

Lemma exec_follows c k s h t sender raw id ok w b : sys_inv c k s -> act c (AExecute h t sender raw id ok) (y_w s) = Some (w, b) ->
  follows c k s (Sys w (w :: y_ws s) (y_h s) (y_hs s)).
Proof.
  intros I A. eapply follows_step; [constructor|]. exact (S_controller c k s (AExecute h t sender raw id ok) (y_h s) w b (si_h _ _ _ I) Logic.I A).
Qed.

(** First close the channel, if it is recorded as open. *)
Lemma close_sys c k s owner h t : cfg_ok c -> reached c k s -> owner_of (w_log (y_w s)) = Some owner ->
  h < u64_lim -> t < u64_lim ->
  exists s1, follows c k s s1 /\ y_h s1 = y_h s /\ recorded_open_in (w_log (y_w s1)) = false /\
    owner_of (w_log (y_w s1)) = Some owner /\ callback_of (w_log (y_w s1)) = callback_of (w_log (y_w s)) /\
    (forall id, w_chans (y_w s) id = None -> w_chans (y_w s1) id = None) /\
    (forall id ce, w_chans (y_w s) id = Some ce -> ce_state ce = CClosed ->
       exists ce', w_chans (y_w s1) id = Some ce' /\ ce_state ce' = CClosed) /\
    (forall ch, recorded (w_log (y_w s)) = Some (ch, true) ->
       exists ce, w_chans (y_w s1) (e_chan (ch_endpoint ch)) = Some ce /\ ce_state ce = CClosed).
Proof.
  intros Hc R Ho Hh Ht. pose proof (reached_inv c k s Hc R) as I. pose proof (si_w _ _ _ I) as V.
  destruct (recorded_open_in (w_log (y_w s))) eqn:Er.
  2:{ exists s. split; [constructor|]. repeat split; eauto. intros ch X. unfold recorded_open_in in Er. rewrite X in Er. discriminate. }
  unfold recorded_open_in in Er. destruct (recorded (w_log (y_w s))) as [[ch b]|] eqn:Rc; [|discriminate]. subst b.
  assert (Hu : utf8 owner) by (eapply owner_utf8; [exact (visited_hist c _ Hc V)|exact Ho]).
  assert (Hr : from_json jc_execute_msg (to_json jc_execute_msg XCloseChannel) = Some XCloseChannel).
  { apply json_roundtrip; [exact jc_execute_msg_ok|exact Logic.I]. }
  destruct (act_close c h t owner _ "" (y_w s) ch Hc V Hh Ht Hu Hr Ho Rc) as (w' & A & El & ce & C1 & C2 & C3).
  set (s1 := Sys w' (w' :: y_ws s) (y_h s) (y_hs s)).
  assert (F : follows c k s s1) by (eapply exec_follows; eassumption).
  pose proof (si_w _ _ _ (follows_inv c k _ _ Hc I F)) as V1. cbn [s1 y_w] in V1.
  exists s1. split; [exact F|]. split; [reflexivity|]. cbn [s1 y_w].
  split.
  { destruct (recorded_open_in (w_log w')) eqn:X; [exfalso|reflexivity]. unfold recorded_open_in in X.
    destruct (recorded (w_log w')) as [[ch' b]|] eqn:Rc'; [|discriminate]. subst b.
    pose proof (recorded_last (w_log w')) as L. rewrite Rc', El in L. cbn [last_opened] in L.
    pose proof (recorded_last (w_log (y_w s))) as L0. rewrite Rc in L0. rewrite L0 in L. injection L as <-.
    destruct (C14_open_is_open c w' ch Hc V1 (recorded_reported c w' ch true Hc V1 Rc')) as (ce' & D1 & D2 & _). congruence. }
  rewrite El. cbn [owner_of callback_of]. split; [exact Ho|]. split; [reflexivity|].
  split; [|split].
  - intros id Hid. apply (unused_requested c w' id Hc V1). rewrite El. cbn [requested]. now apply (unused_requested c _ id Hc V).
  - intros id ce0 X Y.
    destruct (chan_step c _ _ _ _ _ (act_trans _ _ _ _ _ Hc (visited_base _ _ Hc V) A) X) as (ce' & X' & _ & _ & _ & S4). eauto.
  - intros ch' X. assert (ch' = ch) by congruence. subst. eauto.
Qed.

Lemma recorded_plain pre l : Forall plain pre -> recorded (pre ++ l) = recorded l.
Proof. induction 1 as [|x pre Hx _ IH]; [reflexivity|]. cbn [app recorded]. destruct x; try contradiction; exact IH. Qed.
Lemma chan_open_plain pre l id : Forall plain pre -> chan_open (pre ++ l) id = chan_open l id.
Proof. induction 1 as [|x pre Hx _ IH]; [reflexivity|]. cbn [app chan_open]. destruct x; try contradiction; exact IH. Qed.
Lemma sent_plain pre l e sd m p : Forall plain pre -> In (LSent e sd m p) (pre ++ l) -> In (LSent e sd m p) l.
Proof. intros F H. apply in_app_or in H as [H|H]; [|exact H]. rewrite Forall_forall in F. destruct (F _ H). Qed.

(** A request with nothing in it is small. *)
Lemma empty_small a s e sender t s' r data : execute a s e sender (XSendCosmosMsgs [] [] None t) = Ok (s', r) ->
  sends_data r data -> slen data < u32_lim.
Proof.
  intros H (chan & tmo & rep & D). cbn [execute] in H. unfold send_cosmos_msgs in H.
  apply bindo_ok in H as ([] & _ & H). apply bindo_ok in H as (st & _ & H). apply bindo_ok in H as (info & _ & H).
  apply bindo_ok in H as ([s1 p] & Hp & H). apply bindo_ok in H as (m & Hm & H). injection H as _ <-.
  unfold from_cosmos_msgs in Hp. destruct (ii_encoding info); [|discriminate]. cbn [mapo bindo] in Hp. injection Hp as _ <-.
  unfold to_ibc_msg in Hm. apply bindo_ok in Hm as (T & _ & Hm). injection Hm as <-. cbn [r_msgs] in D. injection D as _ <- _ _.
  apply N.ltb_lt. vm_compute. reflexivity.
Qed.

Lemma empty_said : from_json jc_execute_msg (to_json jc_execute_msg (XSendCosmosMsgs [] [] None (Some 0))) = Some (XSendCosmosMsgs [] [] None (Some 0)).
Proof. vm_compute. reflexivity. Qed.

(** A channel recorded as closed that is open on the chain is an ordered one. *)
Lemma stale_ordered l ch : recorded l = Some (ch, false) -> chan_open l (e_chan (ch_endpoint ch)) = true -> ch_order ch = Ordered.
Proof.
  revert ch. induction l as [|i l IH]; intros ch; [discriminate|]. destruct i; cbn [recorded chan_open]; try apply IH.
  - discriminate.
  - destruct (recorded l) as [[ch' b]|]; [|discriminate]. destruct (on_chan id ch') eqn:O; intro E; inversion E; subst.
    + apply on_chan_spec in O. rewrite <- O, String.eqb_refl. discriminate.
    + destruct (String.eqb id _); [discriminate|]. now apply IH.
  - destruct (recorded l) as [[ch' b]|]; [|discriminate].
    destruct (ch_order ch') eqn:O; cbn [order_eqb]; intro E; inversion E; subst; [intro; exact O|].
    destruct (_ && _)%bool; [discriminate|]. now apply IH.
Qed.

(** It can be closed by a packet that times out. *)
Lemma stale_sys c k s owner ch ce : cfg_ok c -> reached c k s -> owner_of (w_log (y_w s)) = Some owner ->
  recorded (w_log (y_w s)) = Some (ch, false) ->
  w_chans (y_w s) (e_chan (ch_endpoint ch)) = Some ce -> ce_state ce = COpen ->
  w_nextseq (y_w s) (e_chan (ch_endpoint ch)) < u64_lim -> h_clock (y_h s) < u64_lim ->
  exists s1 ce1, follows c k s s1 /\ y_h s1 = y_h s /\ recorded (w_log (y_w s1)) = Some (ch, false) /\
    owner_of (w_log (y_w s1)) = Some owner /\ callback_of (w_log (y_w s1)) = callback_of (w_log (y_w s)) /\
    requested (w_log (y_w s1)) = requested (w_log (y_w s)) /\
    w_chans (y_w s1) (e_chan (ch_endpoint ch)) = Some ce1 /\ ce_state ce1 = CClosed.
Proof.
  intros Hc R Ho Hr E St Hn Hk. pose proof (reached_inv c k s Hc R) as I. pose proof (si_w _ _ _ I) as V.
  set (id := e_chan (ch_endpoint ch)) in *. set (n := w_nextseq (y_w s) id) in *.
  assert (Hu : utf8 owner) by (eapply owner_utf8; [exact (visited_hist c _ Hc V)|exact Ho]).
  assert (Hl : w_log (y_w s) <> []) by (intro X; rewrite X in Ho; discriminate).
  pose proof (recorded_last (w_log (y_w s))) as La. rewrite Hr in La.
  destruct (last_opened_end c _ _ Hc V La) as (ce' & md & E' & Ech & Md & Ag & _). fold id in E', Ech.
  assert (ce' = ce) by congruence. subst ce'.
  assert (Ac : account_of (w_log (y_w s)) = Some (IcaInfo (md_address md) id Protobuf)) by (unfold account_of; rewrite La, Md; reflexivity).
  pose proof (reports c _ Hc V Hl) as Rp. rewrite Ac in Rp.
  destruct (ask_ownership c _ Hc V Hl) as (tx & Q1 & Q2).
  set (m := XSendCosmosMsgs [] [] None (Some 0)).
  assert (Hm : from_json jc_execute_msg (to_json jc_execute_msg m) = Some m).
  { exact empty_said. }
  destruct (C22_owner_can_send c (y_w s) 0 (h_clock (y_h s)) owner _ "" _ (IcaInfo (md_address md) id Protobuf) _ ce [] [] None (Some 0)
    Hc V eq_refl Hk Hu Hm (ex_intro _ tx (conj Q1 Q2)) Ho Rp eq_refl E St (Forall_nil _) (Forall_nil _)) as (st1 & st2 & r & data & X1 & X2 & X3 & X4);
    [cbn [unwrap_or]; lia|exact Hn|].
  destruct (X4 (empty_small _ _ _ _ _ _ _ _ X2 X3)) as (w1 & p & anys & A1 & Hp & _). cbn [ii_channel] in Hp. fold n in Hp.
  destruct (send_act _ _ _ _ _ _ _ _ _ _ _ _ _ _ Hc V A1 Hm) as
    (sx & infox & s1x & pk & cex & s'x & _ & _ & _ & Acc & _ & _ & Ecx & _ & _ & _ & _ & _ & Ew). cbv zeta in Ew.
  rewrite Ac in Acc. injection Acc as <-. cbn [ii_channel] in *. rewrite E in Ecx. injection Ecx as <-. fold n in Ew.
  set (px := Packet _ _ _ n _) in Ew.
  assert (p = px) as ->. { rewrite Ew in Hp. cbn [w_commit] in Hp. unfold upd2 in Hp. rewrite String.eqb_refl, N.eqb_refl in Hp. cbn in Hp. congruence. }
  set (sa := Sys w1 (w1 :: y_ws s) (y_h s) (y_hs s)).
  assert (Fa : follows c k s sa) by (eapply exec_follows; eassumption).
  pose proof (reached_follows _ _ _ _ R Fa) as Ra. pose proof (reached_inv c k sa Hc Ra) as Ia. pose proof (si_w _ _ _ Ia) as Va.
  cbn [sa y_w] in Va.
  assert (Hce : w_chans w1 id = Some ce) by (rewrite Ew; exact E).
  assert (So : chan_open (w_log (y_w s)) id = true).
  { pose proof (ic_chan _ _ (inv_chans _ _ (visited_inv c _ Hc V)) id) as C. rewrite E, St in C. apply C. }
  pose proof (stale_ordered _ _ Hr So) as Or.
  assert (Oc : ce_order ce = Ordered) by (rewrite <- Or, <- Ech; reflexivity).
  (* it is not received *)
  destruct (host_end c _ _ _ _ Hc V (si_link _ _ _ I) E ltac:(congruence)) as (hc & Hh1 & Hh2 & _ & Ho1).
  destruct (si_hs _ _ _ I _ (si_h _ _ _ I)) as [Hv _].
  assert (Nx : hc_next hc <= n).
  { pose proof (hi_next _ _ _ Hv _ _ Hh1) as N1. pose proof (hi_ordered _ _ _ Hv _ _ Hh1 ltac:(congruence)) as N2.
    destruct (N.le_gt_cases (hc_next hc) n) as [|G]; [assumption|exfalso].
    assert (Hin : In n (received (e_chan (ce_cp ce)) (h_log (y_h s)))).
    { rewrite N2. apply in_down. pose proof (il_seq _ (visited_log c _ Hc V) id) as Sq. fold n in Sq. lia. }
    destruct (in_received _ _ _ Hin) as (i & Hi & Eh & En).
    destruct (hi_item _ _ _ Hv i Hi) as (hc' & y & J1 & _ & _ & J4 & _). rewrite Eh in J1. assert (hc' = hc) by congruence. subst hc'.
    destruct (lk_sent _ _ _ (si_link _ _ _ I) i Hi) as (e & sd & m' & Hs).
    pose proof (sends_count c _ id (visited_hist c _ Hc V)) as Sc.
    assert (Hx : In n (sent_on id (w_log (y_w s)))).
    { rewrite <- packets_sent_seq, <- En. apply in_map, packets_sent_in. exists e, sd, m'. split; [exact Hs|]. now rewrite J4, Hh2. }
    rewrite Sc in Hx. unfold upto in Hx. apply in_map_iff in Hx as (x & Ex & Hx). apply in_seq in Hx.
    pose proof (il_seq _ (visited_log c _ Hc V) id) as Sq. fold n in Sq. lia. }
  destruct (C54_timeout_accepted c w1 id n "relayer" px Hc Va eq_refl Hp) as (w2 & b & A2).
  set (sb := Sys w2 (w2 :: w1 :: y_ws s) (y_h s) (y_hs s)).
  assert (Fb : follows c k sa sb).
  { eapply follows_step; [constructor|].
    refine (S_controller c k sa (ATimeout id n "relayer") (y_h s) w2 b (si_h _ _ _ I) _ A2).
    exists ce, px. split; [exact Hce|]. split; [exact Hp|]. rewrite Oc. split; [exists hc; auto|].
    left. unfold elapsed. cbn [px p_timeout to_timestamp unwrap_or]. lia. }
  pose proof (si_w _ _ _ (reached_inv c k sb Hc (reached_follows _ _ _ _ Ra Fb))) as Vb. cbn [sb y_w] in Vb.
  destruct (act_main c _ _ _ _ Hc Va A2) as (pre & ce2 & p2 & _ & Hp2 & El2 & Fp). rewrite Hp in Hp2. injection Hp2 as <-.
  destruct (chan_step c _ _ _ _ _ (act_trans _ _ _ _ _ Hc (visited_base _ _ Hc Va) A2) Hce) as (ce3 & E3 & _).
  exists sb, ce3. split; [eapply follows_trans; eassumption|]. split; [reflexivity|]. cbn [sb y_w].
  assert (Op : opened (w_log w1) id = Some ch).
  { rewrite Ew. cbn [w_log opened]. exact (last_opened_opened _ _ La). }
  split; [rewrite El2, recorded_plain by exact Fp; cbn [recorded]; rewrite Ew; cbn [w_log recorded]; rewrite Hr, Or; reflexivity|].
  assert (Pl : forall l, owner_of (pre ++ l) = owner_of l /\ callback_of (pre ++ l) = callback_of l /\ requested (pre ++ l) = requested l).
  { intro l. clear - Fp. induction Fp as [|x pre Hx _ (IH1 & IH2 & IH3)]; [auto|]. destruct x; try contradiction; cbn [app]; repeat split; assumption. }
  rewrite El2. rewrite (proj1 (Pl _)), (proj1 (proj2 (Pl _))), (proj2 (proj2 (Pl _))). rewrite Ew. cbn [w_log owner_of callback_of requested].
  split; [exact Ho|]. split; [reflexivity|]. split; [reflexivity|]. split; [exact E3|].
  pose proof (ic_chan _ _ (inv_chans _ _ (visited_inv c _ Hc Vb)) id) as C. rewrite E3 in C. destruct C as (_ & _ & _ & _ & _ & C).
  assert (Cl : chan_open (w_log w2) id = false).
  { rewrite El2, chan_open_plain by exact Fp. cbn [chan_open]. unfold chan_ordered. rewrite Op, Or. cbn [px p_src e_chan].
    rewrite String.eqb_refl. reflexivity. }
  assert (Op2 : opened (w_log w2) id <> None).
  { rewrite El2, opened_plain by exact Fp. cbn [opened]. congruence. }
  destruct (ce_state ce3); [congruence|destruct C; congruence|reflexivity].
Qed.

Lemma closed_stays c k s s' id ce : cfg_ok c -> reached c k s -> follows c k s s' -> w_chans (y_w s) id = Some ce -> ce_state ce = CClosed ->
  exists ce', w_chans (y_w s') id = Some ce' /\ ce_state ce' = CClosed.
Proof.
  intros Hc R F E St. induction F as [|s' s'' F IH S]; [eauto|]. destruct IH as (ce1 & E1 & S1).
  pose proof (si_w _ _ _ (reached_inv c k s' Hc (reached_follows _ _ _ _ R F))) as V.
  destruct S; cbn [y_w] in *; eauto.
  match goal with A : act _ _ _ = _ |- _ =>
    destruct (chan_step c _ _ _ _ _ (act_trans _ _ _ _ _ Hc (visited_base _ _ Hc V) A) E1) as (ce' & X' & _ & _ & _ & S4) end. eauto.
Qed.

(** Either way the channel of the account gets closed on the chain. *)
Lemma drop_sys c k s owner h t : cfg_ok c -> reached c k s -> owner_of (w_log (y_w s)) = Some owner ->
  h < u64_lim -> t < u64_lim -> h_clock (y_h s) < u64_lim ->
  exists s1, follows c k s s1 /\ y_h s1 = y_h s /\ recorded_open_in (w_log (y_w s1)) = false /\
    owner_of (w_log (y_w s1)) = Some owner /\ callback_of (w_log (y_w s1)) = callback_of (w_log (y_w s)) /\
    (forall id, w_chans (y_w s) id = None -> w_chans (y_w s1) id = None) /\
    (forall id ce, w_chans (y_w s) id = Some ce -> ce_state ce = CClosed ->
       exists ce', w_chans (y_w s1) id = Some ce' /\ ce_state ce' = CClosed) /\
    (forall ch, last_opened (w_log (y_w s)) = Some ch -> w_nextseq (y_w s) (e_chan (ch_endpoint ch)) < u64_lim ->
       exists ce, w_chans (y_w s1) (e_chan (ch_endpoint ch)) = Some ce /\ ce_state ce = CClosed).
Proof.
  intros Hc R Ho Hh Ht Hk. pose proof (reached_inv c k s Hc R) as I. pose proof (si_w _ _ _ I) as V.
  pose proof (recorded_last (w_log (y_w s))) as La.
  destruct (close_sys c k s owner h t Hc R Ho Hh Ht) as (sa & Fa & Ha1 & Ha2 & Ha3 & Ha4 & Ha5 & Ha6 & Ha7).
  destruct (recorded (w_log (y_w s))) as [[ch b]|] eqn:Hr.
  2:{ exists sa. repeat (split; [assumption|]). intros ch X. congruence. }
  destruct b.
  { exists sa. repeat (split; [assumption|]). intros ch' X _. assert (ch' = ch) by congruence. subst. now apply Ha7. }
  destruct (last_opened_end c _ _ Hc V La) as (ce & md & E & _ & _ & _ & [St|St] & _).
  2:{ exists sa. repeat (split; [assumption|]). intros ch' X _. assert (ch' = ch) by congruence. subst. eauto. }
  destruct (N.lt_ge_cases (w_nextseq (y_w s) (e_chan (ch_endpoint ch))) u64_lim) as [Hn|Hn].
  2:{ exists sa. repeat (split; [assumption|]). intros ch' X Y. assert (ch' = ch) by congruence. subst. lia. }
  destruct (stale_sys c k s owner ch ce Hc R Ho Hr E St Hn Hk) as (s1 & ce1 & F1 & H1 & R1 & O1 & C1 & Q1 & E1 & S1).
  pose proof (si_w _ _ _ (reached_inv c k s1 Hc (reached_follows _ _ _ _ R F1))) as V1.
  exists s1. split; [exact F1|]. split; [exact H1|]. split; [unfold recorded_open_in; now rewrite R1|]. split; [exact O1|]. split; [exact C1|].
  split; [|split].
  - intros id Hid. apply (unused_requested c _ id Hc V1). rewrite Q1. now apply (unused_requested c _ id Hc V).
  - intros id ce0 X Y. exact (closed_stays c k _ _ _ _ Hc R F1 X Y).
  - intros ch' X _. assert (ch' = ch) by congruence. subst. eauto.
Qed.

(** Whatever has happened, the owner can close the channel (if it is open; with
    a packet that times out, if it is wrongly recorded as closed), open a new one, and have any supported request without raw messages carried
    out by the host's account, with the result reported to the callback
    contract.  Only the size of the packet is limited.
    Partial: the host must have no active channel for the contract on that
    connection but one that is closed or that is the channel of the account the
    contract reports;
    otherwise see [C82_never_stuck_refuted]. *)
Theorem C82_never_stuck_partial : forall c k s st oo owner o id hid account h tm raw ms qs memo t legacy resps answers,
  cfg_ok c -> hcfg_ok k -> reached c k s ->
  state_reported (y_w s) st -> owner_reported (y_w s) oo -> ow_owner oo = Some owner ->
  utf8_options o -> unwrap_or (oo_cp_port o) "icahost" = "icahost" -> slen (open_init_bytes (c_self c) o) < u32_lim ->
  peer k (oo_connection o) = Some (oo_cp_connection o) ->
  (forall a hc, h_active (y_h s) (oo_cp_connection o) = Some a -> h_chans (y_h s) a = Some hc ->
    (exists ce, w_chans (y_w s) (e_chan (hc_cp hc)) = Some ce /\ ce_state ce = CClosed) \/
    (exists info, cs_ica st = Some info /\ ii_channel info = e_chan (hc_cp hc) /\ w_nextseq (y_w s) (ii_channel info) < u64_lim)) ->
  account_on s (oo_cp_connection o) account ->
  w_chans (y_w s) id = None -> utf8 id -> slen id <= 64 ->
  h_chans (y_h s) hid = None -> utf8 hid -> account_address c account ->
  h < u64_lim -> tm < u64_lim -> from_json jc_execute_msg raw = Some (XSendCosmosMsgs ms qs memo t) ->
  Forall supported ms -> Forall (fun m => match m with MStargate _ _ => False | _ => True end) ms -> Forall qsupported qs ->
  tm + unwrap_or t 600 * 10 ^ 9 < u64_lim -> h_clock (y_h s) < tm + unwrap_or t 600 * 10 ^ 9 ->
  length resps = length ms ->
  match qs, answers with
  | [], None => True
  | _ :: _, Some (h, bs) => length bs = length qs /\ h < u64_lim
  | _, _ => False
  end ->
  sizes_fit legacy resps answers = true ->
  exists s1 st1 st2 r data, follows c k s s1 /\
    state_reported (y_w s1) (ContractState (Some (IcaInfo account id Protobuf)) (cs_callback st)) /\
    w_store (y_w s1) = Some st1 /\
    execute (c_api c) st1 (Env h tm (c_self c)) owner (XSendCosmosMsgs ms qs memo t) = Ok (st2, r) /\ sends_data r data /\
    (slen data < u32_lim -> exists s' p anys, follows c k s1 s' /\
       In (LSent (Env h tm (c_self c)) owner (XSendCosmosMsgs ms qs memo t) p) (w_log (y_w s')) /\
       In (Ran hid p account anys (result_bytes legacy resps answers) answers) (h_log (y_h s')) /\
       packet_spec account ms qs anys /\
       forall addr, cs_callback st = Some addr -> exists msg relayer qr, In (LCall addr msg) (w_log (y_w s')) /\
         from_json jc_receiver msg = Some (CbAck (AckResult (result_bytes legacy resps answers)) p relayer qr) /\
         match answers with
         | Some (h, bs) => exists r, qr = Some r /\ result_spec qs h bs r
         | None => True
         end).
Proof.
  intros c k s st oo owner o id hid account h tm raw ms qs memo t legacy resps answers Hc Hk R Rs Ro Hown Uo Po Zo Px Fx Bx Hid Uid Zid
    Hhid Uhid Ha Hh Htm Hm Sm Ns Sq Hto Hclk Hl Hans Sz.
  pose proof (reached_inv c k s Hc R) as I. pose proof (si_w _ _ _ I) as V.
  destruct (state_reported_log _ _ _ Hc V Rs) as (Hne & ->). cbn [cs_callback].
  destruct (owner_reported_log _ _ _ Hc V Ro) as (_ & Eo). rewrite Hown in Eo. symmetry in Eo.
  assert (Uow : utf8 owner) by (eapply owner_utf8; [exact (visited_hist c _ Hc V)|exact Eo]).
  (* close *)
  destruct (drop_sys c k s owner h tm Hc R Eo Hh Htm) as (sa & Fa & Ha1 & Ha2 & Ha3 & Ha4 & Ha5 & Ha6 & Ha7); [lia|].
  specialize (Ha5 id Hid). pose proof (reached_follows _ _ _ _ R Fa) as Ra. pose proof (reached_inv c k sa Hc Ra) as Ia.
  pose proof (si_w _ _ _ Ia) as Va.
  (* create *)
  destruct (act_create c h tm owner (create_text o) id (Some o) o (y_w sa) Hc Va Hh Htm Uow (create_text_reads o Uo) Ha3 Ha2 eq_refl
    (conj Ha5 (conj Uid Zid)) Po Zo) as (wb & Ab & Lb & Cb).
  set (sb := Sys wb (wb :: y_ws sa) (y_h sa) (y_hs sa)).
  assert (Fb : follows c k sa sb) by (eapply exec_follows; eassumption).
  pose proof (reached_follows _ _ _ _ Ra Fb) as Rb. pose proof (reached_inv c k sb Hc Rb) as Ib. pose proof (si_w _ _ _ Ib) as Vb.
  (* handshake *)
  assert (Hhb : h_chans (y_h sb) hid = None) by (cbn [sb y_h]; rewrite Ha1; exact Hhid).
  assert (Ob : forall o', requested (w_log (y_w sb)) id = Some o' -> oo_cp_connection o' = oo_cp_connection o).
  { pose proof (ic_chan _ _ (inv_chans _ _ (visited_inv c _ Hc Vb)) id) as C. cbn [sb y_w] in C |- *. rewrite Cb in C.
    destruct C as ((o' & C1 & _ & _ & _ & C5 & C6) & _). specialize (C6 eq_refl). rewrite C1. intros o'' X. injection X as <-.
    assert (X : from_json jc_metadata (ce_version (init_end o)) = from_json jc_metadata (ce_version (init_end o'))) by now rewrite C6.
    cbn [init_end ce_version] in X. rewrite !metadata_roundtrip in X by (apply fresh_jval; first [apply Uo|apply C5]).
    now injection X. }
  assert (Fb' : free_on sb (oo_cp_connection o)).
  { intros a hc X Y. cbn [sb y_h y_w] in X, Y |- *. rewrite Ha1 in X, Y.
    assert (Z : exists ce, w_chans (y_w sa) (e_chan (hc_cp hc)) = Some ce /\ ce_state ce = CClosed).
    { destruct (Fx _ _ X Y) as [(ce & Z1 & Z2)|(info & Z1 & Z2 & Z3)]; [exact (Ha6 _ _ Z1 Z2)|]. cbn [cs_ica] in Z1. unfold account_of in Z1.
      destruct (last_opened (w_log (y_w s))) as [ch|] eqn:La; [|discriminate].
      destruct (from_json jc_metadata (ch_version ch)); [|discriminate]. injection Z1 as <-. cbn [ii_channel] in Z2, Z3.
      rewrite <- Z2. exact (Ha7 ch eq_refl Z3). }
    destruct Z as (ce & Z1 & Z2).
    destruct (chan_step c _ _ _ _ _ (act_trans _ _ _ _ _ Hc (visited_base _ _ Hc Va) Ab) Z1) as (ce2 & Z3 & _ & _ & _ & S4). eauto. }
  assert (Bb : account_on sb (oo_cp_connection o) account) by (unfold account_on; cbn [sb y_h]; rewrite Ha1; exact Bx).
  destruct (open_sys c k sb id (init_end o) hid account (oo_cp_connection o) Hc Hk Rb Cb eq_refl Px Ob Fb' Bb Hhb Uhid Ha) as
    (s1 & v & i & ch & ce' & F1 & Md & Ech & El1 & Cb1 & E1 & E2 & E3 & Hlog1 & Hclk1 & Hch1).
  pose proof (reached_follows _ _ _ _ Rb F1) as R1. pose proof (reached_inv c k s1 Hc R1) as I1. pose proof (si_w _ _ _ I1) as V1.
  destruct (open_reported c (y_w sb) (y_w s1) i ch account id Hc Vb V1 El1 Cb1) as (O1 & O2 & O3 & O4 & O5 & _);
    [rewrite Ech; cbn [ch_version]; rewrite Md; eauto|rewrite Ech; reflexivity|].
  assert (Ecb : callback_of (w_log (y_w sb)) = callback_of (w_log (y_w s))) by (cbn [sb y_w]; rewrite Lb; exact Ha4).
  assert (Eow : owner_of (w_log (y_w s1)) = Some owner) by (rewrite O4; cbn [sb y_w]; rewrite Lb; exact Ha3).
  rewrite Ecb in O1.
  assert (Hne1 : w_log (y_w s1) <> []) by (rewrite El1; destruct i; discriminate).
  destruct (ask_ownership c (y_w s1) Hc V1 Hne1) as (tx & Q1 & Q2).
  (* the next sequence *)
  assert (Sq0 : w_nextseq (y_w s1) id = 1).
  { rewrite (il_seq _ (visited_log c _ Hc V1)), O5. cbn [sb y_w]. rewrite Lb. cbn [sends].
    rewrite (no_sends c _ _ (visited_hist c _ Hc Va)); [reflexivity|].
    pose proof (ic_chan _ _ (inv_chans _ _ (visited_inv c _ Hc Va)) id) as X. rewrite Ha5 in X. apply X. }
  destruct (C22_owner_can_send c (y_w s1) h tm owner raw "" _ (IcaInfo account id Protobuf) _ ce' ms qs memo t Hc V1 Hh Htm Uow Hm
    (ex_intro _ tx (conj Q1 Q2)) Eow O1 eq_refl E1 E2 Sm Sq Hto) as (st1 & st2 & r & data & X1 & X2 & X3 & X4);
    [cbn [ii_channel]; rewrite Sq0; reflexivity|].
  exists s1, st1, st2, r, data.
  split; [eapply follows_trans; [exact Fa|]; eapply follows_trans; [exact Fb|exact F1]|].
  split; [exact O1|]. split; [exact X1|]. split; [exact X2|]. split; [exact X3|]. intro Hsz.
  (* the request *)
  destruct (X4 Hsz) as (wc & p & anys & Ac & Hp & _ & _). cbn [ii_channel] in Hp. rewrite Sq0 in Hp.
  destruct (send_act _ _ _ _ _ _ _ _ _ _ _ _ _ _ Hc V1 Ac Hm) as
    (sx & infox & s1x & pk & cex & s'x & _ & _ & _ & Acc & _ & _ & Ecx & _ & _ & _ & _ & _ & Ewc). cbv zeta in Ewc.
  destruct (state_reported_log _ _ _ Hc V1 O1) as (_ & Es). rewrite Acc in Es. injection Es as <- _. cbn [ii_channel] in *.
  rewrite E1 in Ecx. injection Ecx as <-. rewrite Sq0 in Ewc.
  set (px := Packet _ _ _ 1 _) in Ewc.
  assert (p = px) as ->. { rewrite Ewc in Hp. cbn [w_commit] in Hp. unfold upd2 in Hp. rewrite String.eqb_refl in Hp. cbn in Hp. congruence. }
  set (sc := Sys wc (wc :: y_ws s1) (y_h s1) (y_hs s1)).
  assert (Fc : follows c k s1 sc) by (eapply exec_follows; eassumption).
  pose proof (reached_follows _ _ _ _ R1 Fc) as Rc. pose proof (reached_inv c k sc Hc Rc) as Ic. pose proof (si_w _ _ _ Ic) as Vc.
  assert (Hs : In (LSent (Env h tm (c_self c)) owner (XSendCosmosMsgs ms qs memo t) px) (w_log (y_w sc))).
  { cbn [sc y_w]. rewrite Ewc. now left. }
  assert (Hce : w_chans (y_w sc) id = Some ce') by (cbn [sc y_w]; rewrite Ewc; exact E1).
  assert (Hpd : p_dest px = Endpoint "icahost" hid).
  { cbn [px p_dest]. assert (X : ch_counterparty (channel_of c id ce') = ch_counterparty ch) by now rewrite E3.
    rewrite Ech in X. exact X. }
  assert (Hcb : callback_of (w_log (y_w sc)) = callback_of (w_log (y_w s))).
  { cbn [sc y_w]. rewrite Ewc. cbn [w_log callback_of]. rewrite O3. exact Ecb. }
  set (hc := HChan HsOpen _ _ _ account 1 _) in Hch1.
  assert (Hfresh : match hc_order hc with
    | Ordered => 1 = hc_next hc
    | Unordered => forall i, In i (h_log (y_h sc)) -> item_pkt i <> px end).
  { destruct (hc_order hc); [reflexivity|]. intros j Hj Ej. cbn [sc y_h] in Hj. rewrite Hlog1 in Hj. cbn [sb y_h] in Hj. rewrite Ha1 in Hj.
    destruct (si_hs _ _ _ I _ (si_h _ _ _ I)) as [Hv _]. destruct (hi_item _ _ _ Hv _ Hj) as (hc0 & ack0 & J1 & _ & J2 & _).
    rewrite Ej, Hpd in J2. cbn [e_chan] in J2. congruence. }
  assert (Hclkc : h_clock (y_h sc) < env_time (Env h tm (c_self c)) + unwrap_or t 600 * 10 ^ 9).
  { cbn [sc y_h env_time]. rewrite Hclk1. cbn [sb y_h]. rewrite Ha1. exact Hclk. }
  set (res := result_bytes legacy resps answers).
  destruct (callback_of (w_log (y_w s))) as [addr|] eqn:Ecbs.
  - assert (Rsc : state_reported (y_w sc) (ContractState (account_of (w_log (y_w sc))) (Some addr))).
    { rewrite <- Hcb. apply (reports c); try assumption. cbn [sc y_w]. rewrite Ewc. discriminate. }
    destruct (C81_done_and_told c k sc id 1 px ce' _ owner ms qs memo t hid hc legacy resps answers _ addr
      Hc Hk Rc Rsc Hs Hp Hce E2 Ns Hch1 eq_refl (f_equal e_chan Hpd) Hclkc Hfresh Hl Hans Sz) as
      (s' & anys' & msg & relayer & qr & F' & Y1 & Y2 & Y3 & Y4 & Y5).
    exists s', px, anys'. split; [eapply follows_trans; eassumption|]. split; [exact (log_grows c k sc s' _ Hc Ic F' Hs)|].
    split; [exact Y1|]. split; [exact Y2|]. intros addr' X. injection X as <-. exists msg, relayer, qr. auto.
  - assert (Hj : from_json jc_ack (ack_of (AckResult res)) = Some (AckResult res)).
    { apply json_roundtrip; [exact jc_ack_ok|]. repeat split; discriminate. }
    destruct (C79_host_accepts c k sc id 1 px _ owner ms qs memo t hid hc legacy resps answers _ Hc Hk Rc Hs Hp Ns Hch1 eq_refl
      (f_equal e_chan Hpd) Hclkc Hfresh Hl Hans Sz Hj) as (h' & anys' & A & El & Sp).
    exists (Sys (y_w sc) (y_ws sc) h' (h' :: y_hs sc)), px, anys'. split.
    { eapply follows_trans; [exact Fc|]. eapply follows_step; [constructor|]. eapply S_host; [exact (si_here _ _ _ Ic)|exact A]. }
    split; [exact Hs|]. cbn [y_h]. rewrite El. split; [left; reflexivity|]. split; [exact Sp|]. discriminate.
Qed.
(** The channel was closed with a packet outstanding, which times out after a
    new channel has been opened; the new channel is then recorded as closed. *)
Definition stale0 : list (action + haction) := asked0 Ordered ++
  [on_contract (exec "owner" XCloseChannel ""); inr (HCloseConfirm "channel-7");
   on_contract (exec "owner" (XCreateChannel None) "channel-1");
   inr (HTryOpen "channel-9" "channel-1" (host_version "cosmos1acc"));
   on_contract (open_ack "channel-1" "channel-9" "cosmos1acc"); inr (HConfirm "channel-9");
   inr (HClock 70000000000); inl (ATimeout "channel-0" 1 "relayer")].

(** An ordered channel that a timeout has closed; a channel that is open, with a
    packet the host has run but nobody has acknowledged; and a channel recorded
    as closed that is open. *)
Example C82_case : forall s, s = sys0 (late0 Ordered) \/ s = sys0 (done0 Unordered) \/ s = sys0 stale0 ->
  exists raw st, reached cfg0 k0 s /\ state_reported (y_w s) st /\
  owner_reported (y_w s) (Ownership (Some "owner") None None) /\
  utf8_options (opts0 (Some Unordered)) /\ unwrap_or (oo_cp_port (opts0 (Some Unordered))) "icahost" = "icahost" /\
  slen (open_init_bytes (c_self cfg0) (opts0 (Some Unordered))) < u32_lim /\
  peer k0 (oo_connection (opts0 (Some Unordered))) = Some (oo_cp_connection (opts0 (Some Unordered))) /\
  (forall a hc, h_active (y_h s) (oo_cp_connection (opts0 (Some Unordered))) = Some a -> h_chans (y_h s) a = Some hc ->
    (exists ce, w_chans (y_w s) (e_chan (hc_cp hc)) = Some ce /\ ce_state ce = CClosed) \/
    (exists info, cs_ica st = Some info /\ ii_channel info = e_chan (hc_cp hc) /\ w_nextseq (y_w s) (ii_channel info) < u64_lim)) /\
  account_on s (oo_cp_connection (opts0 (Some Unordered))) "cosmos1acc" /\
  w_chans (y_w s) "channel-2" = None /\ h_chans (y_h s) "channel-8" = None /\ account_address cfg0 "cosmos1acc" /\
  from_json jc_execute_msg raw = Some (send0 [bank0] [query0]) /\ Forall supported [bank0] /\ Forall qsupported [query0] /\
  (exists memo t, send0 [bank0] [query0] = XSendCosmosMsgs [bank0] [query0] memo t /\
     h_clock (y_h s) < 80000000000 + unwrap_or t 600 * 10 ^ 9) /\
  sizes_fit [] [resp0] (Some (42, [answer0])) = true.
Proof.
  intros s Hs. exists (to_json jc_execute_msg (send0 [bank0] [query0])).
  assert (Y : option_map hc_cp (h_chans (y_h s) (unwrap_or (h_active (y_h s) "connection-1") "")) = Some (Endpoint (port cfg0) (if negb (is_some (w_chans (y_w s) "channel-1")) then "channel-0" else "channel-1")))
    by (destruct Hs as [-> | [-> | ->]]; vm_compute; reflexivity).
  assert (Z : h_accounts (y_h s) "connection-1" = Some "cosmos1acc") by (destruct Hs as [-> | [-> | ->]]; vm_compute; reflexivity).
  eexists.
  split; [destruct Hs as [-> | [-> | ->]]; apply sys0_reached|].
  split; [apply (state_reported_by _ (match w_store (y_w s) with Some st => unwrap_or (st_state st) (ContractState None None) | None => ContractState None None end)); destruct Hs as [-> | [-> | ->]]; vm_compute; reflexivity|].
  split; [destruct Hs as [-> | [-> | ->]]; apply owner_reported_by; vm_compute; reflexivity|].
  split; [repeat split; vm_compute; reflexivity|]. split; [reflexivity|]. split; [apply N.ltb_lt; vm_compute; reflexivity|].
  split; [reflexivity|].
  split.
  { cbn [opts0 oo_cp_connection]. intros a hc E1 E2. rewrite E1 in Y. cbn [unwrap_or] in Y. rewrite E2 in Y. injection Y as ->.
    destruct Hs as [-> | [-> | ->]]; [left|right|right].
    - eexists. split; [vm_compute; reflexivity|reflexivity].
    - eexists. split; [vm_compute; reflexivity|]. split; [vm_compute; reflexivity|]. apply N.ltb_lt. vm_compute. reflexivity.
    - eexists. split; [vm_compute; reflexivity|]. split; [vm_compute; reflexivity|]. apply N.ltb_lt. vm_compute. reflexivity. }
  split; [intros a E; cbn [opts0 oo_cp_connection] in E; congruence|].
  split; [destruct Hs as [-> | [-> | ->]]; vm_compute; reflexivity|]. split; [destruct Hs as [-> | [-> | ->]]; vm_compute; reflexivity|].
  split; [exact acc_address|]. split; [vm_compute; reflexivity|].
  split; [repeat constructor|]. split; [repeat constructor|].
  split; [eexists _, _; split; [reflexivity|]; apply N.ltb_lt; destruct Hs as [-> | [-> | ->]]; vm_compute; reflexivity| vm_compute; reflexivity].
Qed.

(** Two handshakes at the same time: the contract is instantiated, its owner
    asks for a second channel, and relayers complete both.  The contract keeps
    the second, the host the one confirmed last, the first.  A request is
    carried out; then the owner closes the channel. *)
Definition two0 : list (action + haction) :=
  [on_contract (inst (Some Ordered) (Some "cb"));
   on_contract (exec "owner" (XCreateChannel None) "channel-1");
   inr (HTryOpen "channel-7" "channel-0" (host_version "cosmos1acc"));
   inr (HTryOpen "channel-8" "channel-1" (host_version "cosmos1acc"));
   on_contract (open_ack "channel-0" "channel-7" "cosmos1acc");
   on_contract (open_ack "channel-1" "channel-8" "cosmos1acc");
   inr (HConfirm "channel-8");
   inr (HConfirm "channel-7");
   on_contract (exec "owner" (send0 [bank0] [query0]) "");
   inr (HRecv "channel-8" 1 (Runs [] [resp0] (Some (42, [answer0]))) (ack_of (AckResult result0)));
   inl (AAck "channel-1" 1 (ack_of (AckResult result0)) "relayer");
   on_contract (exec "owner" XCloseChannel "");
   inr (HCloseConfirm "channel-8")].
Definition lost0 : sys := sys0 two0.

Lemma lost0_reached : reached cfg0 k0 lost0.
Proof. unfold lost0. apply sys0_reached. Qed.

(** What stays so for ever. *)
Record lost (l0 : list logitem) (g0 : list hitem) (s : sys) : Prop := {
  lo_rec : exists ch, recorded (w_log (y_w s)) = Some (ch, false) /\ e_chan (ch_endpoint ch) = "channel-1";
  lo_open : chan_open (w_log (y_w s)) "channel-0" = true /\ chan_open (w_log (y_w s)) "channel-1" = false;
  lo_opened : opened (w_log (y_w s)) "channel-0" <> None /\ opened (w_log (y_w s)) "channel-1" <> None;
  lo_sent : forall e sd m p, In (LSent e sd m p) (w_log (y_w s)) -> In (LSent e sd m p) l0;
  lo_active : h_active (y_h s) "connection-1" = Some "channel-7";
  lo_log : h_log (y_h s) = g0;
  lo_first : exists hc, h_chans (y_h s) "channel-7" = Some hc /\ hc_state hc = HsOpen /\ hc_cp hc = Endpoint (port cfg0) "channel-0";
  lo_second : exists hc, h_chans (y_h s) "channel-8" = Some hc /\ hc_state hc = HsClosed /\ hc_cp hc = Endpoint (port cfg0) "channel-1";
  lo_other : forall hid, hid <> "channel-7" -> hid <> "channel-8" -> h_chans (y_h s) hid = None
}.

Lemma all_on id l e sd m p :
  forallb (fun i => match i with LSent _ _ _ p => String.eqb (e_chan (p_src p)) id | _ => true end) l = true ->
  In (LSent e sd m p) l -> e_chan (p_src p) = id.
Proof. intros X H. rewrite forallb_forall in X. specialize (X _ H). now apply String.eqb_eq in X. Qed.
Lemma lost0_sent e sd m p : In (LSent e sd m p) (w_log (y_w lost0)) -> e_chan (p_src p) = "channel-1".
Proof. apply all_on. vm_compute. reflexivity. Qed.

(** The host's channel ids are those of the openings. *)
Lemma srun_chans c k l hid : (forall id v, ~ In (inr (HTryOpen hid id v)) l) ->
  forall s, h_chans (y_h s) hid = None -> h_chans (y_h (srun c k l s)) hid = None.
Proof.
  induction l as [|x l IH]; intros Hl s Hs; [exact Hs|]. cbn [srun]. apply IH.
  { intros id v Hi. apply (Hl id v). now right. }
  destruct x as [a|a]; cbn [srun1].
  - destruct (provable c a (y_w s) (y_h s)); [|exact Hs]. destruct (act c a (y_w s)) as [[w b]|]; exact Hs.
  - destruct (hact c k a (y_w s) (y_h s)) as [h|] eqn:A; [|exact Hs]. cbn [y_h].
    destruct a as [t|hid' id v|hid'|hid'|hid' n o ack]; cbn [hact] in A.
    + unbind A. injection A as <-. exact Hs.
    + unbind A. injection A as <-. cbn [put_account put_hchan h_chans]. rewrite upd_other; [exact Hs|].
      intros ->. apply (Hl id v). now left.
    + unbind A. injection A as <-. cbn [put_active put_hchan h_chans]. rewrite upd_other; [exact Hs|congruence].
    + unbind A. injection A as <-. cbn [put_active put_hchan h_chans]. rewrite upd_other; [exact Hs|congruence].
    + apply obind_some in A as (hc & Ehc & A). apply obind_some in A as ([] & _ & A). apply obind_some in A as (p & _ & A).
      apply obind_some in A as ([] & _ & A). apply obind_some in A as ([] & _ & A). apply obind_some in A as ([] & _ & A).
      apply obind_some in A as ([d ran] & _ & A). apply obind_some in A as ([] & _ & A). cbv zeta in A. injection A as <-.
      cbn [h_chans]. destruct (hc_order hc); [|exact Hs]. rewrite upd_other; [exact Hs|congruence].
Qed.

Lemma lost_host l0 g0 s a w h : (forall e sd m p, In (LSent e sd m p) l0 -> e_chan (p_src p) = "channel-1") ->
  reached cfg0 k0 s -> lost l0 g0 s -> In w (y_ws s) -> hact cfg0 k0 a w (y_h s) = Some h ->
  lost l0 g0 (Sys (y_w s) (y_ws s) h (h :: y_hs s)).
Proof.
  intros Z0 R L Hw H. pose proof (reached_inv _ _ _ cfg0_ok R) as I. destruct (si_ws _ _ _ I _ Hw) as (V & Lw).
  destruct L as [L1 L2 L3 L4 L5 L6 (hc7 & A1 & A2 & A3) (hc8 & B1 & B2 & B3) L9].
  assert (Hid : forall hid hc, h_chans (y_h s) hid = Some hc -> (hid = "channel-7" /\ hc = hc7) \/ (hid = "channel-8" /\ hc = hc8)).
  { intros hid hc E. destruct (String.eqb_spec hid "channel-7") as [->|N]; [left; split; congruence|].
    destruct (String.eqb_spec hid "channel-8") as [->|N']; [right; split; congruence|]. rewrite (L9 _ N N') in E. discriminate. }
  destruct a as [t|hid id version|hid|hid|hid n o ack]; cbn [hact] in H.
  - unbind H. injection H as <-. constructor; cbn [y_w y_h h_active h_log h_chans]; eauto.
  - exfalso. apply obind_some in H as ([] & _ & H). apply obind_some in H as (ce & _ & H). apply obind_some in H as ([] & _ & H).
    apply obind_some in H as ([] & _ & H). apply obind_some in H as (md & _ & H). apply obind_some in H as ([] & G & _).
    apply guard_some, may_open_ok in G as (_ & G1 & G2). cbn [k0 peer] in G1.
    destruct (String.eqb (ce_conn ce) "connection-0"); [|discriminate]. injection G1 as G1. rewrite <- G1 in G2.
    destruct (G2 _ L5) as (hc & y & E1 & E2 & _). congruence.
  - exfalso. apply obind_some in H as (hc & Ehc & H). apply obind_some in H as ([] & G & _). apply guard_some in G.
    destruct (Hid _ _ Ehc) as [(-> & ->)|(-> & ->)]; rewrite ?A2, ?B2 in G; discriminate.
  - exfalso. apply obind_some in H as (hc & Ehc & H). apply obind_some in H as ([] & G & H). apply guard_some in G.
    apply obind_some in H as (ce & Ece & H). apply obind_some in H as ([] & G1 & _). apply guard_some in G1.
    destruct (Hid _ _ Ehc) as [(-> & ->)|(-> & ->)]; [|rewrite B2 in G; discriminate].
    rewrite A3 in Ece. cbn [e_chan] in Ece. destruct (later_chan _ _ _ _ _ cfg0_ok V Lw Ece) as (ce' & E' & _ & _ & _ & S4).
    assert (Ec : ce_state ce' = CClosed) by (apply S4; destruct (ce_state ce); congruence).
    pose proof (ic_chan _ _ (inv_chans _ _ (visited_inv _ _ cfg0_ok (si_w _ _ _ I))) "channel-0") as C.
    rewrite E', Ec in C. destruct C as (_ & _ & _ & _ & _ & _ & C). destruct L2 as [L2 _]. congruence.
  - exfalso. apply obind_some in H as (hc & Ehc & H). apply obind_some in H as ([] & G & H). apply guard_some in G.
    apply obind_some in H as (p & Ep & _).
    destruct (Hid _ _ Ehc) as [(-> & ->)|(-> & ->)]; [|rewrite B2 in G; discriminate].
    rewrite A3 in Ep. cbn [e_chan] in Ep. destruct (held _ _ _ _ _ cfg0_ok V Ep) as (ce & _ & _ & S & _ & _ & e & sd & m & Hs).
    destruct (later_log _ _ _ cfg0_ok V Lw) as (new & El).
    assert (X : In (LSent e sd m p) (w_log (y_w s))) by (rewrite El; apply in_or_app; now right).
    apply L4, Z0 in X. rewrite S in X. discriminate.
Qed.

Lemma lost_controller l0 g0 s a h w b : (forall e sd m p, In (LSent e sd m p) l0 -> e_chan (p_src p) = "channel-1") ->
  reached cfg0 k0 s -> lost l0 g0 s -> In h (y_hs s) -> genuine cfg0 a (y_w s) h ->
  act cfg0 a (y_w s) = Some (w, b) -> lost l0 g0 (Sys w (w :: y_ws s) (y_h s) (y_hs s)).
Proof.
  intros Z0 R L Hh Hg Ha. pose proof (reached_inv _ _ _ cfg0_ok R) as I. destruct (si_hs _ _ _ I _ Hh) as (Hv & Hl).
  pose proof (si_w _ _ _ I) as V.
  destruct L as [(ch & L1 & L1') [L2 L2'] [L3 L3'] L4 L5 L6 (hc7 & A1 & A2 & A3) (hc8 & B1 & B2 & B3) L9].
  assert (U : forall pre, Forall plain pre -> forall x l, w_log w = pre ++ x :: w_log (y_w s) -> l = w_log (y_w s) ->
     match x with LAck _ _ _ => True | LTimeout p _ => e_chan (p_src p) = "channel-1" | _ => False end ->
     lost l0 g0 (Sys w (w :: y_ws s) (y_h s) (y_hs s))).
  { intros pre F x l El _ Hx. constructor; cbn [y_w y_h]; eauto; rewrite El.
    - exists ch. rewrite recorded_plain by exact F. split; [|exact L1']. destruct x; try contradiction; cbn [recorded]; rewrite L1; [reflexivity|].
      now destruct (order_eqb (ch_order ch) Ordered).
    - rewrite !chan_open_plain by exact F. destruct x; try contradiction; cbn [chan_open]; [auto|]. rewrite Hx. cbn [String.eqb andb Ascii.eqb Bool.eqb].
      split; [exact L2|]. destruct (chan_ordered _ _); auto.
    - rewrite !opened_plain by exact F. destruct x; try contradiction; cbn [opened]; auto.
    - intros e sd m p H. apply sent_plain in H; [|exact F]. destruct H as [H|H]; [|eauto]. subst x. contradiction. }
  destruct (act_main _ _ _ _ _ cfg0_ok V Ha) as (pre & M).
  assert (Ub : user_block cfg0 (w_log (y_w s)) pre -> w_log w = pre ++ w_log (y_w s) -> lost l0 g0 (Sys w (w :: y_ws s) (y_h s) (y_hs s))).
  { intros B El. pose proof (recorded_last (w_log (y_w s))) as La. rewrite L1 in La.
    assert (N : forall ch', recorded (w_log (y_w s)) = Some (ch', true) -> False) by (intros ? X; congruence).
    destruct B; try (exfalso; eapply N; eassumption); cbn [app] in El.
    - exfalso. match goal with X : w_log (y_w s) = [] |- _ => rewrite X in L1 end. discriminate.
    - constructor; cbn [y_w y_h]; eauto; rewrite El; cbn [recorded chan_open opened]; eauto.
      intros e' sd' m' p' [H'|[H'|H']]; try discriminate. eauto.
    - exfalso. assert (ch0 = ch) by congruence. subst ch0. rewrite L1' in *. congruence.
    - constructor; cbn [y_w y_h]; eauto; rewrite El; cbn [recorded chan_open opened]; eauto.
      intros e' sd' m' p' [H'|H']; try discriminate. eauto.
    - constructor; cbn [y_w y_h]; eauto; rewrite El; cbn [recorded chan_open opened]; eauto.
      intros e' sd' m' p' [H'|H']; try discriminate. eauto.
    - constructor; cbn [y_w y_h]; eauto; rewrite El; cbn [recorded chan_open opened]; eauto.
      intros e' sd' m' p' [H'|H']; try discriminate. eauto.
    - constructor; cbn [y_w y_h]; eauto; rewrite El; cbn [recorded chan_open opened]; eauto.
      intros e' sd' m' p' [H'|H']; try discriminate. eauto. }
  assert (Src : forall id n p, w_commit (y_w s) id n = Some p -> e_chan (p_src p) = "channel-1").
  { intros id n p Hp. destruct (held _ _ _ _ _ cfg0_ok V Hp) as (ce & _ & _ & _ & _ & _ & e & sd & m & Hs).
    apply L4, Z0 in Hs. exact Hs. }
  destruct a; try (destruct M as (M1 & M2); exact (Ub M1 M2)).
  - exfalso. destruct Hg as (ce & hc & G1 & G2 & G3 & G4 & G5 & G6).
    destruct (hl_chan _ _ Hl _ _ G2) as (hc' & H1 & _ & S2 & _).
    cbn [act] in Ha. apply obind_some in Ha as ([] & _ & Ha). apply obind_some in Ha as (ce' & E' & Ha).
    apply obind_some in Ha as ([] & G7 & _). apply guard_some in G7. assert (ce' = ce) by congruence. subst ce'.
    assert (Es : ce_state ce = CInit) by (destruct (ce_state ce); congruence).
    pose proof (ic_chan _ _ (inv_chans _ _ (visited_inv _ _ cfg0_ok V)) id) as C. rewrite G1, Es in C.
    destruct C as (_ & _ & _ & _ & _ & C).
    destruct (String.eqb_spec cp_chan "channel-7") as [->|N7]; [|destruct (String.eqb_spec cp_chan "channel-8") as [->|N8]].
    + assert (hc' = hc7) by congruence. subst hc'. rewrite A3, G5 in S2. injection S2 as ->. congruence.
    + assert (hc' = hc8) by congruence. subst hc'. rewrite B3, G5 in S2. injection S2 as ->. congruence.
    + rewrite (L9 _ N7 N8) in H1. discriminate.
  - exfalso. destruct M as (ce & M1 & M2). destruct (no_close_confirm _ _ _ _ _ Hl (si_link _ _ _ I) Hg) as (ce' & E1 & E2). congruence.
  - destruct M as (ce & p & M1 & M2 & M3 & M4). exact (U pre M4 _ _ M3 eq_refl Logic.I).
  - destruct M as (ce & p & M1 & M2 & M3 & M4). exact (U pre M4 _ _ M3 eq_refl (Src _ _ _ M2)).
Qed.

Lemma lost_follows s : follows cfg0 k0 lost0 s -> lost (w_log (y_w lost0)) (h_log (y_h lost0)) s.
Proof.
  intro F. induction F as [|s1 s2 F IH S].
  - constructor.
    + eexists. split; [vm_compute; reflexivity|reflexivity].
    + split; vm_compute; reflexivity.
    + split; vm_compute; discriminate.
    + intros e sd m p H. exact H.
    + vm_compute. reflexivity.
    + reflexivity.
    + eexists. split; [vm_compute; reflexivity|split; reflexivity].
    + eexists. split; [vm_compute; reflexivity|split; reflexivity].
    + intros hid N7 N8.
      apply srun_chans; [|reflexivity]. intros id v Hi. unfold two0, on_contract in Hi.
      repeat (destruct Hi as [Hi|Hi]; [try discriminate Hi; injection Hi; intros; subst; congruence|]). exact Hi.
  - pose proof (reached_follows _ _ _ _ lost0_reached F) as R.
    destruct S as [a h w b Hh Hg Ha|a w h Hw Ha]; [eapply lost_controller|eapply lost_host]; try eassumption; exact lost0_sent.
Qed.
(** The account is then lost: it exists, and the contract still has its owner
    and still reports it, but whatever anybody does, no request is ever sent
    again and the host never does anything for the contract again. *)
Theorem C82_never_stuck_refuted : exists c k s account cb x, cfg_ok c /\ hcfg_ok k /\ reached c k s /\
  owner_reported (y_w s) (Ownership (Some "owner") None None) /\
  state_reported (y_w s) (ContractState (Some (IcaInfo account "channel-1" Protobuf)) cb) /\
  h_accounts (y_h s) x = Some account /\ (exists hid p anys res answers, In (Ran hid p account anys res answers) (h_log (y_h s))) /\
  forall s', follows c k s s' ->
    (forall e sd m p, In (LSent e sd m p) (w_log (y_w s')) -> In (LSent e sd m p) (w_log (y_w s))) /\
    h_log (y_h s') = h_log (y_h s).
Proof.
  exists cfg0, k0, lost0, "cosmos1acc", (Some "cb"), "connection-1". split; [exact cfg0_ok|]. split; [exact k0_ok|].
  split; [exact lost0_reached|]. split; [apply owner_reported_by; vm_compute; reflexivity|].
  split; [apply state_reported_by; vm_compute; reflexivity|]. split; [vm_compute; reflexivity|].
  split; [eexists _, _, _, _, _; vm_compute; left; reflexivity|].
  intros s' F. pose proof (lost_follows s' F) as L. split; [exact (lo_sent _ _ _ L)|exact (lo_log _ _ _ L)].
Qed.

(** ** C83: the account stays the same *)

(** The host's account for a channel that was opened. *)
Lemma opened_account c k s s' ch : cfg_ok c -> reached c k s -> follows c k s s' -> last_opened (w_log (y_w s)) = Some ch ->
  exists md, from_json jc_metadata (ch_version ch) = Some md /\ peer k (ch_connection ch) = Some (md_host md) /\
    h_accounts (y_h s') (md_host md) = Some (md_address md).
Proof.
  intros Hc R F Ho. pose proof (reached_inv c k s Hc R) as I.
  destruct (last_opened_end c _ _ Hc (si_w _ _ _ I) Ho) as (ce & md & _ & _ & Md & Ag & _).
  exists md. split; [exact Md|].
  destruct (lk_open _ _ _ (si_link _ _ _ I) _ _ (last_opened_opened _ _ Ho)) as (hc & E1 & E2 & E3 & E4).
  destruct (hl_chan _ _ (proj2 (follows_later c k s s' Hc I F)) _ _ E1) as (hc' & E' & _ & _ & S3 & _).
  destruct (tm_chan _ _ (reached_terms c k s' Hc (reached_follows _ _ _ _ R F)) _ _ E') as ((conn & T1 & T2) & T3).
  rewrite <- S3, E3, Md in T2. injection T2 as ->. cbn [md_host md_address]. split; [|exact T3].
  destruct Ag as (_ & Ag & _). cbn [md_controller] in Ag. congruence.
Qed.

(** However often the channel is closed and opened again, over one connection
    the contract always reports the same account. *)
Theorem C83_same_account : forall c k s s' ch ch' st st' info info' cb cb',
  cfg_ok c -> reached c k s -> follows c k s s' ->
  channel_reported (y_w s) ch st -> state_reported (y_w s) (ContractState (Some info) cb) ->
  channel_reported (y_w s') ch' st' -> state_reported (y_w s') (ContractState (Some info') cb') ->
  ch_connection ch = ch_connection ch' -> ii_address info = ii_address info'.
Proof.
  intros c k s s' ch ch' st st' info info' cb cb' Hc R F C1 S1 C2 S2 E.
  pose proof (reached_follows _ _ _ _ R F) as R'.
  pose proof (si_w _ _ _ (reached_inv c k s Hc R)) as V. pose proof (si_w _ _ _ (reached_inv c k s' Hc R')) as V'.
  assert (A : forall w ch st info cb, visited c w -> channel_reported w ch st -> state_reported w (ContractState (Some info) cb) ->
    last_opened (w_log w) = Some ch /\ forall md, from_json jc_metadata (ch_version ch) = Some md -> ii_address info = md_address md).
  { intros w x st0 i b Vw X Y. destruct (channel_reported_log _ _ _ _ Hc Vw X) as (_ & b' & X1 & _).
    pose proof (recorded_last (w_log w)) as La. rewrite X1 in La. split; [exact La|].
    destruct (state_reported_log _ _ _ Hc Vw Y) as (_ & Y1). injection Y1 as Y1 _. unfold account_of in Y1. rewrite La in Y1.
    intros md Hm. rewrite Hm in Y1. now injection Y1 as ->. }
  destruct (A _ _ _ _ _ V C1 S1) as (L1 & A1). destruct (A _ _ _ _ _ V' C2 S2) as (L2 & A2).
  destruct (opened_account c k s s' ch Hc R F L1) as (md & M1 & M2 & M3).
  destruct (opened_account c k s' s' ch' Hc R' (follows_refl _ _ _) L2) as (md' & N1 & N2 & N3).
  rewrite (A1 _ M1), (A2 _ N1). congruence.
Qed.
Definition again1 := again0 ++
  [inr (HCloseConfirm "channel-7"); inr (HTryOpen "channel-8" "channel-1" (host_version "cosmos1acc"));
   on_contract (open_ack "channel-1" "channel-8" "cosmos1acc")].
Example C83_case : exists ch ch' st st' info info' cb cb', reached cfg0 k0 (sys0 again0) /\ follows cfg0 k0 (sys0 again0) (sys0 again1) /\
  channel_reported (y_w (sys0 again0)) ch st /\ state_reported (y_w (sys0 again0)) (ContractState (Some info) cb) /\
  channel_reported (y_w (sys0 again1)) ch' st' /\ state_reported (y_w (sys0 again1)) (ContractState (Some info') cb') /\
  ch_connection ch = ch_connection ch' /\ e_chan (ch_endpoint ch) = "channel-0" /\ e_chan (ch_endpoint ch') = "channel-1".
Proof.
  eexists _, _, _, _, _, _, _, _. split; [apply sys0_reached|]. split.
  { unfold sys0, again1. rewrite srun_app. apply srun_follows. apply srun_here. split; now left. }
  split; [apply channel_reported_by; vm_compute; reflexivity|]. split; [apply state_reported_by; vm_compute; reflexivity|].
  split; [apply channel_reported_by; vm_compute; reflexivity|]. split; [apply state_reported_by; vm_compute; reflexivity|].
  repeat split.
Qed.

Print Assumptions C80_opens.
Print Assumptions C81_done_and_told.
Print Assumptions C82_never_stuck_partial.
Print Assumptions C82_never_stuck_refuted.
Print Assumptions C83_same_account.
