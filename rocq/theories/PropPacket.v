(** * PropPacket: sending and timing out packets (C16, C19-C25, C44, C45). *)

From Verif Require Import Base Text Utf8 Json JsonCodec Types JsonTypes Store CosmosMsg QueryMsg Metadata PacketData Ownable Contract
  JsonSound HostSpec HostFacts PacketFacts EntryFacts Chain ChainSpec Trans Inv HistorySpec History Queries HistFacts Enabled Witness.
Local Open Scope string_scope.
Local Open Scope list_scope.
Local Open Scope N_scope.

(** ** C16: timeouts *)

Definition after_timeout (cs : channel_state) : channel_state :=
  match ch_order (cst_channel cs) with
  | Ordered => ChannelState (cst_channel cs) StClosed
  | Unordered => cs
  end.

Theorem C16_timeout_any_store : forall s p relayer s' r,
  ibc_packet_timeout s p relayer = Ok (s', r) ->
  (exists cs, st_channel s = Some cs /\ st_channel s' = Some (after_timeout cs)) /\
  st_pending s' (e_chan (p_src p)) (p_seq p) = None /\
  (forall id n, (id, n) <> (e_chan (p_src p), p_seq p) -> st_pending s' id n = st_pending s id n) /\
  st_version s' = st_version s /\ st_owner s' = st_owner s /\ st_state s' = st_state s /\
  st_options s' = st_options s /\ st_allow_open s' = st_allow_open s /\
  st_allow_close s' = st_allow_close s /\ st_query s' = st_query s.
Proof.
  intros s p relayer s' r H. unfold ibc_packet_timeout in H. apply bindo_ok in H as (cs & Hcs & H).
  apply load_ok in Hcs. unfold timeout_callback in H. apply bindo_ok in H as (st & Hst & H).
  set (s1 := if is_ordered cs then set_channel (Some (close_cs cs)) s else s) in *.
  assert (E : st_channel s1 = Some (after_timeout cs) /\ st_pending s1 = st_pending s /\
    st_version s1 = st_version s /\ st_owner s1 = st_owner s /\ st_state s1 = st_state s /\
    st_options s1 = st_options s /\ st_allow_open s1 = st_allow_open s /\
    st_allow_close s1 = st_allow_close s /\ st_query s1 = st_query s).
  { unfold s1, is_ordered, after_timeout. destruct (ch_order (cst_channel cs)); cbn; repeat split; exact Hcs. }
  destruct E as (E1 & E2 & E3 & E4 & E5 & E6 & E7 & E8 & E9). clearbody s1.
  assert (E0 : s' = set_pending (e_chan (p_src p)) (p_seq p) None s1).
  { destruct (cs_callback st); injection H as <- _; reflexivity. }
  subst s'. cbn [set_pending st_channel st_pending st_version st_owner st_state st_options st_allow_open
    st_allow_close st_query].
  split; [eauto|]. unfold upd_pending. split; [now rewrite String.eqb_refl, N.eqb_refl|].
  split; [|rewrite E3, E4, E5, E6, E7, E8, E9; repeat split].
  intros id n Hne. rewrite E2.
  destruct (String.eqb_spec (e_chan (p_src p)) id); cbn [andb]; [|reflexivity].
  destruct (N.eqb_spec (p_seq p) n); [congruence|reflexivity].
Qed.

(** In every history the channel query shows exactly that. *)
Theorem C16_timeout : forall c w id n relayer w' b ch st,
  cfg_ok c -> visited c w -> act c (ATimeout id n relayer) w = Some (w', b) -> channel_reported w ch st ->
  channel_reported w' ch (match ch_order ch with Ordered => StClosed | Unordered => st end).
Proof.
  intros c w id n relayer w' b ch st Hc V H R.
  destruct (channel_reported_log _ _ _ _ Hc V R) as (_ & b0 & Hr & ->).
  assert (V' := visited_act _ _ _ _ _ V H).
  destruct (act_block_call c w _ w' b Hc V H) as (pre & F & B & El). cbn [call_item] in B, El.
  assert (Hlog : exists i p rel, w_log w' = i ++ LTimeout p rel :: w_log w /\ (i = [] \/ exists x y, i = [LCall x y])).
  { cbn [act] in H. apply obind_some in H as (? & _ & H). apply obind_some in H as (ce & _ & H).
    apply obind_some in H as (p & _ & H). apply obind_some in H as (s & _ & H).
    apply obind_some in H as ([s' r] & Ho & H). apply ok_of_some in Ho.
    unfold ibc_packet_timeout, timeout_callback in Ho. apply bindo_ok in Ho as (cs & _ & Ho).
    apply bindo_ok in Ho as (st & _ & Ho).
    destruct (cs_callback st) as [addr|]; injection Ho as <- <-; unfold dispatch_call in H; cbn in H; injection H as <- _.
    - eexists [_], p, relayer. split; [destruct (ce_order ce); reflexivity|eauto].
    - exists [], p, relayer. split; [destruct (ce_order ce); reflexivity|auto]. }
  destruct Hlog as (i & p & rel & El' & Hi).
  assert (Er : recorded (w_log w') = Some (ch, match ch_order ch with Ordered => false | Unordered => b0 end)).
  { rewrite El'. assert (Ei : forall l, recorded (i ++ l) = recorded l).
    { destruct Hi as [->|(x & y & ->)]; reflexivity. }
    rewrite Ei. cbn [recorded]. rewrite Hr. destruct (ch_order ch); reflexivity. }
  apply (recorded_reported c w' _ _ Hc V') in Er. destruct (ch_order ch); exact Er.
Qed.
Example C16_case : exists w w' ch n, visited cfg0 w /\
  channel_reported w ch StOpen /\ ch_order ch = Unordered /\
  act cfg0 (ATimeout (e_chan (ch_endpoint ch)) n "relayer") w = Some (w', true) /\ channel_reported w' ch StOpen /\
  exists w1 w1' ch1 n1, visited cfg0 w1 /\
  channel_reported w1 ch1 StOpen /\ ch_order ch1 = Ordered /\
  act cfg0 (ATimeout (e_chan (ch_endpoint ch1)) n1 "relayer") w1 = Some (w1', true) /\ channel_reported w1' ch1 StClosed.
Proof.
  exists (world_of with_query). eexists _, _, 1. split; [apply world_visited|].
  split; [apply channel_reported_by; vm_compute; reflexivity|]. split; [reflexivity|].
  split; [vm_compute; reflexivity|]. split; [apply channel_reported_by; vm_compute; reflexivity|].
  exists (world_of (ordered_open ++ [exec "owner" (send0 [bank0] []) ""])). eexists _, _, 1. split; [apply world_visited|].
  split; [apply channel_reported_by; vm_compute; reflexivity|]. split; [reflexivity|].
  split; [vm_compute; reflexivity|]. apply channel_reported_by; vm_compute; reflexivity.
Qed.

(** ** C19: one packet, exact timeout *)

(** The owner and the account in the store. *)
Definition owner_in (s : cstore) (x : string) : Prop := exists o, st_owner s = Some o /\ ow_owner o = Some x.
Definition account_in (s : cstore) (i : ica_info) : Prop := exists st, st_state s = Some st /\ cs_ica st = Some i.

Definition expires (e : env) (t : option N) : N := env_time e + unwrap_or t 600 * 10 ^ 9.

Lemma plus_seconds_ok t n x : plus_seconds t n = Ok x <-> t + n * 10 ^ 9 < u64_lim /\ x = t + n * 10 ^ 9.
Proof.
  unfold plus_seconds. change (10 ^ 9) with 1000000000.
  destruct (N.ltb_spec (n * 1000000000) u64_lim); [|split; [discriminate|intros [X _]; lia]].
  destruct (N.ltb_spec (t + n * 1000000000) u64_lim); split; try discriminate.
  - intro E. injection E as <-. auto.
  - intros [_ ->]. reflexivity.
  - intros [X _]. lia.
Qed.

Lemma send_inv a s e sender ms qs memo t s' r :
  execute a s e sender (XSendCosmosMsgs ms qs memo t) = Ok (s', r) ->
  owner_in s sender /\ exists info pk, account_in s info /\ ii_encoding info = Protobuf /\
    from_cosmos_msgs s ms qs Protobuf memo (ii_address info) = Ok (s', pk) /\
    expires e t < u64_lim /\
    r = Response [SubMsg (MIbc (IbcSendPacket (ii_channel info) (to_json jc_ica_packet pk)
          (Timeout None (Some (expires e t))))) (match qs with [] => None | _ => Some 1 end)] [].
Proof.
  cbn [execute]. unfold send_cosmos_msgs. intro H.
  apply bindo_ok in H as ([] & HA & H). apply assert_owner_ok in HA. split; [exact HA|].
  apply bindo_ok in H as (st & Hst & H). apply load_ok in Hst.
  apply bindo_ok in H as (info & Hi & H). unfold get_ica_info in Hi. destruct (cs_ica st) as [info0|] eqn:Ei; [|discriminate]. injection Hi as ->.
  apply bindo_ok in H as ([s1 pk] & HF & H). apply bindo_ok in H as (im & HI & H). unfold to_ibc_msg in HI.
  apply bindo_ok in HI as (ts & Hts & HI). injection HI as <-. injection H as <- <-.
  apply plus_seconds_ok in Hts as [Hlt ->].
  assert (Henc : ii_encoding info = Protobuf) by (destruct (ii_encoding info); [reflexivity|discriminate]).
  rewrite Henc in HF. exists info, pk. split; [exists st; auto|]. repeat split; auto.
Qed.

Theorem C19_one_packet : forall a s e sender ms qs memo t s' r,
  execute a s e sender (XSendCosmosMsgs ms qs memo t) = Ok (s', r) ->
  exists info data reply_id, account_in s info /\ expires e t < u64_lim /\ r_events r = [] /\
    r_msgs r = [SubMsg (MIbc (IbcSendPacket (ii_channel info) data (Timeout None (Some (expires e t))))) reply_id].
Proof.
  intros a s e sender ms qs memo t s' r H. apply send_inv in H as (_ & info & pk & Hi & _ & _ & Ht & ->).
  exists info, (to_json jc_ica_packet pk). eexists. split; [exact Hi|]. split; [exact Ht|]. split; reflexivity.
Qed.

(** No wrap-around. *)
Theorem C19_no_overflow : forall a s e sender ms qs memo t,
  u64_lim <= expires e t -> forall x, execute a s e sender (XSendCosmosMsgs ms qs memo t) <> Ok x.
Proof.
  intros a s e sender ms qs memo t Ht [s' r] H. apply send_inv in H as (_ & info & pk & _ & _ & _ & Hlt & _). lia.
Qed.

(** A successful SendCosmosMsgs on the chain. *)
Lemma send_act c w h tm sender raw id ok w' b ms qs memo t :
  cfg_ok c -> visited c w -> act c (AExecute h tm sender raw id ok) w = Some (w', b) ->
  from_json jc_execute_msg raw = Some (XSendCosmosMsgs ms qs memo t) ->
  exists s info s1 pk ce s', w_store w = Some s /\ owner_in s sender /\ account_in s info /\
    account_of (w_log w) = Some info /\
    from_cosmos_msgs s ms qs Protobuf memo (ii_address info) = Ok (s1, pk) /\
    tm + unwrap_or t 600 * 10 ^ 9 < u64_lim /\ w_chans w (ii_channel info) = Some ce /\ ce_state ce = COpen /\
    let n := w_nextseq w (ii_channel info) in
    let e := Env h tm (c_self c) in
    let m := XSendCosmosMsgs ms qs memo t in
    let p := Packet (to_json jc_ica_packet pk) (Endpoint (port c) (ii_channel info)) (ce_cp ce) n
               (Timeout None (Some (tm + unwrap_or t 600 * 10 ^ 9))) in
    n < u64_lim /\ slen (p_data p) < u32_lim /\ jval jc_execute_msg m /\ utf8 (ii_address info) /\
    w' = World (Some s') (w_chans w) (upd (w_nextseq w) (ii_channel info) (n + 1)) (w_nextack w)
         (upd2 (w_commit w) (ii_channel info) n (Some p))
         (LSent e sender m p :: LExecuted e sender m :: w_log w).
Proof.
  intros Hc V H Hm.
  pose proof (act_trans c w _ w' b Hc (visited_base c w Hc V) H) as T.
  destruct (act_log c _ w w' b H) as (pre & El & F). cbn [call_item] in El. rewrite Hm in El. cbn [app] in El.
  assert (Contra : forall new x y, new ++ w_log w = pre ++ LExecuted x sender y :: w_log w -> In (LExecuted x sender y) new).
  { intros new x y E. replace (pre ++ LExecuted x sender y :: w_log w) with ((pre ++ [LExecuted x sender y]) ++ w_log w) in E
      by now rewrite <- app_assoc.
    apply app_inv_tail in E. rewrite E. apply in_app_iff. right. now left. }
  clear H. destruct T; cbn [w_log w_commit] in *;
    repeat match goal with x := _ |- _ => subst x end;
    try match type of El with calls ?cb _ _ = _ => destruct cb; cbn [calls] in El end;
    try (exfalso; first [apply (Contra [_]) in El | apply (Contra [_; _]) in El | apply (Contra [_; _; _]) in El];
       cbn in El; repeat match type of El with _ \/ _ => destruct El as [El|El] end;
       first [discriminate El | contradiction]).
  assert (Ee : e = Env h tm (c_self c) /\ sender0 = sender /\ XSendCosmosMsgs ms qs memo t = XSendCosmosMsgs ms0 qs0 memo0 t0).
  { apply (Contra [_; _]) in El. destruct El as [El|[El|[]]]; [discriminate|]. injection El as <- <- <- <- <- <-. auto. }
  destruct Ee as (-> & -> & Ee). injection Ee as <- <- <- <-. cbn [env_time] in *.
  match goal with HP : plus_seconds _ _ = Ok _ |- _ => apply plus_seconds_ok in HP as [HP ->] end.
  assert (I := visited_inv c w Hc V).
  match goal with Hs : w_store w = Some s |- _ => rename Hs into Hs0 end.
  match goal with Hst : st_state s = Some _ |- _ => rename Hst into Hst0 end.
  match goal with Hst : cs_ica st = Some _ |- _ => rename Hst into Hica end.
  match goal with Hst : from_cosmos_msgs _ _ _ _ _ _ = _ |- _ => rename Hst into HF end.
  assert (Ei : account_of (w_log w) = Some info /\ ii_encoding info = Protobuf /\ utf8 (ii_address info)).
  { pose proof (inv_recorded _ _ I _ Hs0) as RR. unfold inv_rec in RR. unfold account_of.
    destruct (st_channel s) as [cs|].
    - destruct RR as (st' & info' & ce' & md & R1 & R2 & R3 & R4 & R5 & R6 & R7 & R8 & R9 & R10 & R11 & R12 & R13 & R14 & _).
      assert (info' = info) by congruence. subst info'. rewrite R5, R6. cbn [channel_of ch_version ch_endpoint e_chan].
      rewrite R9, R10. destruct info as [ia ic ie]. cbn in R8. subst ie. auto.
    - destruct RR as (_ & st' & R1 & R2). congruence. }
  destruct Ei as (E1 & E2 & E3). rewrite E2 in HF.
  exists s, info, s1, pk, ce, s'. split; [exact Hs0|]. split; [assumption|]. split; [exists st; auto|].
  split; [exact E1|]. split; [exact HF|]. split; [assumption|]. split; [assumption|]. split; [assumption|].
  cbv zeta. split; [assumption|]. split; [assumption|]. split; [assumption|]. split; [exact E3|]. reflexivity.
Qed.

(** On the chain: exactly one packet is committed, on the channel the state
    query reports, under the next sequence of that channel. *)
Theorem C19_one_commitment : forall c w h tm sender raw id ok w' b ms qs memo t st,
  cfg_ok c -> visited c w -> act c (AExecute h tm sender raw id ok) w = Some (w', b) ->
  from_json jc_execute_msg raw = Some (XSendCosmosMsgs ms qs memo t) -> state_reported w st ->
  exists info p, cs_ica st = Some info /\
    p_src p = Endpoint ("wasm." +++ c_self c) (ii_channel info) /\ p_seq p = w_nextseq w (ii_channel info) /\
    p_timeout p = Timeout None (Some (tm + unwrap_or t 600 * 10 ^ 9)) /\ tm + unwrap_or t 600 * 10 ^ 9 < u64_lim /\
    w_commit w (ii_channel info) (p_seq p) = None /\
    forall i n, w_commit w' i n = if String.eqb (ii_channel info) i && (p_seq p =? n) then Some p else w_commit w i n.
Proof.
  intros c w h tm sender raw id ok w' b ms qs memo t st Hc V H Hm R.
  destruct (send_act _ _ _ _ _ _ _ _ _ _ _ _ _ _ Hc V H Hm)
    as (s & info & s1 & pk & ce & s' & Hs & _ & _ & Ha & _ & Ht & _ & _ & S1 & S2 & _ & _ & ->). cbv zeta in *.
  destruct (state_reported_log _ _ _ Hc V R) as (_ & ->).
  exists info. eexists (Packet _ _ _ _ _). split; [exact Ha|].
  split; [reflexivity|]. split; [reflexivity|]. split; [reflexivity|]. split; [assumption|]. cbn [p_seq].
  split; [|intros i k; reflexivity]. assert (P := inv_pkts _ _ (visited_inv c w Hc V)).
  rewrite (ip_commit _ P). apply (ip_new _ P). apply N.le_refl.
Qed.
Example C19_case : exists w w' info, visited cfg0 w /\ state_reported w (ContractState (Some info) (Some "cb")) /\
  act cfg0 (AExecute 5 1000 "owner" (to_json jc_execute_msg (send0 [bank0] [query0])) "" true) w = Some (w', false).
Proof.
  exists (world_of unordered_open). eexists _, _. split; [apply world_visited|].
  split; [apply state_reported_by; vm_compute; reflexivity| vm_compute; reflexivity].
Qed.

(** ** C20: the packet carries exactly the requested messages *)

(** The data of the packet a response sends. *)
Definition sends_data (r : response) (data : string) : Prop :=
  exists chan tmo rep, r_msgs r = [SubMsg (MIbc (IbcSendPacket chan data tmo)) rep].

Theorem C20_packet_content : forall a s e sender ms qs memo t s' r data info,
  jval jc_execute_msg (XSendCosmosMsgs ms qs memo t) -> account_in s info -> utf8 (ii_address info) ->
  execute a s e sender (XSendCosmosMsgs ms qs memo t) = Ok (s', r) -> sends_data r data -> slen data < u64_lim ->
  exists anys, host_packet data = Some (anys, unwrap_or memo "") /\ packet_spec (ii_address info) ms qs anys.
Proof.
  intros a s e sender ms qs memo t s' r data info J (st & A1 & A2) Hu H (chan & tmo & rep & Hd) Hl.
  apply send_inv in H as (_ & info' & pk & (st' & A1' & A2') & _ & HF & _ & ->).
  assert (info' = info) by congruence. subst info'. cbn [r_msgs] in Hd. injection Hd as _ <- _ _.
  destruct (jval_send _ _ _ _ J) as (J1 & J2 & J3).
  pose proof (packet_json_len pk).
  apply (packet_carries s ms qs memo (ii_address info) s' pk); try assumption. lia.
Qed.

(** ** C21: signed by the account *)

Lemma meaning_signer m a h : meaning m a = Some h -> host_signer h = a.
Proof.
  destruct m as [[]| |[]|[]| |[]|[]|[]]; cbn; intro H; try discriminate; injection H as <-; reflexivity.
Qed.

Lemma Forall2_nth {A B} (P : A -> B -> Prop) l r : Forall2 P l r ->
  forall i x, nth_error l i = Some x -> exists y, nth_error r i = Some y /\ P x y.
Proof.
  induction 1 as [|x y l r Hxy _ IH]; intros [|i] z Hz; try discriminate; cbn in *; [|eauto].
  injection Hz as <-. eauto.
Qed.
Lemma Forall2_len {A B} (P : A -> B -> Prop) l r : Forall2 P l r -> length l = length r.
Proof. induction 1; cbn; congruence. Qed.

(** What a packet with messages [ms] and queries [qs] for the account [addr]
    contains: at the position of each message, that message signed by the
    account, or the raw Stargate message; at the end, if there are queries, one
    message signed by the account; nothing else. *)
Definition signed_by_account (addr : string) (ms : list cosmos_msg) (qs : list query_request)
  (anys : list (string * string)) : Prop :=
  length anys = (length ms + match qs with [] => 0 | _ => 1 end)%nat /\
  (forall i m, nth_error ms i = Some m -> exists url bytes, nth_error anys i = Some (url, bytes) /\
     match m with
     | MStargate u v => url = u /\ bytes = v
     | _ => exists h, host_decode url bytes = Some h /\ host_signer h = addr
     end) /\
  (qs <> [] -> exists url bytes h, nth_error anys (length ms) = Some (url, bytes) /\
     host_decode url bytes = Some h /\ host_signer h = addr).

Lemma packet_signed addr ms qs anys : packet_spec addr ms qs anys -> signed_by_account addr ms qs anys.
Proof.
  intros (l & rest & -> & F & R). pose proof (Forall2_len _ _ _ F) as L. split; [|split].
  - rewrite app_length, <- L. destruct qs; [subst; cbn; lia|]. destruct R as (? & ? & ? & -> & _). reflexivity.
  - intros i m Hi. destruct (Forall2_nth _ _ _ F i m Hi) as ([url bytes] & Hn & C). exists url, bytes.
    split; [rewrite nth_error_app1; [exact Hn|]; apply nth_error_Some; congruence|].
    cbn [fst snd] in C. unfold carries in C.
    destruct m; try exact C; destruct C as (h & C1 & C2); exists h; (split; [exact C2|]); eapply meaning_signer; exact C1.
  - intro Hq. destruct qs; [congruence|]. destruct R as (url & bytes & reqs & -> & D & _).
    exists url, bytes, (HQuerySafe addr reqs). split; [|split; [exact D|reflexivity]].
    rewrite nth_error_app2, L, Nat.sub_diag by lia. reflexivity.
Qed.

Theorem C21_signed_by_account : forall a s e sender ms qs memo t s' r data info,
  jval jc_execute_msg (XSendCosmosMsgs ms qs memo t) -> account_in s info -> utf8 (ii_address info) ->
  execute a s e sender (XSendCosmosMsgs ms qs memo t) = Ok (s', r) -> sends_data r data -> slen data < u64_lim ->
  exists anys text, host_packet data = Some (anys, text) /\ signed_by_account (ii_address info) ms qs anys.
Proof.
  intros a s e sender ms qs memo t s' r data info J A Hu H Hd Hl.
  destruct (C20_packet_content _ _ _ _ _ _ _ _ _ _ _ _ J A Hu H Hd Hl) as (anys & P1 & P2).
  exists anys, (unwrap_or memo ""). split; [exact P1|]. now apply packet_signed.
Qed.

(** ** C22: unsupported messages abort, supported ones succeed *)

Lemma mapo_total {A B} (f : A -> outcome B) l : (forall x, In x l -> exists y, f x = Ok y) -> exists r, mapo f l = Ok r.
Proof.
  induction l as [|x l IH]; intro H; [exists []; reflexivity|].
  destruct (H x (or_introl eq_refl)) as [y Hy]. destruct IH as [r Hr]; [intros; apply H; now right|].
  exists (y :: r). cbn [mapo]. rewrite Hy. cbn [bindo]. rewrite Hr. reflexivity.
Qed.

Theorem C22_supported_iff : forall a s e sender ms qs memo t,
  (exists s' r, execute a s e sender (XSendCosmosMsgs ms qs memo t) = Ok (s', r)) <->
  owner_in s sender /\ (exists info, account_in s info /\ ii_encoding info = Protobuf) /\
  Forall supported ms /\ Forall qsupported qs /\ expires e t < u64_lim.
Proof.
  intros a s e sender ms qs memo t. split.
  - intros (s' & r & H). apply send_inv in H as (HO & info & pk & A & E & HF & Ht & _).
    split; [exact HO|]. split; [eauto|]. destruct (packet_supported _ _ _ _ _ _ _ HF). auto.
  - intros (HO & (info & (st & A1 & A2) & E) & S1 & S2 & Ht).
    cbn [execute]. unfold send_cosmos_msgs. rewrite (proj2 (assert_owner_ok s sender) HO). cbn [bindo].
    rewrite A1. cbn [load of_option bindo]. unfold get_ica_info. rewrite A2. cbn [of_option bindo]. rewrite E.
    unfold from_cosmos_msgs.
    destruct (mapo_total (fun m => convert_to_proto_any m (ii_address info)) ms) as [anys Ha].
    { intros m Hm. apply convert_supported. rewrite Forall_forall in S1. auto. }
    rewrite Ha. cbn [bindo].
    assert (Hts : plus_seconds (env_time e) (unwrap_or t DEFAULT_TIMEOUT_SECONDS) = Ok (expires e t)).
    { apply plus_seconds_ok. auto. }
    destruct qs as [|q qs].
    + unfold to_ibc_msg. cbn [bindo]. rewrite Hts. eexists _, _. reflexivity.
    + destruct (mapo_total query_to_protobuf (q :: qs)) as [reqs Hr].
      { intros x Hx. apply query_supported. rewrite Forall_forall in S2. auto. }
      rewrite Hr. unfold query_any, any_from_msg, to_ibc_msg. cbn [bindo]. rewrite Hts. eexists _, _. reflexivity.
Qed.

(** On the chain, from any state: one unsupported message or query and the
    transaction has no effect at all. *)
Theorem C22_unsupported_aborts : forall c w h tm sender raw id ok beh ms qs memo t,
  from_json jc_execute_msg raw = Some (XSendCosmosMsgs ms qs memo t) ->
  Exists (fun m => ~ supported m) ms \/ Exists (fun q => ~ qsupported q) qs ->
  run c [Tx (AExecute h tm sender raw id ok) beh] w = w.
Proof.
  intros c w h tm sender raw id ok beh ms qs memo t Hm Hx. unfold run. cbn [runs step act].
  destruct (guard _); [|reflexivity]. destruct (w_store w) as [s|]; [|reflexivity]. cbn [obind]. rewrite Hm. cbn [obind].
  destruct (execute (c_api c) s (Env h tm (c_self c)) sender (XSendCosmosMsgs ms qs memo t)) as [[s' r]| |] eqn:E;
    [|reflexivity|reflexivity].
  exfalso. destruct (proj1 (C22_supported_iff _ _ _ _ _ _ _ _) (ex_intro _ s' (ex_intro _ r E))) as (_ & _ & S1 & S2 & _).
  rewrite Forall_forall in S1, S2. destruct Hx as [Hx|Hx]; apply Exists_exists in Hx as (y & Hy & Hn); auto.
Qed.

Example C22_case : Exists (fun m => ~ supported m) [bank0; MBank (BankBurn [Coin "uatom" 1])] /\
  from_json jc_execute_msg (to_json jc_execute_msg (send0 [bank0; MBank (BankBurn [Coin "uatom" 1])] []))
    = Some (send0 [bank0; MBank (BankBurn [Coin "uatom" 1])] []) /\
  step cfg0 (exec "owner" (send0 [bank0; MBank (BankBurn [Coin "uatom" 1])] []) "") (world_of unordered_open) = None /\
  step cfg0 (exec "owner" (send0 [bank0] []) "") (world_of unordered_open) <> None.
Proof.
  split; [right; left; intros []|]. split; [vm_compute; reflexivity|].
  split; vm_compute; [reflexivity|discriminate].
Qed.

(** On the chain: the owner can use the account as long as its channel is OPEN
    on the chain, whatever the recorded status (and however the transaction is
    delivered); the only further conditions are the chain's limits. *)
Theorem C22_owner_can_send : forall c w h tm sender raw id st info o ce ms qs memo t,
  cfg_ok c -> visited c w -> h < u64_lim -> tm < u64_lim -> utf8 sender ->
  from_json jc_execute_msg raw = Some (XSendCosmosMsgs ms qs memo t) ->
  owner_reported w o -> ow_owner o = Some sender ->
  state_reported w st -> cs_ica st = Some info ->
  w_chans w (ii_channel info) = Some ce -> ce_state ce = COpen ->
  Forall supported ms -> Forall qsupported qs -> tm + unwrap_or t 600 * 10 ^ 9 < u64_lim ->
  w_nextseq w (ii_channel info) < u64_lim ->
  exists s s' r data, w_store w = Some s /\
    execute (c_api c) s (Env h tm (c_self c)) sender (XSendCosmosMsgs ms qs memo t) = Ok (s', r) /\ sends_data r data /\
    (slen data < u32_lim -> exists w' p anys, act c (AExecute h tm sender raw id true) w = Some (w', false) /\
       w_commit w' (ii_channel info) (w_nextseq w (ii_channel info)) = Some p /\ p_data p = data /\
       host_packet data = Some (anys, unwrap_or memo "") /\ packet_spec (ii_address info) ms qs anys).
Proof.
  intros c w h tm sender raw id st info o ce ms qs memo t Hc V Hh Htm Hu Hm RO Ho RS Hi Hce Hopen S1 S2 Ht Hn.
  destruct (owner_reported_log _ _ _ Hc V RO) as (Hl & Eo). rewrite Ho in Eo. symmetry in Eo.
  destruct (state_reported_log _ _ _ Hc V RS) as (_ & ->). cbn [cs_ica] in Hi.
  destruct (store_some c w Hc V Hl) as [s Hs]. assert (I := visited_inv c w Hc V).
  assert (Hown : is_owner s sender) by (eapply owner_is; eassumption).
  assert (A : account_in s info /\ ii_encoding info = Protobuf /\ utf8 (ii_address info)).
  { pose proof (inv_recorded _ _ I _ Hs) as RR. unfold inv_rec in RR. unfold account_of in Hi.
    destruct (st_channel s) as [cs|].
    - destruct RR as (st' & info' & ce' & md & R1 & R2 & R3 & R4 & R5 & R6 & R7 & R8 & R9 & R10 & R11 & R12 & R13 & R14 & _).
      rewrite R5, R6 in Hi. cbn [channel_of ch_version ch_endpoint e_chan] in Hi. rewrite R9, R10 in Hi.
      assert (info' = info). { destruct info' as [ia ic ie]. cbn in R8. subst ie. cbn in Hi. congruence. }
      subst info'. split; [exists st'; auto|auto].
    - destruct RR as (RR & _). rewrite RR in Hi. discriminate. }
  destruct A as (A & Aenc & Au).
  set (e := Env h tm (c_self c)).
  destruct (proj2 (C22_supported_iff (c_api c) s e sender ms qs memo t)) as (s' & r & Hx).
  { split; [exact Hown|]. split; [eauto|]. auto. }
  assert (J : jval jc_execute_msg (XSendCosmosMsgs ms qs memo t)).
  { eapply from_json_valid; [apply jc_execute_msg_sound|exact Hm]. }
  assert (Hx' := Hx). apply send_inv in Hx' as (_ & info' & pk & (st' & A1 & A2) & _ & HF & _ & Er).
  destruct A as (st & A1' & A2'). assert (info' = info) by congruence. subst info'.
  set (data := to_json jc_ica_packet pk) in *.
  exists s, s', r, data. split; [exact Hs|]. split; [exact Hx|].
  assert (Sd : sends_data r data) by (rewrite Er; eexists _, _, _; reflexivity). split; [exact Sd|]. intro Hsz.
  assert (Hlt : slen data < u64_lim) by (assert (u32_lim < u64_lim) by reflexivity; lia).
  destruct (C20_packet_content _ _ _ _ _ _ _ _ _ _ data info J (ex_intro _ st (conj A1' A2')) Au Hx Sd Hlt) as (anys & P1 & P2).
  set (p := Packet data (Endpoint (port c) (ii_channel info)) (ce_cp ce) (w_nextseq w (ii_channel info))
              (Timeout None (Some (expires e t)))).
  assert (G : exists w', act c (AExecute h tm sender raw id true) w = Some (w', false) /\
       w_commit w' (ii_channel info) (w_nextseq w (ii_channel info)) = Some p).
  2:{ destruct G as (w' & G1 & G2). exists w', p, anys. auto. }
  cbn [act]. rewrite (env_ok_true h tm sender Hh Htm Hu). cbn [guard obind]. rewrite Hs. cbn [obind]. rewrite Hm. cbn [obind].
  fold e. rewrite Hx. cbn [ok_of obind]. subst r. unfold dispatch_exec. cbn [r_events r_msgs note_events guard obind sm_msg sm_reply].
  unfold core_send. cbn [note put_store w_chans w_nextseq]. rewrite Hce. cbn [obind]. rewrite Hopen. cbn [guard obind].
  apply N.ltb_lt in Hn, Hsz. rewrite Hn, Hsz. cbn [andb guard obind].
  destruct (from_cosmos_msgs_ok _ _ _ _ _ _ _ HF) as (anys' & _ & HF2).
  assert (Hup : forall w0, w_commit (put_commit (ii_channel info) (w_nextseq w (ii_channel info)) (Some p) w0)
    (ii_channel info) (w_nextseq w (ii_channel info)) = Some p).
  { intro w0. cbn [put_commit w_commit]. unfold upd2. now rewrite String.eqb_refl, N.eqb_refl. }
  destruct qs as [|q qs]; [eexists; split; [reflexivity|apply Hup]|].
  destruct HF2 as (reqs & qa & _ & _ & _ & ->). cbn [w_store put_commit put_nextseq note obind].
  assert (HR : reply (c_api c) (set_query (Some (sent_paths (q :: qs))) s) 1
    (SubOk (Some (send_response (w_nextseq w (ii_channel info)))))
    = Ok (set_pending (ii_channel info) (w_nextseq w (ii_channel info)) (Some (sent_paths (q :: qs))) (set_query None s), response_default)).
  { apply (reply_ok _ _ st); [|exact A1'|exact A2']. apply N.ltb_lt in Hn. split; [|exact Hn].
    destruct (visited_base c w Hc V) as [Hseq _]. apply Hseq. }
  cbn [w_store put_commit put_nextseq put_store note obind]. rewrite HR. eexists. split; [reflexivity|apply Hup].
Qed.

(** ** C23: nothing is lost *)

Definition page_view (p : page_request) : string * N * bool := (unwrap_or (pg_key p) "", pg_limit p, pg_reverse p).
(** Queries up to an absent page key versus an empty one. *)
Definition same_query (q q' : query_request) : Prop :=
  match q, q' with
  | QBank (QAllDenomMetadata p), QBank (QAllDenomMetadata p') => option_map page_view p = option_map page_view p'
  | _, _ => q = q'
  end.
Definition raw_msg (m : cosmos_msg) : Prop := match m with MStargate _ _ => True | _ => False end.
Definition raw_query (q : query_request) : Prop := match q with QStargate _ _ => True | _ => False end.

Lemma query_meaning_injective q q' h : query_meaning q = Some h -> query_meaning q' = Some h -> same_query q q'.
Proof.
  intros M M'. destruct q as [[]| |[]| | | |[]]; cbn in M; inversion M; subst; clear M;
  destruct q' as [[]| |[]| | | |[]]; cbn in M'; inversion M'; subst; clear M'; try reflexivity.
  cbn. destruct pagination as [[k l r]|], pagination0 as [[k' l' r']|];
    cbn [option_map pg_key pg_limit pg_reverse] in *; unfold page_view; cbn [pg_key pg_limit pg_reverse]; congruence.
Qed.

Lemma meaning_not_query m a s r : meaning m a <> Some (HQuerySafe s r).
Proof. destruct m as [[]| |[]|[]| |[]|[]|[]]; discriminate. Qed.

Lemma carries_not_raw a m u b : ~ raw_msg m -> carries a m u b -> exists h, meaning m a = Some h /\ host_decode u b = Some h.
Proof. intros Hn C. destruct m; try exact C. elim Hn. exact I. Qed.
Lemma qcarries_not_raw q u b : ~ raw_query q -> qcarries q u b -> exists h, query_meaning q = Some h /\ host_query_decode u b = Some h.
Proof. intros Hn C. destruct q; try exact C. elim Hn. exact I. Qed.

Lemma packet_spec_inj a ms qs anys : forall ms' qs',
  packet_spec a ms qs anys -> packet_spec a ms' qs' anys ->
  Forall (fun m => ~ raw_msg m) ms -> Forall (fun m => ~ raw_msg m) ms' ->
  Forall (fun q => ~ raw_query q) qs -> Forall (fun q => ~ raw_query q) qs' ->
  Forall2 same_msg ms ms' /\ Forall2 same_query qs qs'.
Proof.
  intros ms' qs' (l & rest & -> & F & R) (l' & rest' & E & F' & R') N1 N2 N3 N4.
  assert (Last : forall qs rest, match qs with
      | [] => rest = []
      | _ => exists url bytes reqs, rest = [(url, bytes)] /\ host_decode url bytes = Some (HQuerySafe a reqs) /\
               Forall2 (fun q r => qcarries q (fst r) (snd r)) qs reqs end ->
    rest = [] /\ qs = [] \/ exists url bytes reqs, rest = [(url, bytes)] /\ qs <> [] /\ host_decode url bytes = Some (HQuerySafe a reqs) /\
      Forall2 (fun q r => qcarries q (fst r) (snd r)) qs reqs).
  { intros [|q0 qs0] rest0 H; [auto|]. right. destruct H as (u & b & r & H1 & H2 & H3). exists u, b, r.
    repeat split; auto. discriminate. }
  apply Last in R, R'. clear Last.
  assert (HH : Forall2 same_msg ms ms' /\ rest = rest').
  { revert ms' l' F' E N1 N2. induction F as [|m x ms l Hx _ IH]; intros ms' l' F' E N1 N2.
    - destruct F' as [|m' x' ms' l' Hx' F']; [cbn in E; split; [constructor|exact E]|].
      exfalso. inversion_clear N2 as [|? ? Nm _]. apply carries_not_raw in Hx' as (h & M & D); [|exact Nm].
      destruct R as [(-> & _)|(u & b & rq & -> & _ & D' & _)]; [discriminate|].
      cbn in E. injection E as <- _. cbn in D. rewrite D in D'. injection D' as ->. now apply meaning_not_query in M.
    - inversion_clear N1 as [|? ? Nm Nms]. apply carries_not_raw in Hx as (h & M & D); [|exact Nm].
      destruct F' as [|m' x' ms' l' Hx' F'].
      + exfalso. destruct R' as [(-> & _)|(u & b & rq & -> & _ & D' & _)]; [discriminate|].
        cbn in E. injection E as -> _. cbn in D. rewrite D in D'. injection D' as ->. now apply meaning_not_query in M.
      + inversion_clear N2 as [|? ? Nm' Nms']. apply carries_not_raw in Hx' as (h' & M' & D'); [|exact Nm'].
        cbn in E. injection E as -> E. rewrite D in D'. injection D' as <-.
        destruct (IH ms' l' F' E Nms Nms') as [IH1 IH2]. split; [|exact IH2].
        constructor; [|exact IH1]. eapply meaning_injective; eassumption. }
  destruct HH as [H1 H2]. split; [exact H1|]. subst rest'.
  destruct R as [(-> & ->)|(u & b & rq & -> & _ & D & G)], R' as [(E' & ->)|(u' & b' & rq' & E' & _ & D' & G')]; try discriminate.
  - constructor.
  - injection E' as <- <-. rewrite D in D'. injection D' as <-. clear D H1. revert qs' G' N3 N4.
    induction G as [|q r qs rq Hq _ IH]; intros qs' G' N3 N4.
    + inversion_clear G'. constructor.
    + inversion G' as [|q' ? qs1 ? Hq' G1]; subst. inversion_clear N3 as [|? ? Nq Nqs]. inversion_clear N4 as [|? ? Nq' Nqs'].
      constructor; [|apply IH; assumption].
      apply qcarries_not_raw in Hq as (h & M & D); [|exact Nq]. apply qcarries_not_raw in Hq' as (h' & M' & D'); [|exact Nq'].
      rewrite D in D'. injection D' as <-. eapply query_meaning_injective; eassumption.
Qed.

(** Two calls for the same account that produce the same packet requested the
    same messages, the same queries and the same memo. *)
Theorem C23_nothing_lost : forall a s e sender ms qs memo t s1 r a' s' e' sender' ms' qs' memo' t' s1' r' info info' data,
  jval jc_execute_msg (XSendCosmosMsgs ms qs memo t) -> jval jc_execute_msg (XSendCosmosMsgs ms' qs' memo' t') ->
  account_in s info -> account_in s' info' -> ii_address info = ii_address info' -> utf8 (ii_address info) ->
  execute a s e sender (XSendCosmosMsgs ms qs memo t) = Ok (s1, r) ->
  execute a' s' e' sender' (XSendCosmosMsgs ms' qs' memo' t') = Ok (s1', r') ->
  sends_data r data -> sends_data r' data -> slen data < u64_lim ->
  Forall (fun m => ~ raw_msg m) ms -> Forall (fun m => ~ raw_msg m) ms' ->
  Forall (fun q => ~ raw_query q) qs -> Forall (fun q => ~ raw_query q) qs' ->
  Forall2 same_msg ms ms' /\ Forall2 same_query qs qs' /\ unwrap_or memo "" = unwrap_or memo' "".
Proof.
  intros a s e sender ms qs memo t s1 r a' s' e' sender' ms' qs' memo' t' s1' r' info info' data
    J J' A A' Ea Hu H H' D D' Hl N1 N2 N3 N4.
  assert (Hu' : utf8 (ii_address info')) by congruence.
  destruct (C20_packet_content _ _ _ _ _ _ _ _ _ _ _ _ J A Hu H D Hl) as (anys & P1 & P2).
  destruct (C20_packet_content _ _ _ _ _ _ _ _ _ _ _ _ J' A' Hu' H' D' Hl) as (anys' & P1' & P2').
  rewrite P1 in P1'. injection P1' as <- Em. rewrite <- Ea in P2'.
  destruct (packet_spec_inj _ _ _ _ _ _ P2 P2' N1 N2 N3 N4). auto.
Qed.

(** Message by message: the [Any] determines the message. *)
Theorem C23_message : forall m m' a x,
  wf_msg m -> wf_msg m' -> utf8 a -> ~ raw_msg m -> ~ raw_msg m' ->
  convert_to_proto_any m a = Ok x -> convert_to_proto_any m' a = Ok x -> slen (a_value x) < u64_lim -> same_msg m m'.
Proof.
  intros m m' a x W W' Ha N1 N2 H H' Hl.
  apply (convert_injective m m' a x); auto; intros u v ->; [apply N1|apply N2]; exact I.
Qed.

(** Two requests with the same packet: no admin, or an empty one. *)
Definition msg23 (admin : option string) : execute_msg :=
  XSendCosmosMsgs [bank0; MWasm (WasmInstantiate admin 7 "{}" [Coin "uatom" 5] "label")] [query0] (Some "memo") None.
Example C23_case : exists s s1 r s1' r' data info,
  jval jc_execute_msg (msg23 None) /\ jval jc_execute_msg (msg23 (Some "")) /\
  account_in s info /\ utf8 (ii_address info) /\
  execute api0 s (Env 1 2 "controller") "owner" (msg23 None) = Ok (s1, r) /\
  execute api0 s (Env 1 2 "controller") "owner" (msg23 (Some "")) = Ok (s1', r') /\
  sends_data r data /\ sends_data r' data /\ slen data < u64_lim.
Proof.
  exists (match w_store (world_of unordered_open) with Some s => s | None => empty_store end).
  eexists _, _, _, _, _, _.
  split; [eapply (from_json_valid _ (to_json jc_execute_msg (msg23 None)) _ jc_execute_msg_sound); vm_compute; reflexivity|].
  split; [eapply (from_json_valid _ (to_json jc_execute_msg (msg23 (Some ""))) _ jc_execute_msg_sound); vm_compute; reflexivity|].
  split; [eexists; split; vm_compute; reflexivity|]. split; [vm_compute; reflexivity|].
  split; [vm_compute; reflexivity|]. split; [vm_compute; reflexivity|].
  split; [eexists _, _, _; reflexivity|]. split; [eexists _, _, _; reflexivity|]. vm_compute. reflexivity.
Qed.

(** ** C24: numbers *)

(** [dec] is the text of a Uint128, [decimal_to_string] that of a Decimal given
    in units of 10^-18; [host_int] and [host_dec] are the readers of the SDK. *)
Theorem C24_amounts : forall n, n < u128_lim -> host_int (dec n) = Some n.
Proof. intros n _. apply host_int_dec. Qed.
Theorem C24_weights : forall w, w < u128_lim -> host_dec (decimal_to_string w) = Some w.
Proof. exact host_dec_decimal. Qed.

(** In the packet: the coins of a bank message and the weights of a vote. *)
Theorem C24_in_the_message : forall a to cs x p os y,
  utf8 a -> utf8 to -> Forall wf_coin cs -> u64 p -> Forall wf_weighted os ->
  convert_to_proto_any (MBank (BankSend to cs)) a = Ok x -> slen (a_value x) < u64_lim ->
  convert_to_proto_any (MGov (GovVoteWeighted p os)) a = Ok y -> slen (a_value y) < u64_lim ->
  host_decode (a_url x) (a_value x) = Some (HSend a to (map (fun c => (c_denom c, c_amount c)) cs)) /\
  host_decode (a_url y) (a_value y) = Some (HVoteWeighted p a (map (fun o => (vote_number (wv_option o), wv_weight o)) os) "").
Proof.
  intros a to cs x p os y Ha Ht Hc Hp Ho Hx Lx Hy Ly. split.
  - destruct (convert_carries _ _ _ (conj Ht Hc : wf_msg (MBank (BankSend to cs))) Ha Hx Lx) as (h & E & D).
    cbn in E. injection E as <-. exact D.
  - destruct (convert_carries _ _ _ (conj Hp Ho : wf_msg (MGov (GovVoteWeighted p os))) Ha Hy Ly) as (h & E & D).
    cbn in E. injection E as <-. exact D.
Qed.
Example C24_case : host_dec (decimal_to_string 340282366920938463463374607431768211455) = Some 340282366920938463463374607431768211455 /\
  decimal_to_string 500000000000000000 = "0.5" /\ dec 340282366920938463463374607431768211455 = "340282366920938463463374607431768211455".
Proof. repeat split; vm_compute; reflexivity. Qed.

(** ** C25: the queries *)

Theorem C25_queries : forall a s e sender ms qs memo t s' r data info,
  jval jc_execute_msg (XSendCosmosMsgs ms qs memo t) -> account_in s info -> utf8 (ii_address info) ->
  execute a s e sender (XSendCosmosMsgs ms qs memo t) = Ok (s', r) -> sends_data r data -> slen data < u64_lim ->
  qs <> [] ->
  exists anys text url bytes reqs, host_packet data = Some (anys ++ [(url, bytes)], text) /\ length anys = length ms /\
    host_decode url bytes = Some (HQuerySafe (ii_address info) reqs) /\
    Forall2 (fun q r => match q with
       | QStargate path d => r = (path, d)
       | _ => exists h, query_meaning q = Some h /\ host_query_decode (fst r) (snd r) = Some h
       end) qs reqs.
Proof.
  intros a s e sender ms qs memo t s' r data info J A Hu H Hd Hl Hq.
  destruct (C20_packet_content _ _ _ _ _ _ _ _ _ _ _ _ J A Hu H Hd Hl) as (anys & P1 & l & rest & -> & F & R).
  destruct qs as [|q qs]; [congruence|]. destruct R as (url & bytes & reqs & -> & D & G).
  exists l, (unwrap_or memo ""), url, bytes, reqs. split; [exact P1|]. split; [symmetry; eapply Forall2_len; exact F|].
  split; [exact D|]. eapply Forall2_impl_in; [exact G|]. intros q0 [p d] _ _ C.
  destruct q0; try exact C. destruct C as [E1 E2]. cbn in E1, E2. now subst.
Qed.

(** A call that meets the hypotheses of C20, C21, C23 and C25. *)
Definition msg25 : execute_msg :=
  XSendCosmosMsgs [bank0; MStargate "/x.y.Z" "abc"; MGov (GovVoteWeighted 7 [WeightedVote VoteYes 500000000000000000])]
    [query0; QStargate "/a/b" "c"; QStaking QBondedDenom] (Some "") None.
Example C20_C21_C25_case : exists s s' r data info, jval jc_execute_msg msg25 /\ account_in s info /\ utf8 (ii_address info) /\
  execute api0 s (Env 1 2 "controller") "owner" msg25 = Ok (s', r) /\ sends_data r data /\ slen data < u64_lim /\
  exists anys, host_packet data = Some (anys, "") /\ length anys = 4%nat.
Proof.
  exists (match w_store (world_of unordered_open) with Some s => s | None => empty_store end).
  eexists _, _, _, _. split.
  { eapply (from_json_valid _ (to_json jc_execute_msg msg25) _ jc_execute_msg_sound). vm_compute. reflexivity. }
  split; [eexists; split; vm_compute; reflexivity|]. split; [vm_compute; reflexivity|].
  split; [vm_compute; reflexivity|]. split; [eexists _, _, _; reflexivity|]. split; [vm_compute; reflexivity|].
  eexists. split; vm_compute; reflexivity.
Qed.

(** ** C44: only the owner sends, on an open channel, for the recorded account *)

Lemma commit_new c w a w' b id n p : cfg_ok c -> visited c w -> act c a w = Some (w', b) ->
  w_commit w' id n = Some p ->
  w_commit w id n = Some p \/
  w_commit w id n = None /\ exists h tm sender raw x ok ms qs memo t, a = AExecute h tm sender raw x ok /\
    from_json jc_execute_msg raw = Some (XSendCosmosMsgs ms qs memo t).
Proof.
  intros Hc V H. assert (V' := visited_act _ _ _ _ _ V H).
  rewrite (ip_commit _ (inv_pkts _ _ (visited_inv c w Hc V))), (ip_commit _ (inv_pkts _ _ (visited_inv c w' Hc V'))).
  destruct (act_block_call c w a w' b Hc V H) as (pre & F & B & El). rewrite El. clear El.
  remember (pre ++ call_item c a) as new eqn:En.
  destruct B as [B|B]; destruct B;
    repeat match goal with H : callback _ _ _ |- _ => apply callback_quiet in H as [->|(? & ? & ->)] end;
    cbn [app unresolved]; auto; intro Hp;
    try (destruct (at_pkt id n p0); [discriminate|auto]).
  destruct (at_pkt id n p0) eqn:Ea; [|auto]. right. split.
  - unfold at_pkt in Ea. apply andb_true_iff in Ea as [Ea1 Ea2].
    apply String.eqb_eq in Ea1. apply N.eqb_eq in Ea2. subst id n.
    assert (P := inv_pkts _ _ (visited_inv c w Hc V)).
    destruct (unresolved (w_log w) (e_chan (p_src p0)) (p_seq p0)) as [p1|] eqn:Eu; [|reflexivity].
    exfalso. match goal with S : sent_by _ _ _ = None |- _ => revert S Eu end. clear.
    induction (w_log w) as [|i l IH]; [discriminate|]. destruct i; cbn [sent_by unresolved]; auto.
    + destruct (at_pkt _ _ p); [discriminate|auto].
    + destruct (at_pkt _ _ p); [discriminate|auto].
    + destruct (at_pkt _ _ p); [discriminate|auto].
  - destruct pre as [|i0 [|i1 pre]]; cbn [app] in En.
    + destruct a; cbn [call_item] in En; try discriminate; destruct (from_json _ _); discriminate.
    + injection En as _ En. destruct a; cbn [call_item] in En; try discriminate; [destruct (from_json _ _); discriminate|].
      destruct (from_json jc_execute_msg raw) as [m0|] eqn:Em; [|discriminate]. injection En as _ _ <-.
      eexists _, _, _, _, _, _, _, _, _, _. split; [reflexivity|exact Em].
    + injection En as _ En1 En. subst i1. exfalso. inversion F as [|? ? _ F']. inversion F' as [|? ? Q _]. exact Q.
Qed.

Theorem C44_sent_by_owner : forall c w a w' b id n p,
  cfg_ok c -> visited c w -> act c a w = Some (w', b) -> w_commit w id n = None -> w_commit w' id n = Some p ->
  exists h tm sender raw x ok ms qs memo t o info cb ce anys,
    a = AExecute h tm sender raw x ok /\ from_json jc_execute_msg raw = Some (XSendCosmosMsgs ms qs memo t) /\
    owner_reported w o /\ ow_owner o = Some sender /\
    state_reported w (ContractState (Some info) cb) /\ ii_channel info = id /\
    w_chans w id = Some ce /\ ce_state ce = COpen /\
    host_packet (p_data p) = Some (anys, unwrap_or memo "") /\ packet_spec (ii_address info) ms qs anys /\
    signed_by_account (ii_address info) ms qs anys.
Proof.
  intros c w a w' b id n p Hc V H H0 H1.
  destruct (commit_new _ _ _ _ _ _ _ _ Hc V H H1) as [E|(_ & h & tm & sender & raw & x & ok & ms & qs & memo & t & -> & Em)];
    [congruence|].
  destruct (send_act _ _ _ _ _ _ _ _ _ _ _ _ _ _ Hc V H Em)
    as (s & info & s1 & pk & ce & s' & Hs & Ho & _ & Ha & HF & Ht & Hce & Hopen & S1 & S2 & J & Hu & ->). cbv zeta in *.
  assert (Hl : w_log w <> []).
  { intro E. apply (store_log c w Hc V) in E. congruence. }
  assert (Eo : owner_of (w_log w) = Some sender) by (eapply owner_is; eassumption).
  pose proof (ask_ownership c w Hc V Hl) as RO. rewrite Eo in RO.
  pose proof (ask_state c w Hc V Hl) as RS. rewrite Ha in RS.
  cbn [w_commit] in H1. unfold upd2 in H1.
  destruct (String.eqb_spec (ii_channel info) id) as [Ei|]; cbn [andb] in H1; [|congruence].
  destruct (N.eqb_spec (w_nextseq w (ii_channel info)) n) as [En|]; [|congruence]. injection H1 as <-.
  destruct (jval_send _ _ _ _ J) as (J1 & J2 & J3).
  destruct (packet_carries s ms qs memo (ii_address info) s1 pk J1 J2 Hu J3 HF) as (anys & P1 & P2).
  { pose proof (packet_json_len pk). cbn [p_data] in S2. assert (u32_lim < u64_lim) by reflexivity. lia. }
  subst id. eexists _, _, _, _, _, _, _, _, _, _, _, info, _, ce, anys.
  split; [reflexivity|]. split; [exact Em|]. split; [exact RO|]. split; [reflexivity|].
  split; [exact RS|]. split; [reflexivity|]. split; [exact Hce|]. split; [exact Hopen|].
  split; [exact P1|]. split; [exact P2|]. now apply packet_signed.
Qed.

(** Every packet on the chain at any time was sent that way. *)
Theorem C44_every_packet : forall c w id n p,
  cfg_ok c -> visited c w -> w_commit w id n = Some p ->
  exists w0 w1 h tm sender raw x ok ms qs memo t o info cb ce anys,
    visited c w0 /\ act c (AExecute h tm sender raw x ok) w0 = Some (w1, false) /\ later c w1 w /\
    from_json jc_execute_msg raw = Some (XSendCosmosMsgs ms qs memo t) /\
    owner_reported w0 o /\ ow_owner o = Some sender /\
    state_reported w0 (ContractState (Some info) cb) /\ ii_channel info = id /\
    w_chans w0 id = Some ce /\ ce_state ce = COpen /\
    w_commit w0 id n = None /\ w_commit w1 id n = Some p /\
    host_packet (p_data p) = Some (anys, unwrap_or memo "") /\ packet_spec (ii_address info) ms qs anys /\
    signed_by_account (ii_address info) ms qs anys.
Proof.
  intros c w id n p Hc V. induction V as [|w a w' b V IH H]; [discriminate|]. intro Hp.
  destruct (commit_new _ _ _ _ _ _ _ _ Hc V H Hp) as [E|(E & _)].
  - destruct (IH E) as (w0 & w1 & h & tm & sender & raw & x & ok & ms & qs & memo & t & o & info & cb & ce & anys & V0 & H0 & L & R).
    exists w0, w1, h, tm, sender, raw, x, ok, ms, qs, memo, t, o, info, cb, ce, anys.
    split; [exact V0|]. split; [exact H0|]. split; [eapply later_act; eassumption|exact R].
  - destruct (C44_sent_by_owner c w a w' b id n p Hc V H E Hp) as
      (h & tm & sender & raw & x & ok & ms & qs & memo & t & o & info & cb & ce & anys & -> & R1 & R2 & R3 & R4 & R5 & R6 & R7 & R8).
    assert (b = false) as ->.
    { cbn [act] in H. cbv zeta in H. do 3 apply obind_some in H as (? & _ & H). apply obind_some in H as ([s0 r0] & _ & H).
      apply obind_some in H as (w2 & _ & H). congruence. }
    exists w, w', h, tm, sender, raw, x, ok, ms, qs, memo, t, o, info, cb, ce, anys.
    split; [exact V|]. split; [exact H|]. split; [constructor|]. tauto.
Qed.
Example C44_case : exists w p, visited cfg0 w /\ w_commit w "channel-0" 1 = Some p.
Proof. exists (world_of with_query). eexists. split; [apply world_visited| vm_compute; reflexivity]. Qed.

(** ** C45: each packet is resolved at most once *)

(** Acknowledgements and timeouts of a packet, and callbacks that tell about one. *)
Definition resolves (id : string) (n : N) (i : logitem) : bool :=
  match i with LAck p _ _ | LTimeout p _ => at_pkt id n p | _ => false end.
Definition tells (id : string) (n : N) (i : logitem) : bool :=
  match i with
  | LCall _ msg =>
      match from_json jc_receiver msg with
      | Some (CbAck _ p _ _) | Some (CbTimeout p _) => at_pkt id n p
      | _ => false
      end
  | _ => false
  end.
Definition commits (id : string) (n : N) (i : logitem) : bool :=
  match i with LSent _ _ _ p => at_pkt id n p | _ => false end.
Definition count (f : logitem -> bool) (l : list logitem) : nat := length (filter f l).

Lemma count_cons f i l : count f (i :: l) = ((if f i then 1 else 0) + count f l)%nat.
Proof. unfold count. cbn [filter]. destruct (f i); reflexivity. Qed.

Lemma call_tells id n addr m : jval jc_receiver m ->
  tells id n (LCall addr (to_json jc_receiver m)) =
  match m with CbAck _ p _ _ | CbTimeout p _ => at_pkt id n p | _ => false end.
Proof. intro J. cbn [tells]. rewrite json_roundtrip by first [exact jc_receiver_ok|exact J]. destruct m; reflexivity. Qed.

Lemma at_pkt_eq id n p : at_pkt id n p = true -> e_chan (p_src p) = id /\ p_seq p = n.
Proof. unfold at_pkt. intro H. apply andb_true_iff in H as [H1 H2]. split; [now apply String.eqb_eq|now apply N.eqb_eq]. Qed.

Lemma resolved_hist c l id n : hist c l ->
  (count (resolves id n) l + (if unresolved l id n then 1 else 0) = count (commits id n) l)%nat /\
  (count (commits id n) l = if sent_by l id n then 1 else 0)%nat /\
  (count (tells id n) l <= count (resolves id n) l)%nat.
Proof.
  induction 1 as [|l new Hl (I1 & I2 & I3) B]; [repeat split; apply le_n|].
  destruct B as [B|B]; destruct B;
    repeat match goal with H : callback _ _ _ |- _ => destruct H as [J H]; subst i; destruct (callback_of l) end;
    cbn [app]; rewrite ?count_cons, ?call_tells by assumption; cbn [resolves tells commits unresolved sent_by];
    try (repeat split; assumption).
  - destruct (at_pkt id n p) eqn:Ea; [|repeat split; lia].
    apply at_pkt_eq in Ea as [<- <-].
    match goal with S : sent_by _ _ _ = None |- _ => rewrite S in I2 end.
    destruct (unresolved l _ _); lia.
  - destruct (at_pkt id n p) eqn:Ea; [|repeat split; lia]. apply at_pkt_eq in Ea as [<- <-].
    match goal with S : unresolved _ _ _ = Some _ |- _ => rewrite S in I1 end. lia.
  - destruct (at_pkt id n p) eqn:Ea; [|repeat split; lia]. apply at_pkt_eq in Ea as [<- <-].
    match goal with S : unresolved _ _ _ = Some _ |- _ => rewrite S in I1 end. lia.
  - destruct (at_pkt id n p) eqn:Ea; [|repeat split; lia]. apply at_pkt_eq in Ea as [<- <-].
    match goal with S : unresolved _ _ _ = Some _ |- _ => rewrite S in I1 end. lia.
  - destruct (at_pkt id n p) eqn:Ea; [|repeat split; lia]. apply at_pkt_eq in Ea as [<- <-].
    match goal with S : unresolved _ _ _ = Some _ |- _ => rewrite S in I1 end. lia.
Qed.

Theorem C45_resolved_once : forall c w id n, cfg_ok c -> visited c w ->
  (count (tells id n) (w_log w) <= count (resolves id n) (w_log w))%nat /\
  (count (resolves id n) (w_log w) <= count (commits id n) (w_log w))%nat /\
  (count (commits id n) (w_log w) <= 1)%nat.
Proof.
  intros c w id n Hc V. destruct (resolved_hist c _ id n (visited_hist c w Hc V)) as (H1 & H2 & H3).
  destruct (unresolved _ _ _), (sent_by _ _ _); lia.
Qed.

(** What is resolved, or told about, is the very packet that was sent before. *)
Theorem C45_only_own_packets : forall c w l1 x l2 id n,
  cfg_ok c -> visited c w -> w_log w = l1 ++ x :: l2 -> resolves id n x = true \/ tells id n x = true ->
  exists p e sender m, In (LSent e sender m p) l2 /\ e_chan (p_src p) = id /\ p_seq p = n /\
    match x with
    | LAck p' _ _ | LTimeout p' _ => p' = p
    | LCall _ msg => exists cb, from_json jc_receiver msg = Some cb /\
        match cb with CbAck _ p' _ _ | CbTimeout p' _ => p' = p | _ => False end
    | _ => False
    end.
Proof.
  intros c w l1 x l2 id n Hc V E Hx.
  destruct (hist_item _ _ _ _ _ (visited_hist c w Hc V) E) as (l0 & n1 & n2 & H0 & B & ->).
  assert (G : forall p pre, unresolved l0 (e_chan (p_src p)) (p_seq p) = Some p -> at_pkt id n p = true ->
    exists e sender m, In (LSent e sender m p) (pre ++ l0) /\ e_chan (p_src p) = id /\ p_seq p = n).
  { intros p pre U Ea. apply at_pkt_eq in Ea as [<- <-].
    apply unresolved_in in U as (e & sd & m & Hi). exists e, sd, m. split; [apply in_app_iff; now right|auto]. }
  block_cases B; cbn [resolves tells] in Hx; try (destruct Hx; discriminate);
    try (destruct Hx as [Hx|Hx]; [discriminate|]; rewrite json_roundtrip in Hx by first [exact jc_receiver_ok|assumption]; try discriminate);
    try (destruct Hx as [Hx|Hx]; [|discriminate]);
    match goal with U : unresolved l0 _ _ = Some ?p |- exists p, exists e, exists sd, exists m, In _ (?pre ++ _) /\ _ =>
      destruct (G p pre U Hx) as (e0 & sd0 & m0 & G1 & G2 & G3); exists p, e0, sd0, m0;
      split; [exact G1|]; split; [exact G2|]; split; [exact G3|] end;
    try reflexivity;
    (eexists; split; [apply json_roundtrip; first [exact jc_receiver_ok|assumption]|reflexivity]).
Qed.
Example C45_case : exists w, visited cfg0 w /\
  count (tells "channel-0" 1) (w_log w) = 1%nat /\ count (commits "channel-0" 1) (w_log w) = 1%nat /\
  step cfg0 (timed_out "channel-0" 1) w = None.
Proof.
  exists (world_of (with_query ++ [timed_out "channel-0" 1; timed_out "channel-0" 1])). split; [apply world_visited|].
  repeat split; vm_compute; reflexivity.
Qed.

Print Assumptions C16_timeout_any_store.
Print Assumptions C16_timeout.
Print Assumptions C19_one_packet.
Print Assumptions C19_no_overflow.
Print Assumptions C19_one_commitment.
Print Assumptions C20_packet_content.
Print Assumptions C21_signed_by_account.
Print Assumptions C22_supported_iff.
Print Assumptions C22_unsupported_aborts.
Print Assumptions C22_owner_can_send.
Print Assumptions C23_nothing_lost.
Print Assumptions C23_message.
Print Assumptions C24_amounts.
Print Assumptions C24_weights.
Print Assumptions C24_in_the_message.
Print Assumptions C25_queries.
Print Assumptions C44_sent_by_owner.
Print Assumptions C44_every_packet.
Print Assumptions C45_resolved_once.
Print Assumptions C45_only_own_packets.
