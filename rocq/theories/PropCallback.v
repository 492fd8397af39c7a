(** * PropCallback: callbacks, acknowledgement events, and the entry points
    that always abort (C33-C38). *)

From Verif Require Import Base Text Utf8 Base64 Json JsonCodec Types JsonTypes Proto Store CosmosMsg QueryMsg Metadata PacketData Ownable Contract
  JsonSound HostSpec AnswerSpec HostFacts PacketFacts AnswerFacts EntryFacts Chain ChainSpec Trans Inv HistorySpec History Queries
  HistFacts Enabled Witness PropPacket PropAnswer.
From Coq Require Import ZifyBool ZifyN.
Local Open Scope string_scope.
Local Open Scope list_scope.
Local Open Scope N_scope.

(** ** C33: exactly one callback per lifecycle event *)

(** The messages a response asks the chain to execute are one execute of the
    callback contract, without funds and without a reply, or none. *)
Definition only_callback (cb : option string) (m : callback_msg) (r : response) : Prop :=
  r_msgs r = match cb with
             | Some addr => [SubMsg (MWasm (WasmExecute addr (to_json jc_receiver m) [])) None]
             | None => []
             end.

Lemma bindo_ok {A B} (o : outcome A) (f : A -> outcome B) b :
  bindo o f = Ok b -> exists a, o = Ok a /\ f a = Ok b.
Proof. destruct o; cbn; intro H; try discriminate. eauto. Qed.
Lemma load_ok {A} (o : option A) x : load o = Ok x -> o = Some x.
Proof. destruct o; cbn; congruence. Qed.

(** Whatever is stored, for every packet, acknowledgement and relayer. *)
Theorem C33_ack_response : forall a s ack p relayer s' r,
  ibc_packet_ack a s ack p relayer = Ok (s', r) ->
  exists st d qr, st_state s = Some st /\ from_json jc_ack ack = Some d /\
    only_callback (cs_callback st) (CbAck d p relayer qr) r.
Proof.
  intros a s ack p relayer s' r H. unfold ibc_packet_ack in H. apply bindo_ok in H as (d & Hd & H).
  assert (Ed : from_json jc_ack ack = Some d) by (destruct (from_json jc_ack ack); cbn in Hd; congruence).
  destruct d as [res|err].
  - unfold ack_success in H. apply bindo_ok in H as (qr & _ & H). apply bindo_ok in H as (st & Hst & H).
    apply load_ok in Hst. injection H as _ <-. exists st, (AckResult res), qr.
    split; [exact Hst|]. split; [exact Ed|]. unfold only_callback, respond. now destruct (cs_callback st).
  - unfold ack_error in H. apply bindo_ok in H as (st & Hst & H). apply load_ok in Hst. injection H as _ <-.
    exists st, (AckError err), (Some (QRError err)). split; [exact Hst|]. split; [exact Ed|].
    unfold only_callback, respond. now destruct (cs_callback st).
Qed.

Theorem C33_timeout_response : forall s p relayer s' r,
  ibc_packet_timeout s p relayer = Ok (s', r) ->
  exists st, st_state s = Some st /\ only_callback (cs_callback st) (CbTimeout p relayer) r.
Proof.
  intros s p relayer s' r H. unfold ibc_packet_timeout in H. apply bindo_ok in H as (cs & _ & H). cbv zeta in H.
  unfold timeout_callback in H. apply bindo_ok in H as (st & Hst & H). apply load_ok in Hst. exists st.
  split; [destruct (is_ordered cs); exact Hst|]. unfold only_callback.
  destruct (cs_callback st); injection H as _ <-; reflexivity.
Qed.

Theorem C33_open_response : forall a s ch cp_version s' r,
  ibc_channel_connect a s (MOpenAck ch cp_version) = Ok (s', r) ->
  exists st md, st_state s = Some st /\ from_json jc_metadata cp_version = Some md /\
    only_callback (cs_callback st)
      (CbOpenAck (Channel (ch_endpoint ch) (ch_counterparty ch) (ch_order ch) cp_version (ch_connection ch))
        (md_address md) (md_encoding md)) r.
Proof.
  intros a s ch v s' r H. cbn [ibc_channel_connect] in H. unfold on_open_ack in H.
  apply bindo_ok in H as (st & Hst & H). apply load_ok in Hst.
  destruct (String.eqb _ _); [discriminate|]. apply bindo_ok in H as (md & Hmd & H).
  apply bindo_ok in H as (? & _ & H). destruct (sempty _); [discriminate|]. cbv zeta in H. exists st, md.
  split; [exact Hst|]. split; [unfold metadata_from_string in Hmd; destruct (from_json jc_metadata v); cbn in Hmd; congruence|].
  unfold only_callback. destruct (cs_callback st); injection H as _ <-; reflexivity.
Qed.

(** On the chain: what the events of a history are told to the callback
    contract the ContractState query reports. *)
Definition is_call (i : logitem) : bool := match i with LCall _ _ => true | _ => false end.
Definition told_once (cb : option string) (m : callback_msg) (new : list logitem) : Prop :=
  match cb with
  | Some addr => exists msg, filter is_call new = [LCall addr msg] /\ from_json jc_receiver msg = Some m
  | None => filter is_call new = []
  end.

Lemma told_callback l m i l' : callback l m i -> filter is_call l' = [] -> told_once (callback_of l) m (i ++ l').
Proof.
  intros [J ->] F. unfold told_once. destruct (callback_of l); cbn [app]; [|exact F].
  eexists. cbn [filter is_call]. rewrite F. split; [reflexivity|]. apply json_roundtrip; [exact jc_receiver_ok|exact J].
Qed.

Theorem C33_ack : forall c w id n ack relayer w' b info cb,
  cfg_ok c -> visited c w -> state_reported w (ContractState info cb) ->
  act c (AAck id n ack relayer) w = Some (w', b) ->
  exists p d qr new, w_commit w id n = Some p /\ from_json jc_ack ack = Some d /\
    w_log w' = new ++ w_log w /\ told_once cb (CbAck d p relayer qr) new.
Proof.
  intros c w id n ack relayer w' b info cb Hc V R H.
  apply (state_reported_log c w _ Hc V) in R as [_ R]. injection R as _ ->.
  destruct (ack_block _ _ _ _ _ _ _ _ Hc V H) as (p & d & qr & last & i & Hp & _ & _ & Hd & _ & Cb & El).
  exists p, d, qr, (i ++ [LEvent (ack_event p last); LAck p ack relayer]).
  split; [exact Hp|]. split; [exact Hd|]. split; [rewrite <- app_assoc; exact El|].
  apply told_callback; [exact Cb|reflexivity].
Qed.

Lemma timeout_block c w id n relayer w' b : cfg_ok c -> visited c w ->
  act c (ATimeout id n relayer) w = Some (w', b) ->
  exists p i, w_commit w id n = Some p /\ callback (w_log w) (CbTimeout p relayer) i /\
    w_log w' = i ++ LTimeout p relayer :: w_log w.
Proof.
  intros Hc V H.
  destruct (act_block_call _ _ _ _ _ Hc V H) as (new & _ & B & El). cbn [call_item] in B, El. rewrite app_nil_r in B, El.
  cbn [act] in H. apply obind_some in H as (? & _ & H). apply obind_some in H as (ce & _ & H).
  apply obind_some in H as (p & Hp & H). apply obind_some in H as (s & _ & H). apply obind_some in H as ([s' r] & _ & H).
  apply dispatch_call_adds in H as (pre & H & _).
  assert (E : new = pre ++ [LTimeout p relayer]).
  { rewrite H in El. assert (E : pre ++ [LTimeout p relayer] ++ w_log w = new ++ w_log w)
      by (destruct (ce_order ce); exact El). rewrite app_assoc in E. now apply app_inv_tail in E. }
  subst new. clear H. exists p. 
  assert (K : forall l (x : logitem), pre ++ [LTimeout p relayer] = l ++ [x] -> x = LTimeout p relayer).
  { intros l z Ez. apply app_inj_tail in Ez as [_ Ez]. now symmetry. }
  assert (K1 : forall (x : logitem), pre ++ [LTimeout p relayer] = [x] -> x = LTimeout p relayer) by (intros z; exact (K [] z)).
  assert (K2 : forall (x y : logitem), pre ++ [LTimeout p relayer] = [x; y] -> y = LTimeout p relayer) by (intros y z; exact (K [y] z)).
  remember (pre ++ [LTimeout p relayer]) as new eqn:En.
  destruct B as [B|B]; destruct B;
    try (specialize (K1 _ eq_refl); discriminate); try (specialize (K2 _ _ eq_refl); discriminate);
    try (specialize (K _ _ eq_refl); discriminate).
  - change (i ++ [LEvent (ack_event p0 last); LAck p0 ack relayer0]) with (i ++ [LEvent (ack_event p0 last)] ++ [LAck p0 ack relayer0]) in K.
    rewrite app_assoc in K. specialize (K _ _ eq_refl). discriminate.
  - specialize (K _ _ eq_refl). injection K as -> ->. exists i.
    split; [exact Hp|]. split; [assumption|]. now rewrite <- app_assoc in El.
Qed.

Theorem C33_timeout : forall c w id n relayer w' b info cb,
  cfg_ok c -> visited c w -> state_reported w (ContractState info cb) ->
  act c (ATimeout id n relayer) w = Some (w', b) ->
  exists p new, w_commit w id n = Some p /\ w_log w' = new ++ w_log w /\ told_once cb (CbTimeout p relayer) new.
Proof.
  intros c w id n relayer w' b info cb Hc V R H.
  apply (state_reported_log c w _ Hc V) in R as [_ R]. injection R as _ ->.
  destruct (timeout_block _ _ _ _ _ _ _ Hc V H) as (p & i & Hp & Cb & El).
  exists p, (i ++ [LTimeout p relayer]). split; [exact Hp|]. split; [rewrite <- app_assoc; exact El|].
  apply told_callback; [exact Cb|reflexivity].
Qed.

Lemma open_ack_block c w id cp v w' b : cfg_ok c -> visited c w ->
  act c (AOpenAck id cp v) w = Some (w', b) ->
  exists ce ch md i, w_chans w id = Some ce /\
    ch = Channel (Endpoint (own_port c) id) (Endpoint "icahost" cp) (ce_order ce) v (ce_conn ce) /\
    from_json jc_metadata v = Some md /\ callback (w_log w) (CbOpenAck ch (md_address md) Protobuf) i /\
    w_log w' = i ++ LChanOpen ch :: w_log w.
Proof.
  intros Hc V H.
  destruct (act_block_call _ _ _ _ _ Hc V H) as (new & _ & B & El). cbn [call_item] in B, El. rewrite app_nil_r in B, El.
  cbn [act] in H. apply obind_some in H as (? & _ & H). apply obind_some in H as (ce & Hce & H).
  apply obind_some in H as (? & _ & H). cbv zeta in H. apply obind_some in H as (s & _ & H). apply obind_some in H as ([s' r] & _ & H).
  apply dispatch_call_adds in H as (pre & H & _).
  set (ch := channel_of c id _) in H.
  assert (E : new = pre ++ [LChanOpen ch]).
  { rewrite H in El. assert (E : pre ++ [LChanOpen ch] ++ w_log w = new ++ w_log w) by exact El.
    rewrite app_assoc in E. now apply app_inv_tail in E. }
  subst new. clear H.
  assert (K : forall l (x : logitem), pre ++ [LChanOpen ch] = l ++ [x] -> x = LChanOpen ch).
  { intros l z Ez. apply app_inj_tail in Ez as [_ Ez]. now symmetry. }
  assert (K1 : forall (x : logitem), pre ++ [LChanOpen ch] = [x] -> x = LChanOpen ch) by (intros z; exact (K [] z)).
  assert (K2 : forall (x y : logitem), pre ++ [LChanOpen ch] = [x; y] -> y = LChanOpen ch) by (intros y z; exact (K [y] z)).
  remember (pre ++ [LChanOpen ch]) as new eqn:En.
  destruct B as [B|B]; destruct B;
    try (specialize (K1 _ eq_refl); discriminate); try (specialize (K2 _ _ eq_refl); discriminate);
    try (specialize (K _ _ eq_refl); discriminate).
  - specialize (K _ _ eq_refl). injection K as ->. exists ce, ch, md, i. split; [exact Hce|].
    assert (Ep : e_port (ce_cp ce) = "icahost") by assumption.
    split; [unfold ch, channel_of; cbn [ce_order ce_cp ce_conn ce_version ce_state]; rewrite Ep; reflexivity|].
    split; [assumption|]. split; [assumption|]. now rewrite <- app_assoc in El.
  - change (i ++ [LEvent (ack_event p last); LAck p ack relayer]) with (i ++ [LEvent (ack_event p last)] ++ [LAck p ack relayer]) in K.
    rewrite app_assoc in K. specialize (K _ _ eq_refl). discriminate.
Qed.

Theorem C33_open : forall c w id cp v w' b info cb,
  cfg_ok c -> visited c w -> state_reported w (ContractState info cb) ->
  act c (AOpenAck id cp v) w = Some (w', b) ->
  exists ce md new, w_chans w id = Some ce /\ from_json jc_metadata v = Some md /\ w_log w' = new ++ w_log w /\
    told_once cb (CbOpenAck (Channel (Endpoint (own_port c) id) (Endpoint "icahost" cp) (ce_order ce) v (ce_conn ce))
                    (md_address md) Protobuf) new.
Proof.
  intros c w id cp v w' b info cb Hc V R H.
  apply (state_reported_log c w _ Hc V) in R as [_ R]. injection R as _ ->.
  destruct (open_ack_block _ _ _ _ _ _ _ Hc V H) as (ce & ch & md & i & Hce & Ech & Hmd & Cb & El). subst ch.
  exists ce, md, (i ++ [LChanOpen (Channel (Endpoint (own_port c) id) (Endpoint "icahost" cp) (ce_order ce) v (ce_conn ce))]).
  split; [exact Hce|]. split; [exact Hmd|]. split; [rewrite <- app_assoc; exact El|].
  apply told_callback; [exact Cb|reflexivity].
Qed.

(** Nothing else calls another contract. *)
Definition lifecycle (a : action) : Prop :=
  match a with AOpenAck _ _ _ | AAck _ _ _ _ | ATimeout _ _ _ => True | _ => False end.

Lemma events_calls l w : exists n, w_log (note_events l w) = n ++ w_log w /\ filter is_call n = [].
Proof.
  revert w. induction l as [|ev l IH]; intro w; cbn [note_events]; [now exists []|].
  destruct (IH (note (LEvent ev) w)) as (n & -> & H). exists (n ++ [LEvent ev]). rewrite <- app_assoc. split; [reflexivity|].
  now rewrite filter_app, H.
Qed.
Lemma no_call_user c l new : user_block c l new -> filter is_call new = [].
Proof. now destruct 1. Qed.

Theorem C33_nothing_else_calls : forall c w a w' b,
  cfg_ok c -> visited c w -> act c a w = Some (w', b) -> ~ lifecycle a ->
  b = false /\ exists new, w_log w' = new ++ w_log w /\ filter is_call new = [].
Proof.
  intros c w a w' b Hc V H NL.
  destruct (act_block_call _ _ _ _ _ Hc V H) as (new & Q & B & El).
  assert (U : forall x, call_item c a = [x] -> ~ quiet x -> filter is_call (new ++ call_item c a) = []).
  { intros x E Hx. destruct B as [B|B]; [eapply no_call_user; exact B|]. exfalso. apply Hx.
    rewrite E in B. clear -B. remember (new ++ [x]) as n eqn:En.
    assert (K : forall l y, n = l ++ [y] -> y = x).
    { intros l y E. subst n. apply app_inj_tail in E as [_ E]. now symmetry. }
    destruct B.
    - rewrite <- (K _ _ eq_refl). exact I.
    - rewrite <- (K [] _ eq_refl). exact I.
    - rewrite <- (K (i ++ [LEvent (ack_event p last)]) (LAck p ack relayer)); [exact I|now rewrite <- app_assoc].
    - rewrite <- (K _ _ eq_refl). exact I. }
  destruct a; cbn [call_item act] in *; try (elim NL; exact I); try discriminate.
  - apply obind_some in H as (? & _ & H). apply obind_some in H as (m & Hm & H). cbv zeta in H.
    apply obind_some in H as ([? ?] & _ & H). apply obind_some in H as (? & _ & H). injection H as _ <-.
    rewrite Hm in *. split; [reflexivity|]. eexists. split; [exact El|]. eapply U; [reflexivity|]. intro Z; exact Z.
  - apply obind_some in H as (? & _ & H). apply obind_some in H as (? & _ & H). apply obind_some in H as (m & Hm & H). cbv zeta in H.
    apply obind_some in H as ([? ?] & _ & H). apply obind_some in H as (? & _ & H). injection H as _ <-.
    rewrite Hm in *. split; [reflexivity|]. eexists. split; [exact El|]. eapply U; [reflexivity|]. intro Z; exact Z.
  - apply obind_some in H as (? & _ & H). apply obind_some in H as (? & _ & H).
    apply obind_some in H as ([? ?] & _ & H). injection H as _ <-.
    split; [reflexivity|]. eexists. split; [exact El|]. eapply U; [reflexivity|]. intro Z; exact Z.
  - apply obind_some in H as (w1 & H & E). injection E as <- <-. split; [reflexivity|]. unfold core_open in H.
    apply obind_some in H as (? & _ & H). apply obind_some in H as (? & _ & H). apply obind_some in H as (? & _ & H).
    cbv zeta in H. apply obind_some in H as ([? ?] & _ & H). injection H as <-. now exists [LChanInit id].
  - apply obind_some in H as (? & _ & H). discriminate.
  - apply obind_some in H as (? & _ & H). apply obind_some in H as (? & _ & H). discriminate.
  - apply obind_some in H as (w1 & H & E). injection E as <- <-. split; [reflexivity|]. unfold core_close_init in H.
    apply obind_some in H as (? & _ & H). apply obind_some in H as (? & _ & H). apply obind_some in H as ([? r] & _ & H).
    apply obind_some in H as (? & _ & H). apply obind_some in H as (? & _ & H). injection H as <-. cbn [note put_chan w_log].
    destruct (events_calls (r_events r) (put_store c0 w)) as (n & -> & Hn). exists (LChanClosed id :: n). auto.
  - apply obind_some in H as (? & _ & H). apply obind_some in H as (? & _ & H). apply obind_some in H as (? & _ & H).
    apply obind_some in H as ([? r] & Hr & H). apply ok_of_some in Hr. cbn [ibc_channel_close] in Hr. unfold on_close_confirm, close_recorded in Hr.
    apply bindo_ok in Hr as (? & _ & Hr). destruct (negb _); [discriminate|]. destruct (negb _); [discriminate|].
    injection Hr as _ <-. injection H as <- <-. split; [reflexivity|]. now exists [LChanClosed id].
  - apply obind_some in H as (? & _ & H). discriminate.
Qed.

(** An acknowledgement, a timeout and a channel opening, with a callback
    address and without. *)
Definition no_callback := [inst (Some Unordered) None; open_ack "channel-0" "channel-7" "cosmos1acc"; exec "owner" (send0 [bank0] []) ""].
Example C33_case :
  (exists info, state_reported w26 (ContractState info (Some "cb"))) /\
  act cfg0 (AAck "channel-0" 1 (to_json jc_ack (AckError "failed")) "relayer") w26 <> None /\
  act cfg0 (ATimeout "channel-0" 1 "relayer") w26 <> None /\
  (exists info, state_reported (world_of [inst None (Some "cb")]) (ContractState info (Some "cb"))) /\
  act cfg0 (AOpenAck "channel-0" "channel-7" (host_version "cosmos1acc")) (world_of [inst None (Some "cb")]) <> None /\
  (exists info, state_reported (world_of no_callback) (ContractState info None)) /\
  act cfg0 (ATimeout "channel-0" 1 "relayer") (world_of no_callback) <> None.
Proof.
  split; [eexists; apply state_reported_by; vm_compute; reflexivity|]. split; [vm_compute; discriminate|].
  split; [vm_compute; discriminate|]. split; [eexists; apply state_reported_by; vm_compute; reflexivity|].
  split; [vm_compute; discriminate|]. split; [eexists; apply state_reported_by; vm_compute; reflexivity|].
  vm_compute; discriminate.
Qed.
Example C33_other_case : visited cfg0 w26 /\
  (exists w', act cfg0 (AExecute 20 3000 "owner" (to_json jc_execute_msg XCloseChannel) "" true) w26 = Some (w', false)) /\
  ~ lifecycle (AExecute 20 3000 "owner" (to_json jc_execute_msg XCloseChannel) "" true).
Proof.
  split; [apply world_visited|]. split; [|intro Z; exact Z].
  destruct (act cfg0 (AExecute 20 3000 "owner" (to_json jc_execute_msg XCloseChannel) "" true) w26) as [[w' b]|] eqn:E.
  - exists w'. replace b with false; [reflexivity|]. symmetry.
    apply (C33_nothing_else_calls cfg0 w26 _ w' b cfg0_ok (world_visited _) E). intro Z; exact Z.
  - exfalso. revert E. vm_compute. discriminate.
Qed.

(** ** C34: the callback contract reads back exactly what was sent *)

(** The callbacks a Rust value can hold: strings are UTF-8, numbers fit. *)
Definition wf_endpoint (e : endpoint) : Prop := utf8 (e_port e) /\ utf8 (e_chan e).
Definition wf_channel (ch : channel) : Prop :=
  wf_endpoint (ch_endpoint ch) /\ wf_endpoint (ch_counterparty ch) /\ utf8 (ch_version ch) /\ utf8 (ch_connection ch).
Definition wf_packet (p : packet) : Prop :=
  wf_endpoint (p_src p) /\ wf_endpoint (p_dest p) /\ u64 (p_seq p) /\ wf_timeout (p_timeout p).
Definition wf_unit (u : denom_unit) : Prop :=
  utf8 (du_denom u) /\ du_exponent u < u32_lim /\ Forall utf8 (du_aliases u).
Definition wf_metadata (m : denom_metadata) : Prop :=
  utf8 (dm_description m) /\ Forall wf_unit (dm_units m) /\ utf8 (dm_base m) /\ utf8 (dm_display m) /\
  utf8 (dm_name m) /\ utf8 (dm_symbol m) /\ utf8 (dm_uri m) /\ utf8 (dm_uri_hash m).
Definition wf_info (i : contract_info) : Prop :=
  u64 (ci_code_id i) /\ utf8 (ci_creator i) /\ utf8o (ci_admin i) /\ utf8o (ci_ibc_port i).
Definition wf_validator (v : validator) : Prop :=
  utf8 (v_address v) /\ v_commission v < u128_lim /\ v_max_commission v < u128_lim /\ v_max_change_rate v < u128_lim.
Definition wf_delegation (d : delegation) : Prop := utf8 (d_delegator d) /\ utf8 (d_validator d) /\ wf_coin (d_amount d).
Definition on_some {A} (P : A -> Prop) (o : option A) : Prop := match o with Some x => P x | None => True end.
Definition wf_response (r : query_response) : Prop :=
  match r with
  | RBank (RSupply c) | RBank (RBalance c) => wf_coin c
  | RBank (RAllBalances l) => Forall wf_coin l
  | RBank (RDenomMetadata m) => wf_metadata m
  | RBank (RAllDenomMetadata l _) => Forall wf_metadata l
  | RStargate _ path => utf8 path
  | RWasm (RContractInfo i) => on_some wf_info i
  | RWasm (RRaw _) | RWasm (RSmart _) => True
  | RStaking (RBondedDenom d) => utf8 d
  | RStaking (RAllDelegations l) => Forall wf_delegation l
  | RStaking (RDelegation d) => on_some wf_delegation d
  | RStaking (RAllValidators l) => Forall wf_validator l
  | RStaking (RValidator v) => on_some wf_validator v
  end.
Definition wf_result (r : query_result) : Prop :=
  match r with QRSuccess h l => u64 h /\ Forall wf_response l | QRError e => utf8 e end.
Definition wf_callback (m : callback_msg) : Prop :=
  match m with
  | CbAck d p relayer qr =>
      match d with AckResult _ => True | AckError e => utf8 e end /\ wf_packet p /\ utf8 relayer /\ on_some wf_result qr
  | CbTimeout p relayer => wf_packet p /\ utf8 relayer
  | CbOpenAck ch addr _ => wf_channel ch /\ utf8 addr
  end.

Lemma jval_wf_coin c : wf_coin c -> jval jc_coin c.
Proof. intro H. exact H. Qed.
Lemma jval_wf_endpoint e : wf_endpoint e -> jval jc_endpoint e.
Proof. intro H. exact H. Qed.
Lemma jval_enum0 o : jval jc_order o. Proof. destruct o; exact I. Qed.
Lemma jval_enc0 o : jval jc_encoding o. Proof. destruct o; exact I. Qed.
Lemma jval_wf_channel ch : wf_channel ch -> jval jc_channel ch.
Proof.
  intros (H1 & H2 & H3 & H4).
  exact (conj H1 (conj H2 (conj (jval_enum0 _) (conj H3 H4)))).
Qed.
Lemma jval_wf_timeout t : wf_timeout t -> jval jc_timeout t.
Proof.
  destruct t as [[[r h]|] [n|]]; cbn [wf_timeout to_block to_timestamp tb_revision tb_height]; intros [H1 H2].
  all: split; [first [exact I|split; [exact H1|discriminate]]|first [exact I|split; [exact H2|discriminate]]].
Qed.
Lemma jval_wf_packet p : wf_packet p -> jval jc_packet p.
Proof.
  intros (H1 & H2 & H3 & H4).
  exact (conj I (conj H1 (conj H2 (conj H3 (jval_wf_timeout _ H4))))).
Qed.
Lemma jval_wf_unit u : wf_unit u -> jval jc_denom_unit u.
Proof. intro H. exact H. Qed.
Lemma jval_wf_metadata m : wf_metadata m -> jval jc_denom_metadata m.
Proof.
  intros (H1 & H2 & H3). split; [exact H1|]. split; [|exact H3].
  eapply Forall_impl; [|exact H2]. exact jval_wf_unit.
Qed.
Lemma jval_utf8o o : utf8o o -> jval (jc_opt jc_str) o.
Proof. destruct o; intro H; [split; [exact H|discriminate]|exact I]. Qed.
Lemma jval_wf_info i : wf_info i -> jval jc_contract_info i.
Proof. intros (H1 & H2 & H3 & H4). exact (conj H1 (conj H2 (conj (jval_utf8o _ H3) (conj I (jval_utf8o _ H4))))). Qed.
Lemma jval_wf_validator v : wf_validator v -> jval jc_validator v.
Proof. intro H. exact H. Qed.
Lemma jval_wf_delegation d : wf_delegation d -> jval jc_delegation d.
Proof. intro H. exact H. Qed.
Lemma jval_some {A} (P : A -> Prop) (c : jcodec A) o : (forall a, P a -> jval c a) -> (forall a, jenc c a <> JNull) ->
  on_some P o -> jval (jc_opt c) o.
Proof. intros H1 H2. destruct o; intro H; [split; [now apply H1|apply H2]|exact I]. Qed.
Lemma jval_wf_response r : wf_response r -> jval jc_query_response r.
Proof.
  destruct r as [[]|d p|[]|[]]; cbn [wf_response]; intro H.
  - exact H.
  - exact H.
  - exact H.
  - exact (jval_wf_metadata _ H).
  - split; [eapply Forall_impl; [|exact H]; exact jval_wf_metadata|]. destruct next_key; [split; [exact I|discriminate]|exact I].
  - exact (conj I H).
  - apply (jval_some wf_info jc_contract_info); [exact jval_wf_info|discriminate|exact H].
  - destruct data; [split; [exact I|discriminate]|exact I].
  - exact I.
  - exact H.
  - exact H.
  - apply (jval_some wf_delegation jc_delegation); [exact jval_wf_delegation|discriminate|exact H].
  - exact H.
  - apply (jval_some wf_validator jc_validator); [exact jval_wf_validator|discriminate|exact H].
Qed.
Lemma jval_wf_result r : wf_result r -> jval jc_query_result r.
Proof.
  destruct r; intro H; [|exact H]. destruct H as [H1 H2]. split; [exact H1|].
  eapply Forall_impl; [|exact H2]. exact jval_wf_response.
Qed.
Lemma jval_wf_callback m : wf_callback m -> jval jc_receiver m.
Proof.
  destruct m as [d p r q|p r|ch x e]; intro H.
  - destruct H as (H1 & H2 & H3 & H4). split; [|split; [exact (jval_wf_packet _ H2)|split; [exact H3|]]].
    + destruct d; exact H1.
    + apply (jval_some wf_result jc_query_result); [exact jval_wf_result|intros [] E; discriminate|exact H4].
  - destruct H as [H1 H2]. exact (conj (jval_wf_packet _ H1) H2).
  - destruct H as [H1 H2]. exact (conj (jval_wf_channel _ H1) (conj H2 (jval_enc0 _))).
Qed.

(** The receiver's message type is an enum with the variant
    receive_ica_callback; every callback value survives the round trip. *)
Theorem C34_roundtrip : forall m, wf_callback m ->
  from_json jc_receiver (to_json jc_receiver m) = Some m.
Proof. intros m H. apply json_roundtrip; [exact jc_receiver_ok|now apply jval_wf_callback]. Qed.

Theorem C34_tag : forall m, exists t,
  to_json jc_receiver m = "{""receive_ica_callback"":" +++ t +++ "}".
Proof. intro m. eexists. unfold to_json. reflexivity. Qed.

(** No two callbacks look the same. *)
Theorem C34_injective : forall m m', wf_callback m -> wf_callback m' ->
  to_json jc_receiver m = to_json jc_receiver m' -> m = m'.
Proof. intros m m' H H' E. apply C34_roundtrip in H, H'. rewrite E in H. congruence. Qed.

(** Every message a contract is ever called with. *)
Theorem C34_every_call : forall c w addr msg, cfg_ok c -> visited c w -> In (LCall addr msg) (w_log w) ->
  exists m, from_json jc_receiver msg = Some m /\ msg = to_json jc_receiver m.
Proof.
  intros c w addr msg Hc V Hi. apply in_split in Hi as (l1 & l2 & El).
  destruct (hist_item _ _ _ _ _ (visited_hist c w Hc V) El) as (l0 & n1 & n2 & _ & B & _).
  block_cases B;
    match goal with K : LCall _ _ = LCall _ _ |- _ => injection K as -> <- end;
    (eexists; split; [apply json_roundtrip; [exact jc_receiver_ok|assumption]|reflexivity]).
Qed.

Example C34_case : wf_callback (CbAck (AckError "a ""quoted"" \ text") (Packet "data" (Endpoint "wasm.c" "channel-0") (Endpoint "icahost" "channel-1") 7
    (Timeout None (Some 5))) "relayer" (Some (QRSuccess 3 [RBank (RBalance (Coin "uatom" 5)); RStaking (RValidator None)]))).
Proof.
  split; [reflexivity|]. split.
  - split; [split; reflexivity|]. split; [split; reflexivity|]. split; [reflexivity|]. split; [exact I|reflexivity].
  - split; [reflexivity|]. split; [reflexivity|]. constructor; [split; reflexivity|]. constructor; [exact I|constructor].
Qed.
Example C34_call_case : exists addr msg, In (LCall addr msg) (w_log (world_of (with_query ++ [ack "channel-0" 1 (AckError "no")]))).
Proof. eexists _, _. vm_compute. left. reflexivity. Qed.

(** ** C35: a failing callback contract aborts the event *)

Lemma dispatch_silent r w w' : dispatch_call r w = Some (w', false) ->
  exists n, w_log w' = n ++ w_log w /\ filter is_call n = [].
Proof.
  unfold dispatch_call. destruct (r_msgs r) as [|sm [|]]; [|destruct (sm_msg sm); try discriminate|discriminate].
  - intro H. injection H as <-. apply events_calls.
  - destruct m; try discriminate. destruct funds; try discriminate. destruct (sm_reply sm); discriminate.
Qed.

Lemma silent_event c a w w' : lifecycle a -> act c a w = Some (w', false) ->
  exists n, w_log w' = n ++ w_log w /\ filter is_call n = [].
Proof.
  intros L H. destruct a; try (elim L; fail); try (now elim L); cbn [act] in H;
  repeat match type of H with
  | obind _ _ = Some _ => apply obind_some in H as (? & _ & H)
  | (let '(_, _) := ?x in _) = _ => destruct x
  | (let _ := _ in _) = _ => cbv zeta in H
  end; apply dispatch_silent in H as (n & H & F).
  - exists (n ++ [LChanOpen (channel_of c id (ChanEnd COpen (ce_order x0) (Endpoint (e_port (ce_cp x0)) cp_chan) (ce_conn x0) cp_version))]).
    rewrite <- app_assoc, filter_app, F. split; [exact H|reflexivity].
  - exists (n ++ [LAck x2 ack relayer]). rewrite <- app_assoc, filter_app, F.
    split; [|reflexivity]. rewrite H. destruct (ce_order x0); reflexivity.
  - exists (n ++ [LTimeout x1 relayer]). rewrite <- app_assoc, filter_app, F.
    split; [|reflexivity]. rewrite H. destruct (ce_order x0); reflexivity.
Qed.

Lemma event_calls c a w w' b addr : cfg_ok c -> visited c w -> lifecycle a -> calls_back w addr ->
  act c a w = Some (w', b) -> b = true.
Proof.
  intros Hc V L [info R] H. destruct b; [reflexivity|].
  destruct (silent_event _ _ _ _ L H) as (n & El & F). exfalso.
  assert (G : exists m new, w_log w' = new ++ w_log w /\ told_once (Some addr) m new).
  { destruct a; try (now elim L).
    - destruct (C33_open _ _ _ _ _ _ _ _ _ Hc V R H) as (? & ? & new & _ & _ & G1 & G2). eauto.
    - destruct (C33_ack _ _ _ _ _ _ _ _ _ _ Hc V R H) as (? & ? & ? & new & _ & _ & G1 & G2). eauto.
    - destruct (C33_timeout _ _ _ _ _ _ _ _ _ Hc V R H) as (? & new & _ & G1 & G2). eauto. }
  destruct G as (m & new & E & msg & G & _). rewrite El in E. apply app_inv_tail in E. subst new. rewrite F in G. discriminate.
Qed.

(** When a callback address is reported, an acknowledgement, a timeout or a
    channel opening whose callback fails changes nothing at all. *)
Theorem C35_aborts : forall c w a addr, cfg_ok c -> visited c w -> lifecycle a -> calls_back w addr ->
  step c (Tx a None) w = None.
Proof.
  intros c w a addr Hc V L R. cbn [step]. destruct (act c a w) as [[w' b]|] eqn:H; [|reflexivity]. cbn [obind].
  now rewrite (event_calls _ _ _ _ _ _ Hc V L R H).
Qed.

Lemma runs_app f l1 l2 w : runs f (l1 ++ l2) w = runs f l2 (runs f l1 w).
Proof. revert w. induction l1 as [|t l1 IH]; intro w; [reflexivity|]. cbn [app runs]. apply IH. Qed.

(** The chain goes on as if it had never been submitted. *)
Theorem C35_no_trace : forall c l1 a l2 addr, cfg_ok c -> lifecycle a -> calls_back (history c l1) addr ->
  history c (l1 ++ Tx a None :: l2) = history c (l1 ++ l2).
Proof.
  intros c l1 a l2 addr Hc L R. unfold history, run. rewrite !runs_app. cbn [runs].
  fold (run c l1 init_world). fold (history c l1).
  now rewrite (C35_aborts c (history c l1) a addr Hc (history_visited c l1) L R).
Qed.

(** So it can be submitted again: if only the callback contract stood in the
    way, the same event goes through once that contract no longer fails,
    whatever the contract then does. *)
Theorem C35_retry : forall c w a addr w' b beh, cfg_ok c -> visited c w -> lifecycle a -> calls_back w addr ->
  act c a w = Some (w', b) -> step c (Tx a (Some beh)) w = Some (run c beh w').
Proof.
  intros c w a addr w' b beh Hc V L R H. cbn [step]. rewrite H. cbn [obind].
  now rewrite (event_calls _ _ _ _ _ _ Hc V L R H).
Qed.

(** What "nothing" means for the three events. *)
Theorem C35_stays : forall c w addr id n ack cp v relayer, cfg_ok c -> visited c w -> calls_back w addr ->
  run c [Tx (AAck id n ack relayer) None] w = w /\ run c [Tx (ATimeout id n relayer) None] w = w /\
  run c [Tx (AOpenAck id cp v) None] w = w.
Proof.
  intros c w addr id n ack cp v relayer Hc V R. unfold run. cbn [runs].
  rewrite (C35_aborts c w (AAck id n ack relayer) addr Hc V I R), (C35_aborts c w (ATimeout id n relayer) addr Hc V I R),
    (C35_aborts c w (AOpenAck id cp v) addr Hc V I R). auto.
Qed.

Example C35_case : visited cfg0 w26 /\ calls_back w26 "cb" /\
  lifecycle (ATimeout "channel-0" 1 "relayer") /\ act cfg0 (ATimeout "channel-0" 1 "relayer") w26 <> None /\
  w26 = history cfg0 with_query.
Proof.
  split; [apply world_visited|]. split; [eexists; apply state_reported_by; vm_compute; reflexivity|].
  split; [exact I|]. split; [vm_compute; discriminate|reflexivity].
Qed.

(** ** C36: the event of an acknowledgement *)

Definition is_event (i : logitem) : bool := match i with LEvent _ => true | _ => false end.

Theorem C36_event : forall c w id n ack relayer w' b,
  cfg_ok c -> visited c w -> act c (AAck id n ack relayer) w = Some (w', b) ->
  exists p d new seq last, w_commit w id n = Some p /\ from_json jc_ack ack = Some d /\
    w_log w' = new ++ w_log w /\
    filter is_event new = [LEvent (Event "acknowledge_packet"
      [("packet_sequence", seq); ("packet_src_port", e_port (p_src p)); ("packet_src_channel", e_chan (p_src p)); last])] /\
    parse_uint u64_lim seq = Some n /\ n = p_seq p /\ e_chan (p_src p) = id /\ e_port (p_src p) = own_port c /\
    match d with
    | AckResult res => exists t, last = ("packet_ack_base64", t) /\ b64_dec t = Some res
    | AckError err => last = ("error", err)
    end.
Proof.
  intros c w id n ack relayer w' b Hc V H.
  destruct (ack_block _ _ _ _ _ _ _ _ Hc V H) as (p & d & qr & last & i & Hp & E1 & E2 & Hd & M & [_ Ei] & El).
  exists p, d, (i ++ [LEvent (ack_event p last); LAck p ack relayer]), (dec (p_seq p)), last.
  split; [exact Hp|]. split; [exact Hd|]. split; [rewrite <- app_assoc; exact El|].
  split; [subst i; destruct (callback_of (w_log w)); reflexivity|].
  rewrite (ip_commit _ (inv_pkts _ _ (visited_inv c w Hc V))) in Hp.
  pose proof (hist_packet _ _ _ _ _ (visited_hist c w Hc V) Hp) as Jp.
  split; [rewrite <- E2; apply parse_uint_dec; apply Jp|]. split; [now symmetry|]. split; [exact E1|].
  split.
  { destruct (ic_pkt _ _ (inv_chans _ _ (visited_inv c w Hc V)) _ _ _ Hp) as (ce & _ & _ & Es & _). now rewrite Es. }
  destruct d as [res|err].
  - destruct M as [-> _]. eexists. split; [reflexivity|apply b64_roundtrip].
  - now destruct M as [-> _].
Qed.

(** For every packet and acknowledgement, whatever is stored. *)
Theorem C36_response : forall a s ack p relayer s' r,
  ibc_packet_ack a s ack p relayer = Ok (s', r) ->
  exists last, r_events r = [Event "acknowledge_packet"
      [("packet_sequence", dec (p_seq p)); ("packet_src_port", e_port (p_src p)); ("packet_src_channel", e_chan (p_src p)); last]] /\
    match from_json jc_ack ack with
    | Some (AckResult res) => exists t, last = ("packet_ack_base64", t) /\ b64_dec t = Some res
    | Some (AckError err) => last = ("error", err)
    | None => False
    end.
Proof.
  intros a s ack p relayer s' r H. unfold ibc_packet_ack in H. apply bindo_ok in H as (d & Hd & H).
  assert (Ed : from_json jc_ack ack = Some d) by (destruct (from_json jc_ack ack); cbn in Hd; congruence).
  rewrite Ed. clear Ed Hd. destruct d as [res|err].
  - unfold ack_success in H. apply bindo_ok in H as (qr & _ & H). apply bindo_ok in H as (st & _ & H).
    injection H as _ <-. exists ("packet_ack_base64", b64_enc res).
    split; [unfold respond; now destruct (cs_callback st)|]. eexists. split; [reflexivity|apply b64_roundtrip].
  - unfold ack_error in H. apply bindo_ok in H as (st & _ & H). injection H as _ <-. exists ("error", err).
    split; [unfold respond; now destruct (cs_callback st)|reflexivity].
Qed.

Example C36_case : visited cfg0 w26 /\
  act cfg0 (AAck "channel-0" 1 (to_json jc_ack (AckResult (host_result [] [] 1 [""]))) "relayer") w26 <> None /\
  act cfg0 (AAck "channel-0" 1 (to_json jc_ack (AckError "failed")) "relayer") w26 <> None.
Proof. split; [apply world_visited|]. split; vm_compute; discriminate. Qed.

(** ** C37: which acknowledgement bytes are understood *)

Lemma esc_app s t : esc (s +++ t) = esc s +++ esc t.
Proof. induction s as [|x s IH]; [reflexivity|]. cbn [append esc]. now rewrite IH, sapp_assoc. Qed.

Lemma b64_val_plain x v : b64_val x = Some v -> esc_char x = String x "".
Proof.
  unfold b64_val, esc_char, between. intro H.
  destruct (N.eqb_spec (bn x) 34) as [E|]; [rewrite E in H; discriminate|].
  destruct (N.eqb_spec (bn x) 92) as [E|]; [rewrite E in H; discriminate|].
  destruct (N.eqb_spec (bn x) 8) as [E|]; [rewrite E in H; discriminate|].
  destruct (N.eqb_spec (bn x) 9) as [E|]; [rewrite E in H; discriminate|].
  destruct (N.eqb_spec (bn x) 10) as [E|]; [rewrite E in H; discriminate|].
  destruct (N.eqb_spec (bn x) 12) as [E|]; [rewrite E in H; discriminate|].
  destruct (N.eqb_spec (bn x) 13) as [E|]; [rewrite E in H; discriminate|].
  destruct (N.ltb_spec (bn x) 32) as [E|]; [|reflexivity]. exfalso.
  repeat match type of H with (if ?b then _ else _) = _ => destruct b eqn:?; [lia|] end. discriminate.
Qed.

Lemma esc_plain x s : esc_char x = String x "" -> esc s = s -> esc (String x s) = String x s.
Proof. intros H1 H2. cbn [esc]. now rewrite H1, H2. Qed.

Lemma b64_last2_plain a b r : b64_last2 a b = Some r -> esc_char a = String a "" /\ esc_char b = String b "".
Proof.
  unfold b64_last2. intro H. apply obind_some in H as (? & H1 & H). apply obind_some in H as (? & H2 & _).
  split; eapply b64_val_plain; eassumption.
Qed.
Lemma b64_last3_plain a b c r : b64_last3 a b c = Some r ->
  esc_char a = String a "" /\ esc_char b = String b "" /\ esc_char c = String c "".
Proof.
  unfold b64_last3. intro H. apply obind_some in H as (? & H1 & H). apply obind_some in H as (? & H2 & H).
  apply obind_some in H as (? & H3 & _). split; [|split]; eapply b64_val_plain; eassumption.
Qed.
Lemma b64_quad_plain a b c d r : b64_quad a b c d = Some r ->
  esc_char a = String a "" /\ esc_char b = String b "" /\ esc_char c = String c "" /\ esc_char d = String d "".
Proof.
  unfold b64_quad. intro H. apply obind_some in H as (? & H1 & H). apply obind_some in H as (? & H2 & H).
  apply obind_some in H as (? & H3 & H). apply obind_some in H as (? & H4 & _).
  repeat split; eapply b64_val_plain; eassumption.
Qed.

Lemma b64_plain n : forall s r, (String.length s <= n)%nat -> b64_dec s = Some r -> esc s = s.
Proof.
  induction n as [|n IH]; intros s r Hn H.
  - destruct s; [reflexivity|]. cbn in Hn. lia.
  - destruct s as [|a [|b [|c [|d s]]]]; cbn [b64_dec] in H; try reflexivity; try discriminate.
    + apply b64_last2_plain in H as [H1 H2]. repeat apply esc_plain; auto.
    + destruct (Ascii.eqb_spec c "=") as [->|].
      * apply b64_last2_plain in H as [H1 H2]. repeat apply esc_plain; auto.
      * apply b64_last3_plain in H as (H1 & H2 & H3). repeat apply esc_plain; auto.
    + destruct (sempty s) eqn:Es.
      * assert (s = "") as -> by (destruct s; [reflexivity|discriminate]).
        destruct (Ascii.eqb_spec c "=") as [->|].
        -- destruct (Ascii.eqb_spec d "=") as [->|]; [|discriminate].
           apply b64_last2_plain in H as [H1 H2]. repeat apply esc_plain; auto.
        -- destruct (Ascii.eqb_spec d "=") as [->|].
           ++ apply b64_last3_plain in H as (H1 & H2 & H3). repeat apply esc_plain; auto.
           ++ apply b64_quad_plain in H as (H1 & H2 & H3 & H4). repeat apply esc_plain; auto.
      * apply obind_some in H as (h & H1 & H). apply obind_some in H as (t & H2 & _).
        apply b64_quad_plain in H1 as (H3 & H4 & H5 & H6).
        assert (esc s = s) by (eapply IH; [|exact H2]; cbn in Hn; lia). repeat apply esc_plain; auto.
Qed.

Lemma b64_dec_ascii n : forall s r, (String.length s <= n)%nat -> b64_dec s = Some r -> ascii_only s = true.
Proof.
  assert (V : forall x v, b64_val x = Some v -> (bn x <? 128) = true).
  { intros x v E. unfold b64_val, between in E.
    repeat match type of E with (if ?b then _ else _) = _ => destruct b eqn:?; [lia|] end. discriminate. }
  induction n as [|n IH]; intros s r Hn H.
  - destruct s; [reflexivity|]. cbn in Hn. lia.
  - assert (A : forall x t, (bn x <? 128) = true -> ascii_only t = true -> ascii_only (String x t) = true).
    { intros x t H1 H2. cbn [ascii_only]. now rewrite H1, H2. }
    destruct s as [|a [|b [|c [|d s]]]]; cbn [b64_dec] in H; try reflexivity; try discriminate.
    + unfold b64_last2 in H. apply obind_some in H as (? & H1 & H). apply obind_some in H as (? & H2 & _).
      repeat apply A; eauto.
    + destruct (Ascii.eqb_spec c "=") as [->|]; unfold b64_last2, b64_last3 in H;
      repeat match type of H with obind _ _ = Some _ => let E := fresh in apply obind_some in H as (? & E & H) end; repeat apply A; eauto.
    + destruct (sempty s) eqn:Es.
      * assert (s = "") as -> by (destruct s; [reflexivity|discriminate]).
        destruct (Ascii.eqb_spec c "=") as [->|]; (destruct (Ascii.eqb_spec d "=") as [->|]; [|try discriminate]);
        unfold b64_last2, b64_last3, b64_quad in H;
        repeat match type of H with obind _ _ = Some _ => let E := fresh in apply obind_some in H as (? & E & H) end; repeat apply A; eauto.
      * apply obind_some in H as (h & H1 & H). apply obind_some in H as (t & H2 & _).
        unfold b64_quad in H1.
        repeat match type of H1 with obind _ _ = Some _ => let E := fresh in apply obind_some in H1 as (? & E & H1) end.
        repeat apply A; eauto. eapply IH; [|exact H2]. cbn in Hn. lia.
Qed.

Lemma ack_dec_result t : jdec jc_ack (JObj [("result", JStr t)]) = option_map AckResult (b64_dec t).
Proof.
  transitivity (option_map (fun s => match s with inl r => AckResult r | inr e => AckError e end) (option_map inl (b64_dec t) : option (string + string))).
  - reflexivity.
  - now destruct (b64_dec t).
Qed.

(** {"result":"..."}, for every base64 text, and {"error":"..."} for every
    error text. *)
Theorem C37_result : forall t res, b64_dec t = Some res ->
  from_json jc_ack ("{""result"":""" +++ t +++ """}") = Some (AckResult res).
Proof.
  intros t res H. assert (Ht : esc t = t) by (eapply b64_plain; [apply le_n|exact H]).
  assert (E : "{""result"":""" +++ t +++ """}" = jprint (JObj [("result", JStr t)])).
  { rewrite jprint_obj. cbn [jobj_tail]. unfold jprint at 1, jstr_print. rewrite Ht. cbn [append].
    rewrite (sapp_assoc t). reflexivity. }
  rewrite E. unfold from_json. rewrite jparse_print.
  - cbn [obind]. rewrite ack_dec_result. now rewrite H.
  - rewrite jwf_obj. cbn [forallb fst snd jwf]. rewrite (ascii_only_valid t); [reflexivity|]. eapply b64_dec_ascii; [apply le_n|exact H].
Qed.

Theorem C37_result_all : forall res, exists t,
  b64_dec t = Some res /\ from_json jc_ack ("{""result"":""" +++ t +++ """}") = Some (AckResult res).
Proof. intro res. exists (b64_enc res). split; [apply b64_roundtrip|]. apply C37_result, b64_roundtrip. Qed.

(** [esc]: quotes, backslashes and control characters escaped. *)
Theorem C37_error : forall err, utf8 err ->
  from_json jc_ack ("{""error"":""" +++ esc err +++ """}") = Some (AckError err).
Proof.
  intros err H.
  assert (E : "{""error"":""" +++ esc err +++ """}" = jprint (JObj [("error", JStr err)])).
  { rewrite jprint_obj. cbn [jobj_tail]. unfold jprint at 1, jstr_print. cbn [append].
    rewrite (sapp_assoc (esc err)). reflexivity. }
  rewrite E. unfold from_json. rewrite jparse_print.
  - reflexivity.
  - rewrite jwf_obj. cbn [forallb fst snd jwf]. now rewrite H.
Qed.

(** Nothing but such a document, in any JSON spelling. *)
Theorem C37_only : forall bytes d, from_json jc_ack bytes = Some d <->
  match d with
  | AckResult res => exists t, jparse bytes = Some (JObj [("result", JStr t)]) /\ b64_dec t = Some res
  | AckError err => jparse bytes = Some (JObj [("error", JStr err)])
  end.
Proof.
  intros bytes d. unfold from_json. split.
  - intro H. apply obind_some in H as (j & Hj & H). rewrite Hj. unfold jc_ack, jc_map, jc_enum in H. cbn [jdec] in H.
    destruct j as [| | |k| |l]; try discriminate.
    + unfold v_sum, v_one in H. cbn [vuntag vkeys] in H. destruct (skey_in k ["result"]);
      destruct (String.eqb _ k) in H; discriminate.
    + destruct l as [|[k j] [|]]; try discriminate. unfold v_sum, v_one in H. cbn [vuntag vkeys] in H.
      unfold skey_in in H. cbn [existsb] in H. rewrite orb_false_r in H.
      destruct (String.eqb_spec k "result") as [->|N].
      * cbn in H. destruct j; try discriminate. cbn in H. destruct (b64_dec s) as [res|] eqn:E; [|discriminate].
        injection H as <-. exists s. auto.
      * destruct (String.eqb_spec "error" k) as [<-|]; [|discriminate].
        cbn in H. destruct j; try discriminate. injection H as <-. reflexivity.
  - destruct d as [res|err].
    + intros (t & -> & H). cbn [obind].
      rewrite ack_dec_result. now rewrite H.
    + intros ->. reflexivity.
Qed.

(** Other bytes are refused: the packet stays unacknowledged. *)
Theorem C37_rejected : forall c w id n bytes relayer beh,
  (forall t, jparse bytes = Some (JObj [("result", JStr t)]) -> b64_dec t = None) ->
  (forall err, jparse bytes <> Some (JObj [("error", JStr err)])) ->
  step c (Tx (AAck id n bytes relayer) beh) w = None /\ run c [Tx (AAck id n bytes relayer) beh] w = w.
Proof.
  intros c w id n bytes relayer beh H1 H2.
  assert (E : from_json jc_ack bytes = None).
  { destruct (from_json jc_ack bytes) as [[res|err]|] eqn:E; [| |reflexivity]; apply C37_only in E.
    - destruct E as (t & E & D). apply H1 in E. congruence.
    - now apply H2 in E. }
  assert (S : step c (Tx (AAck id n bytes relayer) beh) w = None).
  { cbn [step act].
    destruct (guard (utf8_valid relayer)); [|reflexivity]. cbn [obind].
    destruct (w_chans w id) as [ce|]; [|reflexivity]. cbn [obind]. destruct (guard _); [|reflexivity]. cbn [obind].
    destruct (w_commit w id n) as [p|]; [|reflexivity]. cbn [obind]. destruct (guard _); [|reflexivity]. cbn [obind].
    destruct (w_store w) as [s|]; [|reflexivity]. cbn [obind]. unfold ibc_packet_ack. now rewrite E. }
  split; [exact S|]. unfold run. cbn [runs]. now rewrite S.
Qed.

Example C37_case : b64_dec "AQ==" = Some (b1 1) /\ b64_dec "AQ" = Some (b1 1) /\ utf8 "ABCI code: 1: error <handling> ""packet""" /\
  (* the spelling Go gives to < and > *)
  from_json jc_ack "{ ""error"" : ""\u003cabc\u003e"" }" = Some (AckError "<abc>") /\
  (* bytes that are refused *)
  jparse "{""result"":""A===""}" = Some (JObj [("result", JStr "A===")]) /\ b64_dec "A===" = None /\
  jparse "{""error"":""x"",""result"":""""}" = Some (JObj [("error", JStr "x"); ("result", JStr "")]) /\
  jparse "{""error"":""x""} x" = None /\ jparse "" = None.
Proof. repeat (split; [vm_compute; reflexivity|]). vm_compute. reflexivity. Qed.

(** ** C38: entry points that always abort *)

Definition fails {A} (o : outcome A) : Prop := match o with Ok _ => False | _ => True end.

(** For every stored state and every argument. *)
Theorem C38_entry_points : forall a s ch v p relayer id r,
  fails (ibc_channel_open a s (MOpenTry ch v)) /\ fails (ibc_channel_connect a s (MOpenConfirm ch)) /\
  fails (ibc_packet_receive s p relayer) /\ (id <> 1 -> fails (reply a s id r)).
Proof.
  intros. split; [exact I|]. split; [exact I|]. split; [exact I|]. intro H. unfold reply, SEND_QUERY_PACKET.
  destruct (N.eqb_spec id 1); [contradiction|exact I].
Qed.

(** On the chain such a transaction changes nothing, in any world. *)
Definition host_side (a : action) : Prop :=
  match a with AOpenTry _ _ _ _ _ _ | AOpenConfirm _ | ARecv _ _ => True | _ => False end.
Theorem C38_no_effect : forall c w a beh, host_side a ->
  step c (Tx a beh) w = None /\ run c [Tx a beh] w = w.
Proof.
  intros c w a beh H. assert (S : step c (Tx a beh) w = None).
  { destruct a; try (now elim H); cbn [step act].
    - now destruct (w_store w).
    - destruct (w_chans w id); [|reflexivity]. now destruct (w_store w).
    - now destruct (w_store w). }
  split; [exact S|]. unfold run. cbn [runs]. now rewrite S.
Qed.
Example C38_case : host_side (AOpenTry "channel-9" Ordered (Endpoint "icahost" "channel-1") "connection-0" "" "") /\ 2 <> 1.
Proof. split; [exact I|discriminate]. Qed.

Print Assumptions C33_ack_response.
Print Assumptions C33_timeout_response.
Print Assumptions C33_open_response.
Print Assumptions C33_ack.
Print Assumptions C33_timeout.
Print Assumptions C33_open.
Print Assumptions C33_nothing_else_calls.
Print Assumptions C34_roundtrip.
Print Assumptions C34_tag.
Print Assumptions C34_injective.
Print Assumptions C34_every_call.
Print Assumptions C35_aborts.
Print Assumptions C35_no_trace.
Print Assumptions C35_retry.
Print Assumptions C35_stays.
Print Assumptions C36_event.
Print Assumptions C36_response.
Print Assumptions C37_result.
Print Assumptions C37_result_all.
Print Assumptions C37_error.
Print Assumptions C37_only.
Print Assumptions C37_rejected.
Print Assumptions C38_entry_points.
Print Assumptions C38_no_effect.
