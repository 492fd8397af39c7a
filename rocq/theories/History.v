(** * History: every history of the chain is a history of [HistorySpec]. *)

From Verif Require Import Base Text Utf8 Base64 Proto ProtoFacts Schemas Json JsonCodec Types Errors JsonTypes Store
  CosmosMsg QueryMsg Metadata Stargate PacketData Ownable Semver Contract JsonSound HostSpec HostFacts PacketFacts
  AnswerSpec AnswerFacts AnswerJson EntryFacts Chain ChainSpec Trans Inv HistorySpec.
From Coq Require Import ZifyBool ZifyN.
Local Open Scope string_scope.
Local Open Scope list_scope.
Local Open Scope N_scope.

(** ** Counters and the recorded channel follow the log *)

Definition status_of (b : bool) : channel_status := if b then StOpen else StClosed.
Definition recorded_state (l : list logitem) : option channel_state :=
  option_map (fun '(ch, b) => ChannelState ch (status_of b)) (recorded l).

Record inv_log (w : world) : Prop := {
  il_seq : forall id, w_nextseq w id = 1 + sends (w_log w) id;
  il_ack : forall id, match w_chans w id with
    | Some ce => ce_order ce = Ordered -> w_nextack w id = 1 + acks (w_log w) id
    | None => w_nextack w id = 1 + acks (w_log w) id end;
  il_rec : forall s, w_store w = Some s -> st_channel s = recorded_state (w_log w)
}.

Lemma recorded_last l : match recorded l with
  | Some (ch, _) => last_opened l = Some ch | None => last_opened l = None end.
Proof.
  induction l as [|[] l IH]; cbn; auto.
  - destruct (recorded l) as [[ch b]|]; [|auto]. destruct (on_chan id ch); auto.
  - destruct (recorded l) as [[ch b]|]; [|auto]. destruct (order_eqb (ch_order ch) Ordered); auto.
Qed.

Lemma recorded_state_some l ch b : recorded_state l = Some (ChannelState ch (status_of b)) ->
  recorded l = Some (ch, b).
Proof.
  unfold recorded_state. destruct (recorded l) as [[ch0 b0]|]; cbn; [|discriminate].
  intro H. injection H as -> H. destruct b, b0; cbn in H; congruence.
Qed.
Lemma recorded_open_eq s l : st_channel s = recorded_state l -> recorded_open s = recorded_open_in l.
Proof.
  unfold recorded_open, recorded_open_in, recorded_state. intros ->.
  destruct (recorded l) as [[ch []]|]; reflexivity.
Qed.

Ltac same_log := intros; cbn; auto.

Lemma trans_log c w w' b : Inv c w -> inv_log w -> trans c w w' b -> inv_log w'.
Proof.
  intros V I T. destruct I as [I1 I2 I3].
  assert (New : forall id o i, w_chans w id = None ->
    match upd (w_chans w) id (Some (init_end o)) i with
    | Some ce => ce_order ce = Ordered -> w_nextack w i = 1 + acks (w_log w) i
    | None => w_nextack w i = 1 + acks (w_log w) i end).
  { intros id o i Hn. unfold upd. pose proof (I2 i) as J. destruct (String.eqb_spec id i) as [<-|]; [|exact J].
    rewrite Hn in J. auto. }
  assert (Upd : forall id ce ce' i, w_chans w id = Some ce -> ce_order ce' = ce_order ce ->
    match upd (w_chans w) id (Some ce') i with
    | Some ce => ce_order ce = Ordered -> w_nextack w i = 1 + acks (w_log w) i
    | None => w_nextack w i = 1 + acks (w_log w) i end).
  { intros id ce ce' i Hn Ho. unfold upd. pose proof (I2 i) as J. destruct (String.eqb_spec id i) as [<-|]; [|exact J].
    rewrite Hn in J. rewrite Ho. auto. }
  assert (Cl : forall id ce, st_channel (CStore None None None (recorded_state (w_log w)) None None None None (fun _ _ => None))
     = Some (ChannelState (channel_of c id ce) StOpen) ->
     Some (ChannelState (channel_of c id ce) StClosed) = recorded_state (LChanClosed id :: w_log w)).
  { intros id ce Hs. cbn [st_channel] in Hs. apply (recorded_state_some _ _ true) in Hs.
    unfold recorded_state. cbn [recorded]. rewrite Hs. unfold on_chan. cbn. rewrite String.eqb_refl. reflexivity. }
  destruct T; constructor; cbn [w_nextseq w_nextack w_log w_chans w_store]; try (intros s0 E; injection E as <-);
    try (intro i).
  - apply I1.
  - cbn [acks]. apply New. apply H5.
  - rewrite (proj1 (ip_none _ (inv_pkts _ _ V) H)). reflexivity.
  - apply I1.
  - cbn [acks]. apply New. apply H6.
  - apply (I3 _ H).
  - apply I1.
  - cbn [acks]. eapply Upd; [eassumption|reflexivity].
  - cbn. apply Cl. cbn. rewrite <- (I3 _ H). assumption.
  - cbn [sends]. unfold p. cbn [p_src e_chan]. unfold upd. destruct (String.eqb_spec id i) as [<-|]; [|apply I1].
    subst n. rewrite I1. lia.
  - apply I2.
  - cbn. destruct qs; subst s'; apply (I3 _ H).
  - apply I1.
  - apply I2.
  - apply (I3 _ H).
  - apply I1.
  - apply I2.
  - apply (I3 _ H).
  - apply I1.
  - apply I2.
  - apply (I3 _ H).
  - apply I1.
  - apply I2.
  - apply (I3 _ H).
  - rewrite (log_calls (fun l => sends l i)) by reflexivity. apply I1.
  - rewrite (log_calls (fun l => acks l i)) by reflexivity. cbn [acks]. eapply Upd; [eassumption|reflexivity].
  - rewrite (log_calls recorded_state) by reflexivity. reflexivity.
  - apply I1.
  - cbn [acks]. eapply Upd; [eassumption|reflexivity].
  - cbn. apply Cl. cbn. rewrite <- (I3 _ H). assumption.
  - rewrite (log_calls (fun l => sends l i)) by reflexivity. apply I1.
  - rewrite (log_calls (fun l => acks l i)) by reflexivity. cbn [acks].
    rewrite (ip_commit _ (inv_pkts _ _ V)) in H4. apply unresolved_at in H4 as [H4 H4'].
    pose proof (I2 i) as J. rewrite H4. subst nextack. unfold upd.
    destruct (String.eqb_spec id i) as [<-|]; destruct (ce_order ce) eqn:Eo;
      repeat match goal with |- context [String.eqb ?x ?y] => destruct (String.eqb_spec x y); try contradiction end; auto.
    + rewrite H2 in *. intros _. rewrite (H5 eq_refl), (J Eo). lia.
    + rewrite H2. congruence.
  - rewrite (log_calls recorded_state) by reflexivity. cbn.
    destruct d; destruct H7 as (-> & _); apply (I3 _ H).
  - rewrite (log_calls (fun l => sends l i)) by reflexivity. apply I1.
  - rewrite (log_calls (fun l => acks l i)) by reflexivity. cbn [acks].
    destruct (ce_order ce) eqn:Eo; [|apply I2]. eapply Upd; [eassumption|]. cbn. congruence.
  - rewrite (log_calls recorded_state) by reflexivity. rewrite (I3 _ H) in H2.
    unfold recorded_state in *. cbn [recorded]. destruct (recorded (w_log w)) as [[ch b0]|] eqn:Er; [|discriminate].
    cbn [option_map] in H2. injection H2 as <-. unfold is_ordered. cbn [cst_channel].
    destruct (ch_order ch); cbn; [reflexivity|]. rewrite (I3 _ H). reflexivity.
Qed.

(** ** Packets in a history *)

Definition sent_ok (i : logitem) : Prop :=
  match i with
  | LSent _ _ m p => jval jc_packet p /\ Forall qsupported (queries_of m) /\ Forall wf_query (queries_of m)
  | _ => True
  end.

Lemma callback_quiet l m i : callback l m i -> i = [] \/ exists addr x, i = [LCall addr x].
Proof. intros [_ ->]. destruct (callback_of l); eauto. Qed.

Lemma hist_sent c l : hist c l -> Forall sent_ok l.
Proof.
  induction 1 as [|l new _ IH B]; [constructor|]. apply Forall_app. split; [|exact IH].
  destruct B as [B|B]; destruct B; 
    repeat match goal with H : callback _ _ _ |- _ => apply callback_quiet in H as [->|(? & ? & ->)] end;
    cbn [app]; repeat (apply Forall_cons; [cbn [sent_ok queries_of]; auto|]); apply Forall_nil.
Qed.

Lemma outstanding_in l id n : outstanding l id n = [] \/ exists e s m p, In (LSent e s m p) l /\
  outstanding l id n = queries_of m.
Proof.
  induction l as [|i l IH]; [now left|].
  assert (IH' : outstanding l id n = [] \/ exists e s m p, In (LSent e s m p) (i :: l) /\
    outstanding l id n = queries_of m).
  { destruct IH as [E|(e & s & m & p & Hi & E)]; [auto|]. right. exists e, s, m, p. split; [now right|exact E]. }
  destruct i; cbn [outstanding]; auto.
  - destruct (at_pkt id n p); [|auto]. right. eexists _, _, _, _. split; [now left|reflexivity].
  - destruct (at_pkt id n p && ack_success_bytes ack); auto.
  - destruct (at_pkt id n p); auto.
Qed.

Lemma hist_queries c l id n : hist c l ->
  Forall qsupported (outstanding l id n) /\ Forall wf_query (outstanding l id n).
Proof.
  intro H. apply hist_sent in H. rewrite Forall_forall in H.
  destruct (outstanding_in l id n) as [->|(e & s & m & p & Hi & ->)]; [split; constructor|].
  apply (H _ Hi).
Qed.
Lemma hist_packet c l id n p : hist c l -> unresolved l id n = Some p -> jval jc_packet p.
Proof.
  intros H U. apply hist_sent in H. rewrite Forall_forall in H.
  apply unresolved_in in U as (e & s & m & Hi). apply (H _ Hi).
Qed.

(** ** The actions of the chain are blocks *)

Lemma jval_callback m : jval jc_callback m -> jval jc_receiver m.
Proof. intro H. exact H. Qed.

Lemma calls_one o m x l : calls o m (x :: l) =
  (match o with Some addr => [LCall addr (to_json jc_receiver m)] | None => [] end ++ [x]) ++ l.
Proof. destruct o; reflexivity. Qed.
Lemma calls_two o m x y l : calls o m (x :: y :: l) =
  (match o with Some addr => [LCall addr (to_json jc_receiver m)] | None => [] end ++ [x; y]) ++ l.
Proof. destruct o; reflexivity. Qed.

(** The contract's own errors about an answer name the path of the query. *)
Definition plain_error (p : string) (e : cerr) : Prop :=
  error_text e = None \/ e = EUnknownDataType p \/ e = EEmptyResponse p.

Lemma plain_bind {A B} p (o : outcome A) (f : A -> outcome B) e :
  (forall e, o = Err e -> plain_error p e) -> (forall x e, f x = Err e -> plain_error p e) ->
  bindo o f = Err e -> plain_error p e.
Proof. intros Ho Hf. destruct o; cbn [bindo]; [apply Hf| |discriminate].
  intro E. injection E as <-. now apply Ho. Qed.

Lemma plain_of_option {A} p (o : option A) e0 e : plain_error p e0 -> of_option o e0 = Err e -> plain_error p e.
Proof. intros H. destruct o; cbn; [discriminate|]. intro E. now injection E as <-. Qed.

Lemma plain_mapo {A B} p (f : A -> outcome B) l e :
  (forall x e, f x = Err e -> plain_error p e) -> mapo f l = Err e -> plain_error p e.
Proof.
  intros Hf. revert e. induction l as [|x l IH]; intros e; cbn [mapo]; [discriminate|].
  apply plain_bind; [apply Hf|]. intros y e1. apply plain_bind; [exact IH|]. discriminate.
Qed.

Lemma plain_filter_mapo {A B} p (f : A -> option (outcome B)) l e :
  (forall x o e, f x = Some o -> o = Err e -> plain_error p e) -> filter_mapo f l = Err e -> plain_error p e.
Proof.
  intros Hf. revert e. induction l as [|x l IH]; intros e; cbn [filter_mapo]; [discriminate|].
  destruct (f x) as [o|] eqn:E; [|apply IH].
  apply plain_bind; [intros e1; now apply Hf with (x := x)|]. intros y e1. apply plain_bind; [exact IH|]. discriminate.
Qed.

Lemma plain_coin p m e : convert_to_coin m = Err e -> plain_error p e.
Proof. unfold convert_to_coin. apply plain_bind; [|discriminate]. intros e1. apply plain_of_option. now left. Qed.

Lemma plain_validator p m e : convert_to_validator m = Err e -> plain_error p e.
Proof.
  unfold convert_to_validator. cbv zeta.
  repeat (apply plain_bind; [intros ?; apply plain_of_option; now left|intros ? ?]). discriminate.
Qed.

Lemma plain_delegation p m o e : convert_to_delegation m = Some o -> o = Err e -> plain_error p e.
Proof.
  unfold convert_to_delegation. destruct (get_msg m 0); [|discriminate]. intro E. injection E as <-.
  apply plain_bind; [apply plain_coin|discriminate].
Qed.

Lemma plain_transpose {A} p (o : option (outcome A)) e :
  (forall x e, o = Some x -> x = Err e -> plain_error p e) -> otranspose o = Err e -> plain_error p e.
Proof.
  intros Ho. destruct o as [x|]; [|discriminate]. specialize (Ho x). destruct x as [x|e1|]; try discriminate.
  cbn. intro E. injection E as <-. now apply Ho.
Qed.

Ltac plain_tac :=
  repeat first
    [ match goal with |- (if ?b then _ else _) = _ -> _ => destruct b end
    | apply plain_bind; [intros ?|intros ? ?]
    | unfold pb_dec; apply plain_of_option; now left ];
  try discriminate.

Lemma response_plain p b st e : response_of p b st = Err e -> plain_error p e.
Proof.
  assert (U : Err (A := query_response) (EUnknownDataType p) = Err e -> plain_error p e)
    by (intro E; injection E as <-; right; now left).
  unfold response_of. destruct st; [discriminate|].
  destruct (starts_with _ p); [|destruct (starts_with _ p); [|destruct (starts_with _ p); [|exact U]]].
  - unfold bank_resp. plain_tac; try exact U.
    + destruct (get_msg _ 0); [apply plain_coin|discriminate].
    + apply plain_mapo. apply plain_coin.
    + destruct (get_msg _ 0); [apply plain_coin|discriminate].
  - unfold wasm_resp. plain_tac; exact U.
  - unfold staking_resp. plain_tac; try exact U.
    + apply plain_transpose. intros o e9. destruct (get_msg _ 0); cbn [option_map]; [|discriminate].
      intro E. injection E as <-. apply plain_validator.
    + apply plain_mapo. apply plain_validator.
    + apply plain_transpose. intros o e9. destruct (get_msg _ 0); cbn; [|discriminate]. apply plain_delegation.
    + apply plain_filter_mapo. intros ? ? ?. apply plain_delegation.
    + apply plain_of_option. right. now right.
Qed.

Lemma sent_path_valid qs p : In (p, false) (sent_paths qs) -> utf8 p.
Proof.
  unfold sent_paths. rewrite in_map_iff. intros (q & E & _).
  destruct q as [[]| |[]|[]| |[]|[]]; cbn in E; try discriminate E; injection E as <-; reflexivity.
Qed.

Lemma decoded_error a qs r e : (forall p b, utf8 (decode_error a p b)) ->
  result_from_response a (sent_paths qs) r = QRError e -> utf8 e.
Proof.
  intros Hd. unfold result_from_response. destruct (negb _).
  - intro E. match type of E with QRError ?x = _ => assert (e = x) as -> by congruence end. clear E.
    apply utf8_valid_app; [reflexivity|]. apply utf8_valid_app; [apply dec_valid|].
    apply utf8_valid_app; [reflexivity|apply dec_valid].
  - destruct (responses_of _ _ _) eqn:E; [discriminate|]. intro E'. injection E' as <-.
    assert (Hp := sent_path_valid qs). revert E Hp. generalize (mq_responses r) as bs. generalize (sent_paths qs) as ps.
    induction ps as [|[p st] ps IH]; intros [|b bs]; cbn [responses_of]; try discriminate.
    destruct (response_of p b st) as [x|e|] eqn:Er.
    + destruct (responses_of a ps bs) eqn:E'; [discriminate|]. intros E Hp. injection E as <-.
      apply (IH bs); [exact E'|]. intros q Hq. apply Hp. now right.
    + intros E Hp. injection E as <-. destruct st; [discriminate|].
      assert (Up : utf8 p) by (apply Hp; now left).
      destruct (response_plain _ _ _ _ Er) as [->|[->| ->]]; cbn [error_text unwrap_or];
        [apply Hd|now apply utf8_valid_app|now apply utf8_valid_app].
    + intros E _. injection E as <-. apply Hd.
Qed.

Lemma agreed c md ch : validate_metadata (c_api c) md ch = Ok tt -> md_address md <> "" ->
  agreed_version c (ch_connection ch) md.
Proof.
  intros H Hn. destruct (validate_metadata_ok _ _ _ H) as (V1 & V2 & V3 & V4 & V5).
  destruct (V5 Hn) as (V6 & l & V7 & V8). repeat split; auto. exists l. split; [exact V7|].
  apply Forall_forall. intros x Hx. rewrite forallb_forall in V8. specialize (V8 x Hx). unfold is_alnum in V8.
  unfold alphanumeric, between in *. destruct (x <? 128) eqn:E; [lia|]. right. right. right. split; [lia|exact V8].
Qed.

Lemma jval_send ms qs memo t : jval jc_execute_msg (XSendCosmosMsgs ms qs memo t) ->
  Forall wf_msg ms /\ Forall wf_query qs /\ utf8o memo.
Proof.
  intros (J1 & J2 & J3 & J4). split; [now apply jval_msgs|]. split; [now apply jval_queries|].
  destruct memo; [exact (proj1 J3)|exact I].
Qed.

Lemma packet_supported s ms qs memo addr s' p : from_cosmos_msgs s ms qs Protobuf memo addr = Ok (s', p) ->
  Forall supported ms /\ Forall qsupported qs.
Proof.
  intro H. apply from_cosmos_msgs_ok in H as (anys & F & H). split.
  - clear H. induction F as [|m x ms anys E _ IH]; constructor; auto. apply (convert_supported m addr). eauto.
  - destruct qs as [|q0 qs]; [constructor|]. destruct H as (reqs & q & F' & _).
    remember (q0 :: qs) as l. clear Heql F.
    induction F' as [|m x l reqs E _ IH]; constructor; auto. apply query_supported. eauto.
Qed.

Lemma jval_new_packet d a b a' b' n t : utf8 a -> utf8 b -> utf8 a' -> utf8 b' -> n < u64_lim -> t < u64_lim ->
  jval jc_packet (Packet d (Endpoint a b) (Endpoint a' b') n (Timeout None (Some t))).
Proof.
  intros. split; [exact I|]. split; [split; assumption|]. split; [split; assumption|]. split; [assumption|].
  split; [exact I|]. split; [assumption|discriminate].
Qed.

Lemma port_utf8 c : cfg_ok c -> utf8 (port c).
Proof. intros [H _]. apply utf8_valid_app; [reflexivity|exact H]. Qed.

Lemma jval_channel_of c id ce : cfg_ok c -> utf8 id -> utf8 (e_port (ce_cp ce)) -> utf8 (e_chan (ce_cp ce)) ->
  utf8 (ce_version ce) -> utf8 (ce_conn ce) -> jval jc_channel (channel_of c id ce).
Proof.
  intros Hc. intros. split; [split; [now apply port_utf8|assumption]|].
  split; [split; assumption|]. split; [change (jval jc_order (ce_order ce)); destruct (ce_order ce); exact I|]. split; assumption.
Qed.

Lemma hist_trans c w w' b : cfg_ok c -> Inv c w -> inv_log w -> hist c (w_log w) -> trans c w w' b ->
  exists new, block c (w_log w) new /\ w_log w' = new ++ w_log w.
Proof.
  intros Hc V L Hh T.
  assert (Own : forall s sender, w_store w = Some s -> is_owner s sender -> owner_of (w_log w) = Some sender).
  { intros s sender Hs (o & Ho & Hx). destruct (io_owner _ _ (inv_owner _ _ V _ Hs)) as (o' & x & E1 & E2 & E3 & _).
    congruence. }
  assert (Cb : forall s st, w_store w = Some s -> st_state s = Some st -> cs_callback st = callback_of (w_log w)).
  { intros s st Hs Hst. destruct (io_callback _ _ (inv_owner _ _ V _ Hs)) as (st' & E1 & E2). congruence. }
  assert (Cl : forall s id ce, w_store w = Some s -> w_chans w id = Some ce ->
     st_channel s = Some (ChannelState (channel_of c id ce) StOpen) ->
     recorded (w_log w) = Some (channel_of c id ce, true) /\ chan_open (w_log w) id = true).
  { intros s id ce Hs Hce Hst. split.
    - apply (recorded_state_some _ _ true). rewrite <- (il_rec _ L _ Hs). exact Hst.
    - pose proof (inv_recorded _ _ V _ Hs) as R. unfold inv_rec in R. rewrite Hst in R.
      destruct R as (st & info & ce0 & md & R1 & R2 & R3 & R4 & R5 & R6 & R7 & _).
      cbn [cst_channel cst_status] in *. assert (ii_channel info = id) as E.
      { inversion R6. reflexivity. }
      rewrite E in R3. rewrite Hce in R3. injection R3 as <-. destruct R7 as [[_ R7]|]; [|discriminate].
      pose proof (ic_chan _ _ (inv_chans _ _ V) id) as C. rewrite Hce, R7 in C. apply C. }
  destruct T; cbn [w_log].
  - exists [LChanInit id; LInstantiated e sender m]. split; [|reflexivity]. left.
    destruct H5 as (F1 & F2 & F3). apply B_inst; auto. apply (ip_none _ (inv_pkts _ _ V) H).
  - exists [LChanInit id; LExecuted e sender (XCreateChannel opts)]. split; [|reflexivity]. left.
    destruct H6 as (F1 & F2 & F3). apply B_create; eauto.
    + rewrite <- (recorded_open_eq s); [assumption|]. apply (il_rec _ L _ H).
    + pose proof (ic_chan _ _ (inv_chans _ _ V) id) as C. rewrite F1 in C. apply C.
  - exists [LChanClosed id; LExecuted e sender XCloseChannel]. split; [|reflexivity]. left.
    destruct (Cl _ _ _ H H3 H5) as [C1 C2].
    apply (B_close c (w_log w) e sender (channel_of c id ce)); eauto.
  - exists [LSent e sender m p; LExecuted e sender m]. split; [|reflexivity]. left.
    pose proof (inv_recorded _ _ V _ H) as R. unfold inv_rec in R.
    destruct (st_channel s) as [cs|]; [|destruct R as (_ & st' & E1 & E2); congruence].
    destruct R as (st' & info' & ce' & md & R1 & R2 & R3 & R4 & R5 & R6 & R7 & R8 & R9 & R10 & R11 & R12).
    rewrite H4 in R1. injection R1 as <-. rewrite H5 in R2. injection R2 as <-.
    fold id in R3, R6. rewrite H8 in R3. injection R3 as <-.
    pose proof (ic_chan _ _ (inv_chans _ _ V) id) as C. rewrite H8, H9 in C.
    destruct C as ((o & Q1 & Q2 & Q3 & Q4 & Q5 & _) & Q6 & Q7 & Q8 & Q9 & Q10 & Q11).
    rewrite R8 in H6.
    assert (Hts : ts = env_time e + unwrap_or t 600 * 10 ^ 9 /\ ts < u64_lim).
    { unfold plus_seconds in H7. destruct (_ <? u64_lim); [|discriminate].
      destruct (_ <? u64_lim) eqn:El in H7; [|discriminate].
      apply N.ltb_lt in El. assert (E : env_time e + unwrap_or t 600 * 1000000000 = ts) by congruence.
      change (10 ^ 9) with 1000000000. lia. }
    destruct (jval_send _ _ _ _ H2) as (J1 & J2 & J3).
    destruct (packet_supported _ _ _ _ _ _ _ H6) as (S1 & S2).
    assert (Hlen : slen (ip_data pk) < u64_lim).
    { pose proof (packet_json_len pk) as PL. unfold p in H11. cbn [p_data] in H11.
      assert (u32_lim < u64_lim) by reflexivity. lia. }
    destruct R12 as (A1 & A2 & A3 & A4).
    destruct (packet_carries _ _ _ _ _ _ _ J1 J2 A3 J3 H6 Hlen) as (anys & P1 & P2).
    assert (Hport := port_utf8 c Hc).
    apply (B_send c (w_log w) e sender ms qs memo t p (channel_of c id ce) md anys); try assumption; try reflexivity.
    + eapply Own; eassumption.
    + rewrite R5. now rewrite R6.
    + apply (agreed c md (channel_of c id ce)); [now rewrite <- R6|congruence].
    + unfold p. destruct (ce_cp ce) as [cpp cpc] eqn:Ecp. cbn in Q4, Q9. subst cpp.
      apply jval_new_packet; try assumption; [reflexivity|apply Hts].
    + unfold p. cbn [p_seq channel_of ch_endpoint e_chan]. subst n. rewrite (il_seq _ L). lia.
    + unfold p. cbn [p_src e_chan p_seq]. apply (ip_new _ (inv_pkts _ _ V)). apply N.le_refl.
    + unfold p. cbn [p_timeout]. now rewrite (proj1 Hts).
    + rewrite R10. exact P2.
  - exists [LExecuted e sender (XUpdateCallbackAddress cb)]. split; [|reflexivity]. left. apply B_callback; eauto.
  - exists [LExecuted e sender (XUpdateOwnership (TransferOwnership n x))]. split; [|reflexivity]. left.
    apply B_nominate; eauto. eapply Own; [eassumption|]. exists o. auto.
  - exists [LExecuted e sender (XUpdateOwnership AcceptOwnership)]. split; [|reflexivity]. left.
    destruct (io_owner _ _ (inv_owner _ _ V _ H)) as (o' & x & E1 & E2 & E3 & E4).
    rewrite H2 in E1. injection E1 as <-. destruct (nominee_of (w_log w)) as [[n x0]|] eqn:En.
    + destruct E4 as [E4 E5]. apply (B_accept c (w_log w) e sender x0); try assumption; congruence.
    + destruct E4. congruence.
  - exists [LMigrated]. split; [|reflexivity]. left. apply B_migrate. intro E.
    destruct (io_owner _ _ (inv_owner _ _ V _ H)) as (o' & x & E1 & E2 & E3 & E4). rewrite E in E3. discriminate.
  -
    (* open ack *)
    pose proof (ic_chan _ _ (inv_chans _ _ V) id) as C. rewrite H2, H3 in C.
    destruct C as ((o & Q1 & Q2 & Q3 & Q4 & Q5 & _) & Q6 & Q7 & Q8 & Q9 & Q10).
    rewrite (Cb _ _ H H4).
    assert (A := agreed c md ch H6 H7). assert (Hch : ch_connection ch = oo_connection o) by exact Q3.
    rewrite Hch in A. destruct A as (A1 & A2 & A3 & A).
    eexists. split; [right|rewrite (calls_one); reflexivity].
    apply (B_open_ack c (w_log w) id o ch md); try assumption; try reflexivity; [exact (conj A1 (conj A2 (conj A3 A)))|].
    rewrite A3. split; [|reflexivity]. apply jval_callback. split; [|split].
    + apply jval_channel_of; try assumption; cbn; [now rewrite Q4|rewrite Q3; apply Q5].
    + apply jval_metadata_address. eapply from_json_valid; [apply jc_metadata_sound|exact H5].
    + exact I.
  - exists [LChanClosed id]. split; [|reflexivity]. right. destruct (Cl _ _ _ H H0 H2) as [C1 C2].
    apply (B_close_confirm c (w_log w) (channel_of c id ce)); eauto.
  -
    (* acknowledgement *)
    rewrite (ip_commit _ (inv_pkts _ _ V)) in H4. pose proof (unresolved_at _ _ _ _ H4) as [U1 U2].
    pose proof (ic_chan _ _ (inv_chans _ _ V) id) as C. rewrite H2, H3 in C.
    destruct C as ((o & Q1 & Q2 & Q3 & Q4 & Q5 & _) & Q6 & Q7 & Q8 & Q9 & Q10 & Q11).
    rewrite (Cb _ _ H H1).
    assert (Hp := hist_packet _ _ _ _ _ Hh H4).
    assert (Hd : jval jc_ack d) by (eapply from_json_valid; [apply jc_ack_sound|eassumption]).
    pose proof (ip_pending _ (inv_pkts _ _ V) _ H (e_chan (p_src p)) (p_seq p)) as Pn.
    destruct (hist_queries _ _ (e_chan (p_src p)) (p_seq p) Hh) as [Hq1 Hq2].
    set (qs := outstanding (w_log w) (e_chan (p_src p)) (p_seq p)) in *.
    assert (G : exists last, ev = ack_event p last /\
      match d with
      | AckResult res => last = ("packet_ack_base64", b64_enc res) /\ reply_of qs res qr
      | AckError err => last = ("error", err) /\ qr = Some (QRError err)
      end /\ jval (jc_opt jc_query_result) qr).
    { destruct d as [res|err].
      - destruct H7 as (_ & -> & H7). exists ("packet_ack_base64", b64_enc res). split; [reflexivity|].
        rewrite Pn in H7. destruct qs as [|q qs'] eqn:Eq; cbn [paths_of] in H7.
        + subst qr. split; [split; reflexivity|exact I].
        + destruct H7 as (r & Hr & ->). apply decode_last_ok in Hr.
          assert (RS : result_spec (q :: qs') (mq_height r) (mq_responses r)
            (result_from_response (c_api c) (sent_paths (q :: qs')) r)).
          { destruct r as [h bs]. apply result_correct. rewrite Forall_forall in *. intros y Hy.
            apply query_supported. auto. }
          split; [split; [reflexivity|]|].
          * cbn [reply_of]. eexists _, _, _. split; [exact Hr|]. split; [exact RS|reflexivity].
          * split; [|match goal with |- jenc _ ?x <> _ => destruct x; discriminate end].
            eapply result_jval; [exact Hq2| |exact RS|].
            -- eapply reply_height. exact Hr.
            -- intros e0 He. eapply decoded_error; [apply (proj2 Hc)|exact He].
      - destruct H7 as (_ & -> & ->). exists ("error", err). split; [reflexivity|]. split; [split; reflexivity|].
        split; [exact Hd|discriminate]. }
    destruct G as (last & -> & G1 & G2).
    eexists. split; [right|rewrite (calls_two); reflexivity].
    apply (B_ack c (w_log w) p ack d relayer qr last); try assumption.
    + now rewrite U1, U2.
    + now rewrite U1.
    + rewrite U1, U2. unfold chan_ordered. rewrite Q10. cbn. intro Ho.
      assert (Eo : ce_order ce = Ordered) by (destruct (ce_order ce); [reflexivity|discriminate]).
      rewrite (H5 Eo). pose proof (il_ack _ L id) as LA. rewrite H2 in LA. rewrite (LA Eo). lia.
    + split; [|reflexivity]. apply jval_callback. split; [exact Hd|]. split; [exact Hp|]. split; assumption.
  -
    (* timeout *)
    rewrite (ip_commit _ (inv_pkts _ _ V)) in H4. pose proof (unresolved_at _ _ _ _ H4) as [U1 U2].
    rewrite (Cb _ _ H H1). assert (Hp := hist_packet _ _ _ _ _ Hh H4).
    eexists. split; [right|rewrite (calls_one); reflexivity].
    apply (B_timeout c (w_log w) p relayer); try assumption.
    + now rewrite U1, U2.
    + split; [|reflexivity]. apply jval_callback. split; assumption.
Qed.

Theorem visited_hist c w : cfg_ok c -> visited c w -> hist c (w_log w).
Proof.
  intros Hc V. enough (hist c (w_log w) /\ inv_log w) by tauto. revert w V.
  apply visited_ind'; [exact Hc| |].
  - split; [constructor|]. constructor; cbn; [lia|lia|discriminate].
  - intros w w' b V B [IH L] T. assert (I := visited_inv c w Hc V).
    destruct (hist_trans c w w' b Hc I L IH T) as (new & Bl & ->).
    split; [now apply hist_block|]. eapply trans_log; eassumption.
Qed.

Theorem visited_log c w : cfg_ok c -> visited c w -> inv_log w.
Proof.
  intros Hc V. revert w V. apply visited_ind'; [exact Hc| |].
  - constructor; cbn; [lia|lia|discriminate].
  - intros w w' b V B L T. eapply trans_log; [apply (visited_inv c w Hc V)|eassumption|eassumption].
Qed.
