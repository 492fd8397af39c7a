(** * Inv: invariants of all histories. *)

From Verif Require Import Base Text Utf8 Base64 Proto ProtoFacts Schemas Json JsonCodec Types JsonTypes Store
  CosmosMsg QueryMsg Metadata Stargate PacketData Ownable Semver Contract JsonSound HostSpec HostFacts PacketFacts
  EntryFacts Chain ChainSpec Trans.
Local Open Scope string_scope.
Local Open Scope list_scope.
Local Open Scope N_scope.

(** ** Facts about logs *)

Lemma at_pkt_spec id n p : at_pkt id n p = true <-> e_chan (p_src p) = id /\ p_seq p = n.
Proof. unfold at_pkt. rewrite andb_true_iff, String.eqb_eq, N.eqb_eq. tauto. Qed.

Lemma unresolved_at l id n p : unresolved l id n = Some p -> e_chan (p_src p) = id /\ p_seq p = n.
Proof.
  induction l as [|[] l IH]; cbn; intro H; try discriminate; auto;
    destruct (at_pkt id n p0) eqn:E; try discriminate; auto.
  inversion H; subst. now apply at_pkt_spec.
Qed.

Lemma unresolved_sent l id n p : unresolved l id n = Some p ->
  exists m, sent_by l id n = Some m /\ outstanding l id n = queries_of m.
Proof.
  induction l as [|[] l IH]; cbn; intro H; try discriminate; auto;
    destruct (at_pkt id n p0) eqn:E; try discriminate; auto.
  eauto.
Qed.

Lemma unresolved_in l id n p : unresolved l id n = Some p -> exists e s m, In (LSent e s m p) l.
Proof.
  induction l as [|[] l IH]; cbn; intro H; try discriminate;
    try (destruct (IH H) as (e' & s' & m' & ?); exists e', s', m'; now right);
    destruct (at_pkt id n p0) eqn:E; try discriminate;
    try (destruct (IH H) as (e' & s' & m' & ?); exists e', s', m'; now right).
  inversion H; subst. eexists _, _, _. now left.
Qed.

Lemma chan_open_opened l id : chan_open l id = true -> exists ch, opened l id = Some ch.
Proof.
  induction l as [|[] l IH]; cbn; intro H; try discriminate; auto.
  - destruct (on_chan id ch); [eauto|auto].
  - destruct (String.eqb id0 id); [discriminate|auto].
  - destruct (String.eqb (e_chan (p_src p)) id && chan_ordered l id); [discriminate|auto].
Qed.

Lemma chan_open_not l id : opened l id = None -> chan_open l id = false.
Proof.
  intro H. destruct (chan_open l id) eqn:E; [|reflexivity].
  apply chan_open_opened in E as [ch E]. congruence.
Qed.

(** ** Packets: commitments, sequences and pending queries follow the log *)

Definition paths_of (qs : list query_request) : option (list (string * bool)) :=
  match qs with [] => None | _ => Some (sent_paths qs) end.

Record inv_pkt (w : world) : Prop := {
  ip_commit : forall id n, w_commit w id n = unresolved (w_log w) id n;
  ip_new : forall id n, w_nextseq w id <= n ->
    unresolved (w_log w) id n = None /\ outstanding (w_log w) id n = [] /\ sent_by (w_log w) id n = None;
  ip_none : w_store w = None -> w_log w = [] /\ forall id, w_chans w id = None;
  ip_pending : forall s, w_store w = Some s ->
    forall id n, st_pending s id n = paths_of (outstanding (w_log w) id n)
}.

Lemma upd_same {A} (f : string -> A) k v : upd f k v k = v.
Proof. unfold upd. now rewrite String.eqb_refl. Qed.
Lemma upd_other {A} (f : string -> A) k v k' : k <> k' -> upd f k v k' = f k'.
Proof. intro H. unfold upd. apply String.eqb_neq in H. now rewrite H. Qed.

Lemma log_calls {A} (f : list logitem -> A) cb m l :
  (forall a x l, f (LCall a x :: l) = f l) -> f (calls cb m l) = f l.
Proof. intro H. destruct cb; [apply H|reflexivity]. Qed.

Lemma trans_pkt c w w' b : base w -> inv_pkt w -> trans c w w' b -> inv_pkt w'.
Proof.
  intros B I T.
  assert (D : w_store w' <> None) by (destruct T; discriminate).
  destruct T;
    (constructor; cbn [w_commit w_log w_nextseq w_store w_chans] in *;
      [ intros i k | intros i k | intro E; now elim D | intros s0 E i k; injection E as <- ]).
  (* instantiate *)
  - apply (ip_commit _ I).
  - apply (ip_new _ I).
  - cbn. rewrite (proj1 (ip_none _ I H)). reflexivity.
  (* create *)
  - apply (ip_commit _ I).
  - apply (ip_new _ I).
  - apply (ip_pending _ I _ H).
  (* close *)
  - apply (ip_commit _ I).
  - apply (ip_new _ I).
  - apply (ip_pending _ I _ H).
  (* send *)
  - unfold upd2. cbn [unresolved]. unfold at_pkt, p. cbn [p_src p_seq e_chan].
    destruct (String.eqb id i && (n =? k)); [reflexivity|apply (ip_commit _ I)].
  - intro Hk. unfold upd in Hk. cbn [unresolved outstanding sent_by]. unfold at_pkt, p. cbn [p_src p_seq e_chan].
    destruct (String.eqb_spec id i) as [<-|Hne]; cbn [andb].
    + assert (Hneq : n =? k = false) by (apply N.eqb_neq; lia). rewrite Hneq.
      apply (ip_new _ I). subst n. lia.
    + apply (ip_new _ I). exact Hk.
  - cbn [outstanding]. unfold at_pkt, p. cbn [p_src p_seq e_chan].
    assert (Hnew := proj1 (proj2 (ip_new _ I id n (N.le_refl _)))).
    assert (Hp := ip_pending _ I _ H).
    destruct qs as [|q qs]; subst s'.
    + destruct (String.eqb_spec id i) as [<-|]; [|apply Hp]. destruct (N.eqb_spec n k) as [<-|]; [|apply Hp].
      cbn [andb]. rewrite Hp, Hnew. reflexivity.
    + cbn [st_pending set_pending set_query]. unfold upd_pending.
      destruct (String.eqb id i && (n =? k)); [reflexivity|apply Hp].
  (* callback address *)
  - apply (ip_commit _ I).
  - apply (ip_new _ I).
  - apply (ip_pending _ I _ H).
  (* nominate *)
  - apply (ip_commit _ I).
  - apply (ip_new _ I).
  - apply (ip_pending _ I _ H).
  (* accept *)
  - apply (ip_commit _ I).
  - apply (ip_new _ I).
  - apply (ip_pending _ I _ H).
  (* migrate *)
  - apply (ip_commit _ I).
  - apply (ip_new _ I).
  - apply (ip_pending _ I _ H).
  (* open ack *)
  - rewrite (log_calls (fun l => unresolved l i k)) by reflexivity. apply (ip_commit _ I).
  - rewrite (log_calls (fun l => unresolved l i k)), (log_calls (fun l => outstanding l i k)),
      (log_calls (fun l => sent_by l i k)) by reflexivity. apply (ip_new _ I).
  - rewrite (log_calls (fun l => outstanding l i k)) by reflexivity. apply (ip_pending _ I _ H).
  (* close confirm *)
  - apply (ip_commit _ I).
  - apply (ip_new _ I).
  - apply (ip_pending _ I _ H).
  (* ack *)
  - rewrite (log_calls (fun l => unresolved l i k)) by reflexivity. cbn [unresolved].
    rewrite (ip_commit _ I) in H4. apply unresolved_at in H4 as [<- <-].
    unfold upd2, at_pkt. destruct (String.eqb _ i && _); [reflexivity|apply (ip_commit _ I)].
  - rewrite (log_calls (fun l => unresolved l i k)), (log_calls (fun l => outstanding l i k)),
      (log_calls (fun l => sent_by l i k)) by reflexivity. cbn [unresolved outstanding sent_by].
    intro Hk. destruct (ip_new _ I i k Hk) as (-> & -> & ->).
    destruct (at_pkt i k p), (ack_success_bytes ack); auto.
  - rewrite (log_calls (fun l => outstanding l i k)) by reflexivity. cbn [outstanding].
    assert (Hp := ip_pending _ I _ H). unfold ack_success_bytes. rewrite H6.
    destruct d as [res|err].
    + destruct H7 as (-> & _). cbn [st_pending set_pending]. unfold upd_pending, at_pkt. rewrite andb_true_r.
      destruct (String.eqb _ i && _); [reflexivity|apply Hp].
    + destruct H7 as (-> & _). rewrite andb_false_r. apply Hp.
  (* timeout *)
  - rewrite (log_calls (fun l => unresolved l i k)) by reflexivity. cbn [unresolved].
    rewrite (ip_commit _ I) in H4. apply unresolved_at in H4 as [<- <-].
    unfold upd2, at_pkt. destruct (String.eqb _ i && _); [reflexivity|apply (ip_commit _ I)].
  - rewrite (log_calls (fun l => unresolved l i k)), (log_calls (fun l => outstanding l i k)),
      (log_calls (fun l => sent_by l i k)) by reflexivity. cbn [unresolved outstanding sent_by].
    intro Hk. destruct (ip_new _ I i k Hk) as (-> & -> & ->).
    destruct (at_pkt i k p); auto.
  - rewrite (log_calls (fun l => outstanding l i k)) by reflexivity. cbn [outstanding].
    assert (Hp := ip_pending _ I _ H). cbn [st_pending set_pending]. unfold upd_pending, at_pkt.
    destruct (String.eqb _ i && _); [reflexivity|]. destruct (is_ordered cs); apply Hp.
Qed.

(** ** Owner, callback address and options follow the log *)

Record inv_own (w : world) (s : cstore) : Prop := {
  io_owner : exists o x, st_owner s = Some o /\ ow_owner o = Some x /\ owner_of (w_log w) = Some x /\
    match nominee_of (w_log w) with
    | Some (n, e) => ow_pending o = Some n /\ ow_expiry o = e
    | None => ow_pending o = None /\ ow_expiry o = None
    end;
  io_callback : exists st, st_state s = Some st /\ cs_callback st = callback_of (w_log w);
  io_options : exists o, st_options s = Some o /\ options_of (w_log w) = Some o
}.

Ltac own :=
  match goal with
  | |- exists o x, Some _ = Some o /\ _ => eexists _, _; split; [reflexivity|]; cbn; eauto 6
  | |- exists o x, st_owner _ = Some o /\ _ => eexists _, _; split; [eassumption|]; eauto
  | |- exists st, Some _ = Some st /\ _ => eexists; split; [reflexivity|]; cbn; eauto 6
  | |- exists st, _ = Some st /\ _ => eexists; split; [eassumption|]; cbn; auto
  end.

Lemma trans_own c w w' b : (forall s, w_store w = Some s -> inv_own w s) -> trans c w w' b ->
  forall s, w_store w' = Some s -> inv_own w' s.
Proof.
  intros I T. destruct T; cbn [w_store]; intros s0 E; injection E as <-;
    try (specialize (I _ H); destruct I as [(own & x0 & O1 & O2 & O3 & O4) (st0 & S1 & S2) (o0 & P1 & P2)]).
  - constructor; cbn; own.
  - constructor; cbn; [own|own|]. exists o. split; [reflexivity|]. destruct opts as [o'|]; congruence.
  - constructor; cbn; own.
  - rewrite H4 in S1. injection S1 as <-.
    assert (Es : st_owner s' = st_owner s /\ st_state s' = st_state s /\ st_options s' = st_options s)
      by (destruct qs; subst s'; auto).
    destruct Es as (E1 & E2 & E3). constructor; rewrite ?E1, ?E2, ?E3; cbn; own.
  - constructor; cbn; own.
  - rewrite H3 in O1. injection O1 as <-. rewrite H4 in O2. injection O2 as <-. constructor; cbn; own.
  - constructor; cbn; own.
  - constructor; cbn; own.
  - rewrite H4 in S1. injection S1 as <-.
    constructor; cbn [w_log]; rewrite ?(log_calls owner_of), ?(log_calls nominee_of), ?(log_calls callback_of),
      ?(log_calls options_of) by reflexivity; cbn; own.
  - constructor; cbn; own.
  - rewrite H1 in S1. injection S1 as <-.
    assert (Es : st_owner s' = st_owner s /\ st_state s' = st_state s /\ st_options s' = st_options s)
      by (destruct d; destruct H7 as (-> & _); auto).
    destruct Es as (E1 & E2 & E3).
    constructor; rewrite ?E1, ?E2, ?E3; cbn [w_log];
      rewrite ?(log_calls owner_of), ?(log_calls nominee_of), ?(log_calls callback_of),
      ?(log_calls options_of) by reflexivity; cbn; own.
  - rewrite H1 in S1. injection S1 as <-.
    assert (Es : forall y, st_owner (set_pending (e_chan (p_src p)) (p_seq p) y
       (if is_ordered cs then set_channel (Some (close_cs cs)) s else s)) = st_owner s /\
       st_state (set_pending (e_chan (p_src p)) (p_seq p) y
       (if is_ordered cs then set_channel (Some (close_cs cs)) s else s)) = st_state s /\
       st_options (set_pending (e_chan (p_src p)) (p_seq p) y
       (if is_ordered cs then set_channel (Some (close_cs cs)) s else s)) = st_options s)
      by (intro; destruct (is_ordered cs); auto).
    destruct (Es None) as (E1 & E2 & E3).
    constructor; rewrite ?E1, ?E2, ?E3; cbn [w_log];
      rewrite ?(log_calls owner_of), ?(log_calls nominee_of), ?(log_calls callback_of),
      ?(log_calls options_of) by reflexivity; cbn; own.
Qed.

(** ** Channels *)

(** The channel ends on the chain and the log. *)
Record inv_chan (c : cfg) (w : world) : Prop := {
  ic_chan : forall id, match w_chans w id with
    | None => requested (w_log w) id = None /\ opened (w_log w) id = None
    | Some ce => (exists o, requested (w_log w) id = Some o /\
          ce_order ce = unwrap_or (oo_ordering o) Ordered /\ ce_conn ce = oo_connection o /\
          e_port (ce_cp ce) = "icahost" /\ utf8_options o /\
          (ce_state ce = CInit -> ce = init_end o)) /\
        utf8 id /\ slen id <= 64 /\ utf8 (ce_version ce) /\ utf8 (e_chan (ce_cp ce)) /\
        match ce_state ce with
        | CInit => opened (w_log w) id = None
        | COpen => opened (w_log w) id = Some (channel_of c id ce) /\ chan_open (w_log w) id = true
        | CClosed => opened (w_log w) id = Some (channel_of c id ce) /\ chan_open (w_log w) id = false
        end
    end;
  ic_pkt : forall id n p, unresolved (w_log w) id n = Some p ->
    exists ce, w_chans w id = Some ce /\ ce_state ce <> CInit /\
      p_src p = Endpoint (port c) id /\ p_dest p = ce_cp ce
}.

Definition good_address (a : api) (x : string) : Prop :=
  x <> "" /\ slen x <= 128 /\ utf8 x /\
  exists l, utf8_cps x = Some l /\ forallb (is_alnum a) l = true.

(** The recorded account and channel. *)
Definition inv_rec (c : cfg) (w : world) (s : cstore) : Prop :=
  match st_channel s with
  | None => last_opened (w_log w) = None /\ exists st, st_state s = Some st /\ cs_ica st = None
  | Some cs => exists st info ce md, st_state s = Some st /\ cs_ica st = Some info /\
      let id := ii_channel info in
      w_chans w id = Some ce /\ ce_state ce <> CInit /\
      last_opened (w_log w) = Some (cst_channel cs) /\
      cst_channel cs = channel_of c id ce /\
      (cst_status cs = StOpen /\ ce_state ce = COpen \/ cst_status cs = StClosed) /\
      ii_encoding info = Protobuf /\
      from_json jc_metadata (ce_version ce) = Some md /\ md_address md = ii_address info /\
      validate_metadata (c_api c) md (cst_channel cs) = Ok tt /\
      good_address (c_api c) (ii_address info)
  end.

Lemma validate_metadata_ok a md ch : validate_metadata a md ch = Ok tt ->
  md_version md = "ics27-1" /\ md_controller md = ch_connection ch /\ md_encoding md = Protobuf /\
  md_tx_type md = "sdk_multi_msg" /\
  (md_address md <> "" -> slen (md_address md) <= 128 /\
     exists l, utf8_cps (md_address md) = Some l /\ forallb (is_alnum a) l = true).
Proof.
  unfold validate_metadata. intro H.
  destruct (String.eqb_spec (md_version md) ICA_VERSION) as [E1|]; cbn [negb] in H; [|discriminate].
  destruct (String.eqb_spec (md_controller md) (ch_connection ch)) as [E2|]; cbn [negb] in H; [|discriminate].
  destruct (md_encoding md) eqn:E3; cbn [negb] in H; [|discriminate].
  apply bindo_ok in H as ([] & Ha & H).
  destruct (String.eqb_spec (md_tx_type md) SDK_MULTI_MSG) as [E4|]; cbn [negb] in H; [|discriminate].
  repeat split; auto.
  - destruct (sempty (md_address md)) eqn:Es; cbn [negb] in Ha.
    + apply sempty_spec in Es. congruence.
    + unfold validate_ica_address in Ha. destruct (128 <? slen (md_address md)) eqn:El; [discriminate|]. lia.
  - destruct (sempty (md_address md)) eqn:Es; cbn [negb] in Ha.
    + apply sempty_spec in Es. congruence.
    + unfold validate_ica_address in Ha. destruct (128 <? slen (md_address md)) eqn:El; [discriminate|].
      cbn [orb] in Ha. destruct (utf8_cps (md_address md)) as [l|]; [|discriminate].
      destruct (forallb (is_alnum a) l) eqn:Ef; [|discriminate]. eauto.
Qed.

Lemma channel_of_closed c id ce : channel_of c id (closed_end ce) = channel_of c id ce.
Proof. reflexivity. Qed.

Lemma on_chan_spec id ch : on_chan id ch = true <-> e_chan (ch_endpoint ch) = id.
Proof. apply String.eqb_eq. Qed.

(** Log items that do not concern channels. *)
Lemma chan_calls c w s' ns na co cb m l :
  inv_chan c (World s' (w_chans w) ns na co l) ->
  inv_chan c (World s' (w_chans w) ns na co (calls cb m l)).
Proof. destruct cb; [|auto]. intros [H1 H2]. constructor; [exact H1|exact H2]. Qed.

Lemma trans_chan c w w' b :
  inv_pkt w -> inv_chan c w ->
  (forall s, w_store w = Some s -> inv_rec c w s) ->
  (forall s, w_store w = Some s -> inv_own w s) ->
  base w -> trans c w w' b -> inv_chan c w'.
Proof.
  intros P I R O B T.
  assert (New : forall id o l, w_chans w id = None -> utf8 id -> slen id <= 64 ->
     utf8_options o -> options_of l = Some o ->
     (forall i, requested l i = requested (w_log w) i) -> (forall i, opened l i = opened (w_log w) i) ->
     (forall i, chan_open l i = chan_open (w_log w) i) -> (forall i k, unresolved l i k = unresolved (w_log w) i k) ->
     forall st ns na, unwrap_or (oo_cp_port o) "icahost" = "icahost" ->
     inv_chan c (World st (upd (w_chans w) id (Some (init_end o))) ns na (w_commit w) (LChanInit id :: l))).
  { intros id o l Hid Hu Hl Ho Hopt L1 L2 L3 L4 st ns na Hp. constructor; cbn [w_chans w_log].
    - intro i. unfold upd. cbn [requested opened chan_open]. rewrite L1, L2, L3.
      destruct (String.eqb_spec id i) as [<-|Hne]; [|apply (ic_chan _ _ I)].
      split.
      + exists o. cbn [init_end ce_order ce_conn ce_cp e_port]. repeat split; try apply Ho; auto.
      + split; [exact Hu|]. split; [exact Hl|]. split; [|split].
        * unfold utf8, init_end. cbn [ce_version]. apply to_json_utf8; [apply jc_metadata_ok|]. apply fresh_jval; apply Ho.
        * reflexivity.
        * cbn [init_end ce_state]. pose proof (ic_chan _ _ I id) as Hc. rewrite Hid in Hc. apply Hc.
    - intros i k p Hk. cbn [unresolved] in Hk. rewrite L4 in Hk.
      destruct (ic_pkt _ _ I i k p Hk) as (ce & Hce & Hr). exists ce. split; [|exact Hr].
      rewrite upd_other; [exact Hce|]. congruence. }
  assert (Close : forall id ce s l, w_store w = Some s -> w_chans w id = Some ce -> ce_state ce <> CClosed ->
     st_channel s = Some (ChannelState (channel_of c id ce) StOpen) ->
     (forall i, requested l i = requested (w_log w) i) -> (forall i, opened l i = opened (w_log w) i) ->
     (forall i, chan_open l i = chan_open (w_log w) i) -> (forall i k, unresolved l i k = unresolved (w_log w) i k) ->
     forall st ns na,
     inv_chan c (World st (upd (w_chans w) id (Some (closed_end ce))) ns na (w_commit w) (LChanClosed id :: l))).
  { intros id ce s l Hs Hce Hn Hst L1 L2 L3 L4 st ns na.
    assert (Ho : ce_state ce = COpen).
    { specialize (R _ Hs). unfold inv_rec in R. rewrite Hst in R.
      destruct R as (st0 & info & ce0 & md & _ & _ & H1 & H2 & _ & H3 & H4 & _). cbn in H3, H4.
      inversion H3 as [[E1 E2 E3 E4 E5]]. assert (ii_channel info = id) by congruence. subst id.
      rewrite H1 in Hce. injection Hce as ->. destruct H4 as [[_ H4]|H4]; [exact H4|discriminate]. }
    constructor; cbn [w_chans w_log].
    - intro i. unfold upd. cbn [requested opened chan_open]. rewrite L1, L2, L3.
      pose proof (ic_chan _ _ I i) as Hc.
      destruct (String.eqb_spec id i) as [<-|Hne]; [|exact Hc].
      rewrite Hce in Hc. destruct Hc as ((o & Q1 & Q2 & Q3 & Q4 & Q5 & _) & Q6 & Q7 & Q8 & Q9 & Hc). rewrite Ho in Hc.
      split; [exists o; repeat split; auto; try apply Q5; discriminate|].
      cbn. repeat split; auto. apply Hc.
    - intros i k p Hk. cbn [unresolved] in Hk. rewrite L4 in Hk.
      destruct (ic_pkt _ _ I i k p Hk) as (ce1 & Hce1 & Hne & Hr). unfold upd.
      destruct (String.eqb_spec id i) as [<-|]; [|eauto]. rewrite Hce1 in Hce. injection Hce as ->.
      exists (closed_end ce). split; [reflexivity|]. split; [discriminate|]. exact Hr. }
  assert (Same : forall st ns na co l,
     (forall i, requested l i = requested (w_log w) i) -> (forall i, opened l i = opened (w_log w) i) ->
     (forall i, chan_open l i = chan_open (w_log w) i) ->
     (forall i k p, unresolved l i k = Some p -> unresolved (w_log w) i k = Some p) ->
     inv_chan c (World st (w_chans w) ns na co l)).
  { intros st ns na co l L1 L2 L3 L4. constructor; cbn [w_chans w_log].
    - intro i. rewrite L1, L2, L3. apply (ic_chan _ _ I).
    - intros i k p Hk. apply L4 in Hk. apply (ic_pkt _ _ I i k p Hk). }
  destruct T.
  - destruct H5 as (F1 & F2 & F3). apply New; try assumption; try reflexivity. now apply jval_inst_options.
  - destruct H6 as (F1 & F2 & F3).
    assert (Hopts : options_of (LExecuted e sender (XCreateChannel opts) :: w_log w) = Some o).
    { cbn. destruct opts as [o'|]; [congruence|]. destruct (io_options _ _ (O _ H)) as (o1 & Q1 & Q2). congruence. }
    apply New; try assumption; try reflexivity.
    destruct opts as [o'|]; [subst; now apply jval_create_options|].
    destruct B as [_ B]. destruct (B _ H) as (_ & _ & _ & Bo). now rewrite H4 in Bo.
  - eapply Close; try eassumption; reflexivity.
  - constructor; cbn [w_chans w_log].
    + intro i. cbn [requested opened chan_open]. apply (ic_chan _ _ I).
    + intros i k p0 Hk. cbn [unresolved] in Hk. destruct (at_pkt i k p) eqn:E.
      * injection Hk as <-. apply at_pkt_spec in E as [E1 E2]. cbn in E1. subst i.
        exists ce. split; [exact H8|]. split; [congruence|]. split; reflexivity.
      * apply (ic_pkt _ _ I i k p0 Hk).
  - apply Same; auto.
  - apply Same; auto.
  - apply Same; auto.
  - apply Same; auto.
  - (* open ack *)
    assert (G : inv_chan c (World (Some (set_channel (Some (ChannelState ch StOpen))
                (set_state (Some (ContractState (Some (IcaInfo (md_address md) id (md_encoding md)))
                                    (cs_callback st))) s)))
         (upd (w_chans w) id (Some ce')) (w_nextseq w) (w_nextack w) (w_commit w) (LChanOpen ch :: w_log w))).
    { constructor; cbn [w_chans w_log].
      - intro i. unfold upd. cbn [requested opened chan_open]. unfold on_chan. cbn [ch channel_of ch_endpoint e_chan].
        pose proof (ic_chan _ _ I i) as Hc.
        destruct (String.eqb_spec id i) as [<-|Hne]; [|exact Hc].
        rewrite H2 in Hc. destruct Hc as ((o & Q1 & Q2 & Q3 & Q4 & Q5 & _) & Q6 & Q7 & Q8 & Q9 & Hc).
        split; [exists o; repeat split; auto; try apply Q5; discriminate|].
        cbn. repeat split; auto.
      - intros i k p Hk. cbn [unresolved] in Hk.
        destruct (ic_pkt _ _ I i k p Hk) as (ce1 & Hce1 & Hne & Hr). unfold upd.
        destruct (String.eqb_spec id i) as [<-|]; [|eauto]. rewrite Hce1 in H2. injection H2 as ->. congruence. }
    destruct (cs_callback st); [|exact G]. destruct G as [G1 G2]. constructor; [exact G1|exact G2].
  - eapply Close; try eassumption; reflexivity.
  - apply Same.
    + intro i. now rewrite (log_calls (fun l => requested l i)).
    + intro i. now rewrite (log_calls (fun l => opened l i)).
    + intro i. now rewrite (log_calls (fun l => chan_open l i)).
    + intros i k p0. rewrite (log_calls (fun l => unresolved l i k)) by reflexivity. cbn [unresolved].
      destruct (at_pkt i k p); [discriminate|auto].
  - (* timeout *)
    assert (Hp := H4). rewrite (ip_commit _ P) in Hp.
    destruct (ic_pkt _ _ I _ _ _ Hp) as (ce1 & Hce1 & Hne & Hsrc & Hdst).
    rewrite Hce1 in H3. injection H3 as ->.
    assert (Hat := unresolved_at _ _ _ _ Hp). destruct Hat as [Hat1 Hat2].
    assert (Hord : chan_ordered (w_log w) id = order_eqb (ce_order ce) Ordered).
    { unfold chan_ordered. pose proof (ic_chan _ _ I id) as Hc. rewrite Hce1 in Hc.
      destruct Hc as (_ & _ & _ & _ & _ & Hc). destruct (ce_state ce); [congruence| |]; destruct Hc as [-> _]; reflexivity. }
    set (W := World _ _ _ _ _ _).
    assert (G : forall st, inv_chan c (World st
         (match ce_order ce with Ordered => upd (w_chans w) id (Some (closed_end ce)) | _ => w_chans w end)
         (w_nextseq w) (w_nextack w) (upd2 (w_commit w) id n None) (LTimeout p relayer :: w_log w))).
    { intro st0. constructor; cbn [w_chans w_log].
      - intro i. cbn [requested opened chan_open]. pose proof (ic_chan _ _ I i) as Hc. rewrite Hat1.
        destruct (String.eqb_spec id i) as [<-|Hne2]; cbn [andb].
        + rewrite Hord. rewrite Hce1 in Hc. destruct (ce_order ce) eqn:Eo; cbn [order_eqb].
          * rewrite upd_same. destruct Hc as ((o & Q1 & Q2 & Q3 & Q4 & Q5 & _) & Q6 & Q7 & Q8 & Q9 & Hc).
            split; [exists o; cbn; repeat split; auto; try apply Q5; try congruence|].
            cbn. repeat split; auto. destruct (ce_state ce); [congruence| |]; apply Hc.
          * rewrite Hce1, Eo. exact Hc.
        + destruct (ce_order ce); [rewrite upd_other by exact Hne2|]; exact Hc.
      - intros i k p0 Hk. cbn [unresolved] in Hk. destruct (at_pkt i k p); [discriminate|].
        destruct (ic_pkt _ _ I i k p0 Hk) as (ce2 & Hce2 & Hn2 & Hr). destruct (ce_order ce) eqn:Eo; [|eauto].
        unfold upd. destruct (String.eqb_spec id i) as [<-|]; [|eauto]. rewrite Hce2 in Hce1. injection Hce1 as ->.
        exists (closed_end ce). split; [reflexivity|]. split; [discriminate|]. exact Hr. }
    unfold W. destruct (cs_callback st); [|apply G]. destruct (G (Some (set_pending (e_chan (p_src p)) (p_seq p) None
      (if is_ordered cs then set_channel (Some (close_cs cs)) s else s)))) as [G1 G2].
    constructor; [exact G1|exact G2].
Qed.

(** ** The recorded channel *)

Lemma jval_metadata_address md : jval jc_metadata md -> utf8 (md_address md).
Proof. destruct md. cbn. intros (H1 & H2 & H3 & H4 & H5 & H6). exact H4. Qed.

(** Unchanged recorded state. *)
Lemma rec_same c w s w' s' :
  inv_rec c w s -> st_channel s' = st_channel s ->
  (forall st, st_state s = Some st -> exists st', st_state s' = Some st' /\ cs_ica st' = cs_ica st) ->
  last_opened (w_log w') = last_opened (w_log w) ->
  (forall id ce, w_chans w id = Some ce -> ce_state ce <> CInit -> w_chans w' id = Some ce) ->
  inv_rec c w' s'.
Proof.
  unfold inv_rec. intros R Ec Es El Hw. rewrite Ec. destruct (st_channel s) as [cs|].
  - destruct R as (st & info & ce & md & R1 & R2 & R3 & R4 & R5 & R6).
    destruct (Es _ R1) as (st' & E1 & E2). exists st', info, ce, md.
    split; [exact E1|]. split; [congruence|]. split; [now apply Hw|]. split; [exact R4|].
    split; [congruence|]. exact R6.
  - destruct R as (R1 & st & R2 & R3). destruct (Es _ R2) as (st' & E1 & E2).
    split; [congruence|]. exists st'. split; congruence.
Qed.

Lemma rec_close c w s w' s' id ce cs :
  inv_rec c w s -> st_channel s = Some cs ->
  st_channel s' = Some (close_cs cs) -> st_state s' = st_state s ->
  last_opened (w_log w') = last_opened (w_log w) ->
  w_chans w id = Some ce ->
  (w_chans w' = upd (w_chans w) id (Some (closed_end ce)) \/ w_chans w' = w_chans w) ->
  inv_rec c w' s'.
Proof.
  unfold inv_rec. intros R Ecs Ec Es El Hid Hw. rewrite Ec. rewrite Ecs in R.
  destruct R as (st & info & ce0 & md & R1 & R2 & R3 & R4 & R5 & R6 & R7 & R8).
  destruct Hw as [Hw|Hw].
  - destruct (String.eqb_spec id (ii_channel info)) as [->|Hne].
    + rewrite Hid in R3. injection R3 as <-.
      exists st, info, (closed_end ce), md. rewrite Hw. split; [congruence|]. split; [exact R2|].
      split; [apply upd_same|]. split; [discriminate|]. split; [rewrite El; exact R5|].
      split; [exact R6|]. split; [right; reflexivity|]. exact R8.
    + exists st, info, ce0, md. rewrite Hw. split; [congruence|]. split; [exact R2|].
      split; [rewrite upd_other by exact Hne; exact R3|]. split; [exact R4|]. split; [rewrite El; exact R5|].
      split; [exact R6|]. split; [right; reflexivity|]. exact R8.
  - exists st, info, ce0, md. rewrite Hw. split; [congruence|]. split; [exact R2|].
    split; [exact R3|]. split; [exact R4|]. split; [rewrite El; exact R5|].
    split; [exact R6|]. split; [right; reflexivity|]. exact R8.
Qed.

Lemma trans_rec c w w' b :
  inv_pkt w -> inv_chan c w ->
  (forall s, w_store w = Some s -> inv_rec c w s) ->
  trans c w w' b -> forall s, w_store w' = Some s -> inv_rec c w' s.
Proof.
  intros P I R T.
  assert (Fresh : forall id x i ce, w_chans w id = None -> w_chans w i = Some ce ->
     upd (w_chans w) id x i = Some ce).
  { intros id x i ce H1 H2. rewrite upd_other; congruence. }
  destruct T; cbn [w_store]; intros s0 E; injection E as <-; try (specialize (R _ H)).
  - unfold inv_rec. cbn. rewrite (proj1 (ip_none _ P H)). cbn. split; [reflexivity|]. eauto.
  - apply (rec_same c w s); try reflexivity; try exact R; [eauto|]. cbn [w_chans]. destruct H6 as (F1 & _). auto.
  - apply (rec_close c w s _ _ id ce (ChannelState (channel_of c id ce) StOpen)); try reflexivity; try assumption. now left.
  - apply (rec_same c w s); try reflexivity; try exact R.
    + destruct qs; subst s'; reflexivity.
    + intros st1 E1. exists st1. destruct qs; subst s'; auto.
    + auto.
  - apply (rec_same c w s); try reflexivity; try exact R; [|auto]. intros st1 E1. eexists; split; [reflexivity|].
    cbn. congruence.
  - apply (rec_same c w s); try reflexivity; try exact R; [eauto|auto].
  - apply (rec_same c w s); try reflexivity; try exact R; [eauto|auto].
  - apply (rec_same c w s); try reflexivity; try exact R; [eauto|auto].
  - (* open ack *)
    unfold inv_rec. cbn [st_channel set_channel w_chans w_log].
    rewrite (log_calls last_opened) by reflexivity. cbn [last_opened].
    assert (V := validate_metadata_ok _ _ _ H6). destruct V as (V1 & V2 & V3 & V4 & V5).
    destruct (V5 H7) as [V6 V7].
    exists (ContractState (Some (IcaInfo (md_address md) id (md_encoding md))) (cs_callback st)),
      (IcaInfo (md_address md) id (md_encoding md)), ce', md.
    cbn [ii_channel ii_encoding ii_address cs_ica cst_channel cst_status].
    split; [reflexivity|]. split; [reflexivity|]. split; [apply upd_same|]. split; [discriminate|].
    split; [reflexivity|]. split; [reflexivity|]. split; [left; split; reflexivity|].
    split; [exact V3|]. split; [exact H5|]. split; [reflexivity|]. split; [exact H6|].
    split; [exact H7|]. split; [exact V6|]. split; [|exact V7].
    apply jval_metadata_address. eapply from_json_valid; [apply jc_metadata_sound|exact H5].
  - apply (rec_close c w s _ _ id ce (ChannelState (channel_of c id ce) StOpen)); try reflexivity; try assumption. now left.
  - apply (rec_same c w s); try exact R.
    + destruct d; destruct H7 as (-> & _); reflexivity.
    + intros st1 E1. exists st1. destruct d; destruct H7 as (-> & _); auto.
    + cbn [w_log]. now rewrite (log_calls last_opened).
    + auto.
  - (* timeout *)
    set (cf := match ce_order ce with Ordered => _ | _ => _ end).
    destruct (is_ordered cs) eqn:Eo.
    + apply (rec_close c w s _ _ id ce cs); try assumption; try reflexivity.
      * cbn [w_log]. now rewrite (log_calls last_opened).
      * cbn [w_chans]. unfold cf. destruct (ce_order ce); auto.
    + assert (R' := R). unfold inv_rec in R'. rewrite H2 in R'.
      destruct R' as (st1 & info & ce1 & md & R1 & R2 & R3 & R4 & R5 & R6 & _).
      unfold inv_rec. cbn [st_channel set_pending w_chans w_log]. rewrite H2.
      rewrite (log_calls last_opened) by reflexivity. cbn [last_opened].
      unfold inv_rec in R. rewrite H2 in R. destruct R as (st2 & info2 & ce2 & md2 & R1' & R2' & R3' & R').
      exists st2, info2, ce2, md2. split; [exact R1'|]. split; [exact R2'|]. split; [|exact R'].
      unfold cf. destruct (ce_order ce) eqn:Eoc; [|exact R3'].
      rewrite upd_other; [exact R3'|]. intro E. subst id.
      rewrite R3' in H3. injection H3 as ->. destruct R' as (_ & _ & R' & _).
      unfold is_ordered in Eo. rewrite R' in Eo. cbn in Eo. rewrite Eoc in Eo. discriminate.
Qed.

(** ** The whole invariant *)

Record Inv (c : cfg) (w : world) : Prop := {
  inv_base : base w;
  inv_pkts : inv_pkt w;
  inv_chans : inv_chan c w;
  inv_owner : forall s, w_store w = Some s -> inv_own w s;
  inv_recorded : forall s, w_store w = Some s -> inv_rec c w s
}.

Lemma trans_inv c w w' b : Inv c w -> trans c w w' b -> Inv c w'.
Proof.
  intros [B P I O R] T. constructor.
  - eapply trans_base; eassumption.
  - eapply trans_pkt; eassumption.
  - eapply trans_chan; eassumption.
  - eapply trans_own; eassumption.
  - eapply trans_rec; eassumption.
Qed.

Theorem visited_inv c w : cfg_ok c -> visited c w -> Inv c w.
Proof.
  intros Hc V. revert w V. apply visited_ind'; [exact Hc| |].
  - constructor.
    + split; [intro; cbn; lia|discriminate].
    + constructor; cbn; auto. discriminate.
    + constructor; cbn; [auto|discriminate].
    + discriminate.
    + discriminate.
  - intros. eapply trans_inv; eassumption.
Qed.
