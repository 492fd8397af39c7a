(** * PropAnswer: acknowledgements and answers to queries (C26-C32, C52). *)

From Verif Require Import Base Text Utf8 Json JsonCodec Types JsonTypes Proto ProtoFacts ProtoSound Store CosmosMsg QueryMsg Metadata PacketData Ownable Contract
  JsonSound HostSpec AnswerSpec HostFacts PacketFacts AnswerFacts AnswerHost EntryFacts Chain ChainSpec Trans Inv HistorySpec History Queries
  HistFacts Enabled Witness PropPacket.
Local Open Scope string_scope.
Local Open Scope list_scope.
Local Open Scope N_scope.

(** ** An acknowledgement in a history *)

Lemma ack_new c w id n ack relayer w' b : act c (AAck id n ack relayer) w = Some (w', b) ->
  exists p pre, w_commit w id n = Some p /\ w_log w' = pre ++ LAck p ack relayer :: w_log w.
Proof.
  intro H. cbn [act] in H. apply obind_some in H as (? & _ & H). apply obind_some in H as (ce & _ & H).
  apply obind_some in H as (? & _ & H). apply obind_some in H as (p & Hp & H). apply obind_some in H as (? & _ & H).
  apply obind_some in H as (s & _ & H). apply obind_some in H as ([s' r] & _ & H).
  apply dispatch_call_adds in H as (pre & H & _). exists p, pre. split; [exact Hp|].
  rewrite H. destruct (ce_order ce); reflexivity.
Qed.

Lemma ack_block c w id n ack relayer w' b : cfg_ok c -> visited c w ->
  act c (AAck id n ack relayer) w = Some (w', b) ->
  exists p d qr last i, w_commit w id n = Some p /\ e_chan (p_src p) = id /\ p_seq p = n /\
    from_json jc_ack ack = Some d /\
    match d with
    | AckResult res => last = ("packet_ack_base64", Base64.b64_enc res) /\ reply_of (outstanding (w_log w) id n) res qr
    | AckError err => last = ("error", err) /\ qr = Some (QRError err)
    end /\ callback (w_log w) (CbAck d p relayer qr) i /\
    w_log w' = i ++ LEvent (ack_event p last) :: LAck p ack relayer :: w_log w.
Proof.
  intros Hc V H. destruct (ack_new _ _ _ _ _ _ _ _ H) as (p & pre & Hp & El).
  destruct (act_block_call _ _ _ _ _ Hc V H) as (pre' & _ & B & El'). cbn [call_item] in B, El'. rewrite app_nil_r in B, El'.
  assert (En : pre' = pre ++ [LAck p ack relayer]).
  { rewrite El in El'. change (LAck p ack relayer :: w_log w) with ([LAck p ack relayer] ++ w_log w) in El'.
    rewrite app_assoc in El'. apply app_inv_tail in El'. now symmetry. }
  subst pre'. rewrite El'. clear El El' H.
  rewrite (ip_commit _ (inv_pkts _ _ (visited_inv c w Hc V))) in Hp |- *. pose proof (unresolved_at _ _ _ _ Hp) as [U1 U2].
  assert (K : forall l (i : logitem), pre ++ [LAck p ack relayer] = l ++ [i] -> i = LAck p ack relayer).
  { intros l i E. apply app_inj_tail in E as [_ E]. now symmetry. }
  assert (K1 : forall (i : logitem), pre ++ [LAck p ack relayer] = [i] -> i = LAck p ack relayer).
  { intros i E. now apply (K []). }
  assert (K2 : forall (i j : logitem), pre ++ [LAck p ack relayer] = [i; j] -> j = LAck p ack relayer).
  { intros i j E. now apply (K [i]). }
  remember (pre ++ [LAck p ack relayer]) as new eqn:En.
  destruct B as [B|B]; destruct B;
    try (specialize (K1 _ eq_refl); discriminate); try (specialize (K2 _ _ eq_refl); discriminate);
    try (specialize (K _ _ eq_refl); discriminate).
  clear K1 K2. assert (E := K (i ++ [LEvent (ack_event p0 last)]) (LAck p0 ack0 relayer0)).
  rewrite <- app_assoc in E. specialize (E eq_refl). injection E as -> -> ->.
  exists p, d, qr, last, i. rewrite U1, U2 in *. rewrite <- app_assoc. auto 10.
Qed.

Lemma count_in f l x : In x l -> f x = true -> (0 < count f l)%nat.
Proof.
  induction l as [|i l IH]; [intros []|]. rewrite count_cons. intros [->|Hi] Hx; [rewrite Hx; lia|].
  specialize (IH Hi Hx). lia.
Qed.
Lemma count_unique f l x y : (count f l <= 1)%nat -> In x l -> In y l -> f x = true -> f y = true -> x = y.
Proof.
  induction l as [|i l IH]; [intros _ []|]. rewrite count_cons. intros Hn [->|Hx] [->|Hy] Fx Fy; try reflexivity.
  - rewrite Fx in Hn. pose proof (count_in f l y Hy Fy). lia.
  - rewrite Fy in Hn. pose proof (count_in f l x Hx Fx). lia.
  - apply IH; try assumption. lia.
Qed.

Lemma at_pkt_refl p : at_pkt (e_chan (p_src p)) (p_seq p) p = true.
Proof. unfold at_pkt. now rewrite String.eqb_refl, N.eqb_refl. Qed.

(** A packet is sent once. *)
Lemma sent_unique c l e sd m p e' sd' m' p' : hist c l ->
  In (LSent e sd m p) l -> In (LSent e' sd' m' p') l ->
  e_chan (p_src p) = e_chan (p_src p') -> p_seq p = p_seq p' -> e = e' /\ sd = sd' /\ m = m' /\ p = p'.
Proof.
  intros Hl H1 H2 E1 E2.
  assert (Hn : (count (commits (e_chan (p_src p)) (p_seq p)) l <= 1)%nat).
  { destruct (resolved_hist c l (e_chan (p_src p)) (p_seq p) Hl) as (_ & -> & _). destruct (sent_by _ _ _); lia. }
  assert (E := count_unique _ _ _ _ Hn H1 H2).
  cbn [commits] in E. rewrite at_pkt_refl in E. rewrite E1, E2, at_pkt_refl in E.
  specialize (E eq_refl eq_refl). injection E as -> -> -> ->. auto.
Qed.

Lemma sent_queries c l e sd ms qs memo t p p' : hist c l ->
  In (LSent e sd (XSendCosmosMsgs ms qs memo t) p) l ->
  unresolved l (e_chan (p_src p)) (p_seq p) = Some p' ->
  p' = p /\ outstanding l (e_chan (p_src p)) (p_seq p) = qs.
Proof.
  intros Hl Hi Hu. split.
  - pose proof (unresolved_at _ _ _ _ Hu) as [U1 U2]. apply unresolved_in in Hu as (e' & s' & m' & Hi').
    now destruct (sent_unique _ _ _ _ _ _ _ _ _ _ Hl Hi' Hi U1 U2) as (_ & _ & _ & ->).
  - apply unresolved_sent in Hu as (m & S & ->).
    assert (Hs : exists e2 s2 p2, In (LSent e2 s2 m p2) l /\ at_pkt (e_chan (p_src p)) (p_seq p) p2 = true).
    { revert S. clear. induction l as [|i l IH]; [discriminate|].
      destruct i; cbn [sent_by]; intro S; try (destruct (IH S) as (e2 & s2 & p2 & Hi & Ha); exists e2, s2, p2; split; [now right|exact Ha]).
      destruct (at_pkt _ _ p0) eqn:E; [injection S as ->; eexists _, _, _; split; [now left|exact E]|].
      destruct (IH S) as (e2 & s2 & p2 & Hi & Ha); exists e2, s2, p2; split; [now right|exact Ha]. }
    destruct Hs as (e2 & s2 & p2 & Hi2 & Ha). apply at_pkt_eq in Ha as [A1 A2].
    now destruct (sent_unique _ _ _ _ _ _ _ _ _ _ Hl Hi2 Hi A1 A2) as (_ & _ & -> & _).
Qed.

(** ** C26: answers are matched with the queries of the packet they answer *)

(** [qr] is what the user must be told about the queries [qs] when the host
    answers with the result bytes [res]. *)
Definition told (qs : list query_request) (res : string) (qr : option query_result) : Prop :=
  match qs with
  | [] => qr = None
  | _ => exists h bs r, query_safe_response res = Some (h, bs) /\ result_spec qs h bs r /\ qr = Some r
  end.

(** The callback contract's address, as a ContractState query reports it. *)
Definition calls_back (w : world) (addr : string) : Prop :=
  exists info, state_reported w (ContractState info (Some addr)).

Theorem C26_matched : forall c w id n ack relayer w' b e sender ms qs memo t p res addr,
  cfg_ok c -> visited c w ->
  In (LSent e sender (XSendCosmosMsgs ms qs memo t) p) (w_log w) -> e_chan (p_src p) = id -> p_seq p = n ->
  act c (AAck id n ack relayer) w = Some (w', b) -> from_json jc_ack ack = Some (AckResult res) ->
  calls_back w addr ->
  exists msg ev qr, w_log w' = LCall addr msg :: LEvent ev :: LAck p ack relayer :: w_log w /\
    from_json jc_receiver msg = Some (CbAck (AckResult res) p relayer qr) /\ told qs res qr.
Proof.
  intros c w id n ack relayer w' b e sender ms qs memo t p res addr Hc V Hi <- <- H Hd [info R].
  apply (state_reported_log c w _ Hc V) in R as [_ R]. injection R as _ Hcb.
  destruct (ack_block _ _ _ _ _ _ _ _ Hc V H) as (p' & d & qr & last & i & Hp & _ & _ & Hd' & M & [J ->] & El).
  rewrite Hd in Hd'. injection Hd' as <-. destruct M as [_ M].
  rewrite (ip_commit _ (inv_pkts _ _ (visited_inv c w Hc V))) in Hp.
  destruct (sent_queries _ _ _ _ _ _ _ _ _ _ (visited_hist c w Hc V) Hi Hp) as [Ep Eq]. rewrite Eq in M.
  subst p'. rewrite <- Hcb in El. cbn [app] in El.
  eexists _, _, qr. split; [exact El|]. split; [apply json_roundtrip; [exact jc_receiver_ok|exact J]|].
  destruct qs; exact M.
Qed.

(** The same, read off the log: every callback about an acknowledgement. *)
Theorem C26_every_callback : forall c w l1 addr msg l2 d p relayer qr e sender ms qs memo t,
  cfg_ok c -> visited c w -> w_log w = l1 ++ LCall addr msg :: l2 ->
  from_json jc_receiver msg = Some (CbAck d p relayer qr) ->
  In (LSent e sender (XSendCosmosMsgs ms qs memo t) p) (w_log w) ->
  match d with AckResult res => told qs res qr | AckError err => qr = Some (QRError err) end.
Proof.
  intros c w l1 addr msg l2 d p relayer qr e sender ms qs memo t Hc V E Hm Hi.
  pose proof (visited_hist c w Hc V) as Hh.
  destruct (hist_item _ _ _ _ _ Hh E) as (l0 & n1 & n2 & H0 & B & E2).
  assert (El : w_log w = (l1 ++ LCall addr msg :: n2) ++ l0) by (rewrite E, E2, <- app_assoc; reflexivity).
  assert (G : forall p' ack rel, unresolved l0 (e_chan (p_src p')) (p_seq p') = Some p' -> p' = p ->
    n2 = [ack; rel] -> outstanding l0 (e_chan (p_src p)) (p_seq p) = qs).
  { intros p' ack rel U -> _. pose proof U as U'. apply unresolved_in in U' as (e1 & s1 & m1 & I1).
    assert (I1' : In (LSent e1 s1 m1 p) (w_log w)) by (rewrite El; apply in_app_iff; now right).
    destruct (sent_unique _ _ _ _ _ _ _ _ _ _ Hh I1' Hi eq_refl eq_refl) as (-> & -> & -> & _).
    now destruct (sent_queries _ _ _ _ _ _ _ _ _ _ H0 I1 U) as [_ ->]. }
  block_cases B; match goal with K : LCall _ _ = LCall _ _ |- _ => injection K as -> <- end;
    rewrite json_roundtrip in Hm by first [exact jc_receiver_ok|assumption]; try discriminate.
  injection Hm as -> -> -> ->.
  match goal with U : unresolved l0 _ _ = Some p |- _ => specialize (G p _ _ U eq_refl eq_refl) end.
  destruct d as [res|err].
  - match goal with M : _ /\ reply_of _ _ _ |- _ => destruct M as [_ M]; rewrite G in M end. destruct qs; assumption.
  - tauto.
Qed.

(** The result bytes of a host that executed the messages, with responses
    [resps], and then answered the queries with [bs] at height [h]. *)
Definition query_response_bytes (h : N) (bs : list string) : string :=
  pb_encode h_query_safe_response [tn h; map VStr bs].
Definition host_result (legacy resps : list (string * string)) (h : N) (bs : list string) : string :=
  pb_encode h_tx_msg_data
    [map (fun x => VMsg [ts (fst x); ts (snd x)]) legacy;
     map (fun x => VMsg [ts (fst x); ts (snd x)])
       (resps ++ [("/ibc.applications.interchain_accounts.host.v1.MsgModuleQuerySafeResponse", query_response_bytes h bs)])].

Lemma pairs_ok l : Forall (fun x => utf8 (fst x)) l ->
  forallb (val_ok (KMsg [s_ 1; b_ 2])) (map (fun x : string * string => VMsg [ts (fst x); ts (snd x)]) l) = true.
Proof.
  intro H. apply (all_ok _ (fun x => utf8 (fst x))); [|exact H]. intros [a b0] Ha. cbn [fst] in Ha.
  unfold ts, s_, b_. unfold utf8 in *. cbn [fst snd val_ok slots_ok slot_ok]. now rewrite Ha.
Qed.

Lemma host_result_read legacy resps h bs :
  Forall (fun x => utf8 (fst x)) legacy -> Forall (fun x => utf8 (fst x)) resps -> u64 h ->
  slen (host_result legacy resps h bs) < u64_lim -> slen (query_response_bytes h bs) < u64_lim ->
  query_safe_response (host_result legacy resps h bs) = Some (h, bs).
Proof.
  intros H1 H2 Hh L1 L2. unfold query_safe_response. unfold host_result in *. rewrite pb_roundtrip; [|reflexivity| |exact L1].
  - rewrite <- map_rev, rev_app_distr. cbn [rev app map fst snd]. unfold ts. unfold query_response_bytes in *.
    rewrite pb_roundtrip; [|reflexivity| |exact L2].
    + unfold tn. rewrite (Base.omap_map rd_text VStr (fun x => x)) by reflexivity. now rewrite map_id.
    + unfold msg_ok, h_query_safe_response, tn, u_, bs_. cbn [slots_ok slot_ok val_ok].
      rewrite u64_ltb by exact Hh. cbn [andb]. rewrite andb_true_r.
      clear. induction bs; [reflexivity|assumption].
  - unfold msg_ok, h_tx_msg_data, ms_. cbn [slots_ok slot_ok]. unfold h_any.
    rewrite pairs_ok by exact H1. rewrite pairs_ok; [reflexivity|].
    apply Forall_app. split; [exact H2|]. repeat constructor.
Qed.

Definition res26 : string :=
  host_result [] [("/cosmos.bank.v1beta1.MsgSendResponse", "")] 77 [answer_bytes (HABalance ("uatom", 5))].
Definition w26 : world := world_of with_query.
Definition p26 : packet :=
  match w_commit w26 "channel-0" 1 with Some p => p | None => Packet "" (Endpoint "" "") (Endpoint "" "") 0 (Timeout None None) end.
Definition w26' : world :=
  match act cfg0 (AAck "channel-0" 1 (to_json jc_ack (AckResult res26)) "relayer") w26 with Some (w', _) => w' | None => w26 end.
Example C26_case : visited cfg0 w26 /\
  In (LSent (Env 11 2000 "controller") "owner" (send0 [bank0] [query0]) p26) (w_log w26) /\
  e_chan (p_src p26) = "channel-0" /\ p_seq p26 = 1 /\
  act cfg0 (AAck "channel-0" 1 (to_json jc_ack (AckResult res26)) "relayer") w26 = Some (w26', true) /\
  calls_back w26 "cb" /\
  match w_log w26' with
  | LCall _ msg :: _ => from_json jc_receiver msg =
      Some (CbAck (AckResult res26) p26 "relayer" (Some (QRSuccess 77 [RBank (RBalance (Coin "uatom" 5))])))
  | _ => False
  end.
Proof.
  split; [apply world_visited|]. split; [vm_compute; left; reflexivity|].
  split; [vm_compute; reflexivity|]. split; [vm_compute; reflexivity|]. split; [vm_compute; reflexivity|]. split.
  - eexists. apply state_reported_by. vm_compute. reflexivity.
  - vm_compute. reflexivity.
Qed.

(** ** C27: every answer has the type of its query *)

Theorem C27_type : forall q path data sg b r,
  query_to_protobuf q = Ok (path, data, sg) -> response_of path b sg = Ok r -> answers_kind q r.
Proof.
  intros q path data sg b r H1 H2. apply (answer_kind q b). rewrite <- (answer_correct _ _ _ _ _ H1), H2. reflexivity.
Qed.

Theorem C27_stargate : forall path data path' data' sg b,
  query_to_protobuf (QStargate path data) = Ok (path', data', sg) ->
  path' = path /\ data' = data /\ response_of path' b sg = Ok (RStargate b path).
Proof. intros path data path' data' sg b H. injection H as <- <- <-. auto. Qed.

(** In every callback. *)
Theorem C27_callback_types : forall c w l1 addr msg l2 d p relayer h rs e sender ms qs memo t,
  cfg_ok c -> visited c w -> w_log w = l1 ++ LCall addr msg :: l2 ->
  from_json jc_receiver msg = Some (CbAck d p relayer (Some (QRSuccess h rs))) ->
  In (LSent e sender (XSendCosmosMsgs ms qs memo t) p) (w_log w) ->
  Forall2 answers_kind qs rs.
Proof.
  intros c w l1 addr msg l2 d p relayer h rs e sender ms qs memo t Hc V E Hm Hi.
  pose proof (C26_every_callback _ _ _ _ _ _ _ _ _ _ _ _ _ _ _ _ Hc V E Hm Hi) as T.
  destruct d as [res|err]; [|discriminate]. destruct qs as [|q qs]; [discriminate|].
  destruct T as (h' & bs & r & _ & [(rs' & Hl & F & ->)|(_ & e' & ->)] & Er); [|discriminate].
  injection Er as -> ->. revert bs Hl F. generalize (q :: qs) as l. clear.
  intros l bs Hl. revert bs Hl rs'. induction l as [|q l IH]; intros [|b bs] Hl rs F; try discriminate; cbn [combine] in F.
  - inversion F. constructor.
  - inversion F as [|? x ? rs2 Fx F2]; subst. constructor; [now apply (answer_kind q b)|].
    apply (IH bs); [now injection Hl|exact F2].
Qed.
Example C27_case : exists path data, query_to_protobuf query0 = Ok (path, data, false) /\
  response_of path (answer_bytes (HABalance ("uatom", 5))) false = Ok (RBank (RBalance (Coin "uatom" 5))).
Proof. eexists _, _. split; [reflexivity| vm_compute; reflexivity]. Qed.

(** ** C28: answers decode to what the host encoded *)

Theorem C28_decoded : forall q a path data sg,
  fits q a -> wf_answer a -> slen (answer_bytes a) < u64_lim -> query_to_protobuf q = Ok (path, data, sg) ->
  exists r, response_of path (answer_bytes a) sg = Ok r /\ shows q a r.
Proof.
  intros q a path data sg F W L H. destruct (answer_shown q a F W L) as (r & A & S). exists r. split; [|exact S].
  apply to_opt_ok. now rewrite (answer_correct _ _ _ _ _ H).
Qed.

(** A host that answers each query with the encoding of a fitting answer, or
    a Stargate query with any bytes, makes the user see exactly those answers. *)
Definition answered (q : query_request) (b : string) : Prop :=
  match q with
  | QStargate _ _ => True
  | _ => exists a, fits q a /\ wf_answer a /\ slen (answer_bytes a) < u64_lim /\ b = answer_bytes a
  end.
Definition seen (q : query_request) (b : string) (r : query_response) : Prop :=
  match q with
  | QStargate path _ => r = RStargate b path
  | _ => forall a, fits q a -> wf_answer a -> b = answer_bytes a -> shows q a r
  end.

Lemma answered_seen q b : answered q b -> exists r, answer q b = Some r /\ seen q b r.
Proof.
  assert (G : forall q, (exists a, fits q a /\ wf_answer a /\ slen (answer_bytes a) < u64_lim /\ b = answer_bytes a) ->
    exists r, answer q b = Some r /\ forall a, fits q a -> wf_answer a -> b = answer_bytes a -> shows q a r).
  { clear q. intros q (a & F & W & L & ->). destruct (answer_shown q a F W L) as (r & A & S).
    exists r. split; [exact A|]. intros a' F' W' E. destruct (answer_shown q a' F' W') as (r' & A' & S'); [now rewrite <- E|].
    rewrite <- E in A'. congruence. }
  destruct q; try exact (G _). intros _. eexists; split; reflexivity.
Qed.

Lemma combine_answers qs bs : Forall2 answered qs bs ->
  exists rs, Forall2 (fun qb x => answer (fst qb) (snd qb) = Some x /\ seen (fst qb) (snd qb) x) (combine qs bs) rs.
Proof.
  induction 1 as [|q b qs bs A _ (rs & IH)]; [exists []; constructor|].
  apply answered_seen in A as (r & A). exists (r :: rs). constructor; assumption.
Qed.

Theorem C28_callback_shows : forall c w l1 addr msg l2 res p relayer qr e sender ms qs memo t legacy resps h bs,
  cfg_ok c -> visited c w -> w_log w = l1 ++ LCall addr msg :: l2 ->
  from_json jc_receiver msg = Some (CbAck (AckResult res) p relayer qr) ->
  In (LSent e sender (XSendCosmosMsgs ms qs memo t) p) (w_log w) -> qs <> [] ->
  res = host_result legacy resps h bs ->
  Forall (fun x => utf8 (fst x)) legacy -> Forall (fun x => utf8 (fst x)) resps -> u64 h ->
  slen res < u64_lim -> slen (query_response_bytes h bs) < u64_lim ->
  Forall2 answered qs bs ->
  exists rs, qr = Some (QRSuccess h rs) /\ length rs = length qs /\
    Forall2 (fun qb r => seen (fst qb) (snd qb) r) (combine qs bs) rs.
Proof.
  intros c w l1 addr msg l2 res p relayer qr e sender ms qs memo t legacy resps h bs Hc V E Hm Hi Hq -> W1 W2 Hh L1 L2 A.
  pose proof (C26_every_callback _ _ _ _ _ _ _ _ _ _ _ _ _ _ _ _ Hc V E Hm Hi) as T. cbn iota in T.
  destruct qs as [|q qs]; [congruence|]. unfold told in T. rewrite host_result_read in T by assumption.
  destruct T as (h' & bs' & r & Er & R & ->). injection Er as <- <-.
  destruct (combine_answers _ _ A) as (rs & FA). pose proof (Forall2_len _ _ _ A) as Hl.
  destruct R as [(rs' & Hl' & F & ->)|(N & _)].
  - assert (rs' = rs).
    { revert F FA. generalize (combine (q :: qs) bs). clear. intros l F. revert rs. induction F as [|x y l rs' Fx _ IH]; intros rs FA.
      - now inversion FA.
      - inversion FA as [|? z ? rs2 [F1 _] F2]; subst. f_equal; [congruence|now apply IH]. }
    subst rs'. exists rs. split; [reflexivity|]. split.
    + rewrite <- (Forall2_len _ _ _ FA), combine_length, <- Hl. lia.
    + revert FA. generalize (combine (q :: qs) bs). clear. induction 1; constructor; tauto.
  - exfalso. destruct N as [[N _]|[_ N]]; [congruence|]. revert N FA. generalize (combine (q :: qs) bs). clear.
    intros l N. revert rs. induction N as [x l Hx|x l _ IH]; intros rs FA; inversion FA as [|? ? ? ? [F1 _] F2]; subst; [congruence|eauto].
Qed.
Example C28_case : exists msg l2, w_log w26' = [] ++ LCall "cb" msg :: l2 /\
  (exists qr, from_json jc_receiver msg = Some (CbAck (AckResult res26) p26 "relayer" qr)) /\
  Forall2 answered [query0] [answer_bytes (HABalance ("uatom", 5))] /\
  slen res26 < u64_lim.
Proof.
  eexists _, _. split; [vm_compute; reflexivity|]. split; [eexists; vm_compute; reflexivity|]. split; [| vm_compute; reflexivity].
  constructor; [|constructor]. exists (HABalance ("uatom", 5)). repeat split; vm_compute; reflexivity.
Qed.

(** ** C29: query results are all or nothing *)

(** For all lists of paths and of answers. *)
Theorem C29_any_paths : forall a paths h bs rs h',
  result_from_response a paths (MqsResponse h bs) = QRSuccess h' rs <->
  h' = h /\ length bs = length paths /\
  Forall2 (fun pb r => response_of (fst (fst pb)) (snd pb) (snd (fst pb)) = Ok r) (combine paths bs) rs.
Proof.
  intros a paths h bs rs h'. unfold result_from_response. cbn [mq_height mq_responses].
  destruct (Nat.eqb_spec (length paths) (length bs)) as [El|El]; cbn [negb];
    [|split; [discriminate|intros (_ & E & _); congruence]].
  assert (G : forall rs, responses_of a paths bs = inl rs <->
    Forall2 (fun pb r => response_of (fst (fst pb)) (snd pb) (snd (fst pb)) = Ok r) (combine paths bs) rs).
  { clear rs h h'. revert bs El. induction paths as [|[p sg] ps IH]; intros [|b bs] El rs; try discriminate; cbn [responses_of combine].
    - split; [intro E; injection E as <-; constructor|intro F; inversion F; reflexivity].
    - injection El as El. specialize (IH bs El). split.
      + destruct (response_of p b sg) as [x| |] eqn:Ex; try discriminate.
        destruct (responses_of a ps bs) as [xs|] eqn:Exs; [|discriminate]. intro E. injection E as <-.
        constructor; [exact Ex|now apply IH].
      + intro F. inversion F as [|? x ? xs Fx F2]; subst. cbn [fst snd] in Fx. rewrite Fx.
        apply IH in F2. now rewrite F2. }
  split.
  - destruct (responses_of a paths bs) as [l|] eqn:E; [|discriminate]. intro H. injection H as <- <-.
    split; [reflexivity|]. split; [now symmetry|]. now apply G.
  - intros (-> & _ & F). apply G in F. now rewrite F.
Qed.

(** In every callback for a packet sent with queries: [Success] with the
    host's height if there is one answer per query and each is acceptable,
    [Error] otherwise. *)
Theorem C29_callback : forall c w l1 addr msg l2 res p relayer qr e sender ms qs memo t,
  cfg_ok c -> visited c w -> w_log w = l1 ++ LCall addr msg :: l2 ->
  from_json jc_receiver msg = Some (CbAck (AckResult res) p relayer qr) ->
  In (LSent e sender (XSendCosmosMsgs ms qs memo t) p) (w_log w) -> qs <> [] ->
  exists h bs, query_safe_response res = Some (h, bs) /\
    (forall h' rs, qr = Some (QRSuccess h' rs) <->
       h' = h /\ length bs = length qs /\
       Forall2 (fun qb x => answer (fst qb) (snd qb) = Some x) (combine qs bs) rs) /\
    ((exists rs, qr = Some (QRSuccess h rs)) \/ exists err, qr = Some (QRError err)) /\
    (length bs <> length qs -> qr = Some (QRError (wrong_count qs bs))).
Proof.
  intros c w l1 addr msg l2 res p relayer qr e sender ms qs memo t Hc V E Hm Hi Hq.
  pose proof (C26_every_callback _ _ _ _ _ _ _ _ _ _ _ _ _ _ _ _ Hc V E Hm Hi) as T. cbn iota in T.
  destruct qs as [|q qs]; [congruence|]. destruct T as (h & bs & r & Er & R & ->). exists h, bs.
  split; [exact Er|]. revert R. generalize (q :: qs) as l. clear. intros l R.
  destruct R as [(rs & Hl & F & ->)|(N & err & ->)].
  - split; [|split; [left; now exists rs|congruence]]. intros h' rs'. split.
    + intro H. injection H as <- <-. auto.
    + intros (-> & _ & F'). do 2 f_equal. clear Hl. revert rs F rs' F'. induction (combine l bs) as [|x y IH]; intros rs F rs' F';
        inversion F; inversion F'; subst; [reflexivity|]. f_equal; [congruence|now apply IH].
  - split; [|split; [right; now exists err|intro Hn; destruct N as [[_ ->]|[N _]]; [reflexivity|congruence]]]. intros h' rs'. split; [discriminate|]. intros (_ & Hl & F). exfalso.
    destruct N as [[N _]|[_ N]]; [congruence|]. clear Hl. revert N rs' F. induction 1; intros rs' F; inversion F; subst; [congruence|eauto].
Qed.

(** The acknowledgement is processed in either case: an acknowledgement of an
    outstanding packet that core IBC lets through is refused by the contract
    only if it is no acknowledgement at all, or if the packet was sent with
    queries and no query answer can be found in its result bytes. *)
Definition readable (qs : list query_request) (ack : string) : Prop :=
  match from_json jc_ack ack with
  | Some (AckResult res) => qs = [] \/ query_safe_response res <> None
  | Some (AckError _) => True
  | None => False
  end.

Lemma state_some c w s : cfg_ok c -> visited c w -> w_store w = Some s -> exists st, st_state s = Some st.
Proof. intros Hc V Hs. destruct (io_callback _ _ (inv_owner _ _ (visited_inv c w Hc V) _ Hs)) as (st & E & _). eauto. Qed.

Lemma call_works r w : (exists addr m, r_msgs r = [SubMsg (callback_cosmos_msg m addr) None]) \/ r_msgs r = [] ->
  exists w' b, dispatch_call r w = Some (w', b).
Proof.
  unfold dispatch_call. intros [(addr & m & ->)| ->]; cbn [sm_msg sm_reply callback_cosmos_msg]; eauto.
Qed.

Theorem C29_C54_ack_accepted : forall c w id n ack relayer e sender ms qs memo t p ce,
  cfg_ok c -> visited c w -> utf8 relayer ->
  In (LSent e sender (XSendCosmosMsgs ms qs memo t) p) (w_log w) -> w_commit w id n = Some p ->
  w_chans w id = Some ce -> ce_state ce = COpen -> (ce_order ce = Ordered -> n = w_nextack w id) ->
  ((exists w' b, act c (AAck id n ack relayer) w = Some (w', b)) <-> readable qs ack).
Proof.
  intros c w id n ack relayer e sender ms qs memo t p ce Hc V Hr Hi Hp Hce Ho Hn.
  pose proof Hp as Hu. rewrite (ip_commit _ (inv_pkts _ _ (visited_inv c w Hc V))) in Hu.
  destruct (unresolved_at _ _ _ _ Hu) as [U1 U2].
  assert (Hl : w_log w <> []) by (intro E; rewrite E in Hi; destruct Hi).
  destruct (store_some c w Hc V Hl) as [s Hs]. destruct (state_some c w s Hc V Hs) as [st Hst].
  assert (Pn := ip_pending _ (inv_pkts _ _ (visited_inv c w Hc V)) _ Hs (e_chan (p_src p)) (p_seq p)).
  assert (Hu' := Hu). rewrite <- U1, <- U2 in Hu'.
  destruct (sent_queries _ _ _ _ _ _ _ _ _ _ (visited_hist c w Hc V) Hi Hu') as [_ Eq]. rewrite Eq in Pn. clear Eq Hu'.
  cbn [act]. rewrite Hr. cbn [guard obind]. rewrite Hce. cbn [obind]. rewrite Ho. cbn [guard obind]. rewrite Hp. cbn [obind].
  assert (Eg : match ce_order ce with Ordered => n =? w_nextack w id | Unordered => true end = true).
  { destruct (ce_order ce); [|reflexivity]. apply N.eqb_eq, Hn. reflexivity. }
  rewrite Eg. cbn [guard obind]. rewrite Hs. cbn [obind]. unfold ibc_packet_ack, readable.
  destruct (from_json jc_ack ack) as [d|]; cbn [of_option bindo ok_of obind];
    [|split; [intros (? & ? & E); discriminate|intros []]].
  destruct d as [res|err].
  - unfold ack_success. rewrite Pn. destruct qs as [|q qs]; cbn [paths_of option_map otranspose bindo].
    + cbn [set_pending st_state]. rewrite Hst. cbn [load bindo ok_of obind].
      split; [now left|]. intros _. apply call_works. unfold respond. destruct (cs_callback st) as [addr|]; [left|now right].
      eexists _, _. reflexivity.
    + pose proof (decode_last res) as D.
      destruct (query_safe_response res) as [[h bs]|].
      * cbn [option_map] in D. apply to_opt_ok in D. rewrite D. cbn [bindo otranspose].
        cbn [set_pending st_state]. rewrite Hst. cbn [load bindo ok_of obind].
        split; [now right|]. intros _. apply call_works. unfold respond. destruct (cs_callback st) as [addr|]; [left|now right].
        eexists _, _. reflexivity.
      * cbn [option_map] in D. destruct (decode_resp_last (AckResult res)); try discriminate D; cbn;
          (split; [intros (? & ? & E); discriminate|intros [E|E]; congruence]).
  - unfold ack_error. rewrite Hst. cbn [load bindo ok_of obind]. split; [intros _; exact I|]. intros _.
    apply call_works. unfold respond. destruct (cs_callback st) as [addr|]; [left|now right]. eexists _, _. reflexivity.
Qed.

Lemma opened_last l id ch : opened l id = Some ch -> last_opened l <> None.
Proof. induction l as [|i l IH]; [discriminate|]. destruct i; cbn [opened last_opened]; auto. discriminate. Qed.

(** A timeout of an outstanding packet is never refused. *)
Theorem C54_timeout_accepted : forall c w id n relayer p,
  cfg_ok c -> visited c w -> utf8 relayer -> w_commit w id n = Some p ->
  exists w' b, act c (ATimeout id n relayer) w = Some (w', b).
Proof.
  intros c w id n relayer p Hc V Hr Hp.
  pose proof Hp as Hu. rewrite (ip_commit _ (inv_pkts _ _ (visited_inv c w Hc V))) in Hu.
  destruct (ic_pkt _ _ (inv_chans _ _ (visited_inv c w Hc V)) _ _ _ Hu) as (ce & Hce & Hne & _ & _).
  pose proof (ic_chan _ _ (inv_chans _ _ (visited_inv c w Hc V)) id) as C. rewrite Hce in C.
  assert (Hop : last_opened (w_log w) <> None).
  { destruct C as (_ & _ & _ & _ & _ & C). destruct (ce_state ce); [congruence| |]; destruct C as [C _];
      eapply opened_last; exact C. }
  assert (Hl : w_log w <> []) by (intro E; rewrite E in Hop; now apply Hop).
  destruct (store_some c w Hc V Hl) as [s Hs]. destruct (state_some c w s Hc V Hs) as [st Hst].
  assert (R := inv_recorded _ _ (visited_inv c w Hc V) _ Hs). unfold inv_rec in R.
  destruct (st_channel s) as [cs|] eqn:Hcs; [|destruct R; congruence].
  cbn [act]. rewrite Hr. cbn [guard obind]. rewrite Hce, Hp, Hs. cbn [obind]. unfold ibc_packet_timeout. rewrite Hcs.
  cbn [load bindo]. cbv zeta. unfold timeout_callback.
  assert (E : st_state (if is_ordered cs then set_channel (Some (close_cs cs)) s else s) = Some st)
    by (destruct (is_ordered cs); exact Hst).
  change (load (Some cs)) with (Ok cs). cbn [bindo]. rewrite E. change (load (Some st)) with (Ok st). cbn [bindo]. destruct (cs_callback st) as [addr|]; cbn [ok_of obind]; apply call_works; [left|now right].
  eexists _, _. reflexivity.
Qed.
Example C29_C54_case : visited cfg0 w26 /\
  In (LSent (Env 11 2000 "controller") "owner" (send0 [bank0] [query0]) p26) (w_log w26) /\
  w_commit w26 "channel-0" 1 = Some p26 /\
  (exists ce, w_chans w26 "channel-0" = Some ce /\ ce_state ce = COpen /\ ce_order ce = Unordered) /\
  (* too many answers *)
  readable [query0] (to_json jc_ack (AckResult (host_result [] [] 1 [""; ""]))) /\
  (* nothing to read *)
  ~ readable [query0] (to_json jc_ack (AckResult "")).
Proof.
  split; [apply world_visited|]. split; [vm_compute; left; reflexivity|]. split; [vm_compute; reflexivity|].
  split; [eexists; vm_compute; repeat split|]. split.
  - unfold readable. rewrite json_roundtrip by (exact jc_ack_ok || (vm_compute; reflexivity)). right. vm_compute. discriminate.
  - unfold readable. rewrite json_roundtrip by (exact jc_ack_ok || (vm_compute; reflexivity)). intros [E|E]; [discriminate|]. apply E. reflexivity.
Qed.

(** ** C30: query_result only for packets with queries *)

(** Not so: an error acknowledgement of a packet without queries comes with a
    query_result. *)
Definition s30 : world := world_of (unordered_open ++ [exec "owner" (send0 [bank0] []) ""]).
Definition p30 : packet := match w_commit s30 "channel-0" 1 with Some p => p | None => p26 end.
Definition w30 : world :=
  world_of (unordered_open ++ [exec "owner" (send0 [bank0] []) ""; ack "channel-0" 1 (AckError "ABCI code: 5")]).

Theorem C30_only_with_queries_refuted : exists c w e sender ms memo t p l1 addr msg l2 d relayer r,
  cfg_ok c /\ visited c w /\ In (LSent e sender (XSendCosmosMsgs ms [] memo t) p) (w_log w) /\
  w_log w = l1 ++ LCall addr msg :: l2 /\
  from_json jc_receiver msg = Some (CbAck d p relayer (Some r)).
Proof.
  exists cfg0, w30. eexists _, _, _, _, _, p30, [], _, _, _, _, _, _.
  split; [exact cfg0_ok|]. split; [apply world_visited|].
  split; [vm_compute; right; right; right; left; reflexivity|].
  split; [vm_compute; reflexivity|]. vm_compute. reflexivity.
Qed.

(** On success it is present iff the packet was sent with queries; with an
    error acknowledgement it is always present, and repeats the error. *)
Theorem C30_success_partial : forall c w l1 addr msg l2 d p relayer qr e sender ms qs memo t,
  cfg_ok c -> visited c w -> w_log w = l1 ++ LCall addr msg :: l2 ->
  from_json jc_receiver msg = Some (CbAck d p relayer qr) ->
  In (LSent e sender (XSendCosmosMsgs ms qs memo t) p) (w_log w) ->
  match d with
  | AckResult _ => qr = None <-> qs = []
  | AckError err => qr = Some (QRError err)
  end.
Proof.
  intros c w l1 addr msg l2 d p relayer qr e sender ms qs memo t Hc V E Hm Hi.
  pose proof (C26_every_callback _ _ _ _ _ _ _ _ _ _ _ _ _ _ _ _ Hc V E Hm Hi) as T.
  destruct d as [res|err]; [|exact T]. destruct qs as [|q qs].
  - cbn [told] in T. subst qr. tauto.
  - destruct T as (h & bs & r & _ & _ & ->). split; discriminate.
Qed.

(** A callback of each kind: success with queries, error without. *)
Definition w30s : world := world_of (with_query ++ [ack "channel-0" 1 (AckResult (host_result [] [] 1 [""]))]).
Example C30_case :
  (exists msg l res relayer r e sender ms memo t, visited cfg0 w30s /\ w_log w30s = LCall "cb" msg :: l /\
     from_json jc_receiver msg = Some (CbAck (AckResult res) p26 relayer (Some r)) /\
     In (LSent e sender (XSendCosmosMsgs ms [query0] memo t) p26) (w_log w30s)) /\
  (exists msg l err relayer e sender ms memo t, visited cfg0 w30 /\ w_log w30 = LCall "cb" msg :: l /\
     from_json jc_receiver msg = Some (CbAck (AckError err) p30 relayer (Some (QRError err))) /\
     In (LSent e sender (XSendCosmosMsgs ms [] memo t) p30) (w_log w30)).
Proof.
  split.
  - eexists _, _, _, _, _, _, _, _, _, _. split; [apply world_visited|]. split; [vm_compute; reflexivity|].
    split; [vm_compute; reflexivity|]. vm_compute. right; right; right; left. reflexivity.
  - eexists _, _, _, _, _, _, _, _, _. split; [apply world_visited|]. split; [vm_compute; reflexivity|].
    split; [vm_compute; reflexivity|]. vm_compute. right; right; right; left. reflexivity.
Qed.

(** ** C31: query bookkeeping is cleaned up *)

(** Not so: after an error acknowledgement the record stays. *)
Definition w31 : world := world_of (with_query ++ [ack "channel-0" 1 (AckError "ABCI code: 5")]).

Theorem C31_cleaned_up_refuted : exists c w s p ack relayer,
  cfg_ok c /\ visited c w /\ w_store w = Some s /\ In (LAck p ack relayer) (w_log w) /\
  w_commit w (e_chan (p_src p)) (p_seq p) = None /\ st_pending s (e_chan (p_src p)) (p_seq p) <> None.
Proof.
  exists cfg0, w31, (match w_store w31 with Some s => s | None => empty_store end), p26. eexists _, _.
  split; [exact cfg0_ok|]. split; [apply world_visited|]. split; [vm_compute; reflexivity|].
  split; [vm_compute; right; right; left; reflexivity|]. split; [vm_compute; reflexivity|]. vm_compute. discriminate.
Qed.

(** A record belongs to a packet sent with queries that is outstanding or was
    acknowledged with an error; none survives a success or a timeout. *)
Lemma outstanding_stays l1 l2 id n : count (commits id n) l1 = 0%nat -> outstanding l2 id n = [] ->
  outstanding (l1 ++ l2) id n = [].
Proof.
  intros H1 H2. induction l1 as [|i l1 IH]; [exact H2|]. rewrite count_cons in H1.
  assert (Hi : commits id n i = false) by (destruct (commits id n i); [lia|reflexivity]).
  rewrite Hi in H1. specialize (IH H1). destruct i; cbn [app outstanding]; try exact IH.
  - cbn [commits] in Hi. now rewrite Hi.
  - now destruct (_ && _)%bool.
  - now destruct (at_pkt id n p).
Qed.
Lemma count_app f l1 l2 : count f (l1 ++ l2) = (count f l1 + count f l2)%nat.
Proof. unfold count. now rewrite filter_app, app_length. Qed.

Lemma outstanding_sent l id n : outstanding l id n <> [] -> exists e sender ms qs memo t p,
  In (LSent e sender (XSendCosmosMsgs ms qs memo t) p) l /\ at_pkt id n p = true /\ outstanding l id n = qs.
Proof.
  induction l as [|i l IH]; [now intro H|]. intro H.
  assert (IH' : outstanding l id n <> [] -> exists e sender ms qs memo t p,
    In (LSent e sender (XSendCosmosMsgs ms qs memo t) p) (i :: l) /\ at_pkt id n p = true /\ outstanding l id n = qs).
  { intro H'. destruct (IH H') as (e1 & s1 & m1 & q1 & o1 & t1 & p1 & I1 & I2).
    eexists _, _, _, _, _, _, _. split; [right; exact I1|exact I2]. }
  clear IH. destruct i; cbn [outstanding] in *; auto.
  - destruct (at_pkt id n p) eqn:Ea; [|auto].
    destruct m; try (now destruct H). eexists _, _, _, _, _, _, _. split; [left; reflexivity|]. split; [exact Ea|reflexivity].
  - destruct (at_pkt id n p && ack_success_bytes ack); [now destruct H|auto].
  - destruct (at_pkt id n p); [now destruct H|auto].
Qed.

Theorem C31_success_and_timeout_partial : forall c w s id n,
  cfg_ok c -> visited c w -> w_store w = Some s -> st_pending s id n <> None ->
  exists e sender ms qs memo t p, In (LSent e sender (XSendCosmosMsgs ms qs memo t) p) (w_log w) /\
    e_chan (p_src p) = id /\ p_seq p = n /\ qs <> [] /\
    (forall relayer, ~ In (LTimeout p relayer) (w_log w)) /\
    (forall ack relayer res, In (LAck p ack relayer) (w_log w) -> from_json jc_ack ack <> Some (AckResult res)).
Proof.
  intros c w s id n Hc V Hs Hp. rewrite (ip_pending _ (inv_pkts _ _ (visited_inv c w Hc V)) _ Hs) in Hp.
  assert (Hq : outstanding (w_log w) id n <> []) by (intro E; now rewrite E in Hp). clear Hp Hs.
  destruct (outstanding_sent (w_log w) id n Hq) as (e & sd & ms & qs & memo & t & p & I1 & I2 & I3).
  rewrite I3 in Hq. rename Hq into Hqs. assert (Hq := Hqs). rewrite <- I3 in Hq. apply at_pkt_eq in I2 as [<- <-].
  exists e, sd, ms, qs, memo, t, p. split; [exact I1|]. split; [reflexivity|]. split; [reflexivity|]. split; [exact Hqs|].
  assert (G : forall x, In x (w_log w) ->
    resolves (e_chan (p_src p)) (p_seq p) x = true ->
    (forall l, outstanding (x :: l) (e_chan (p_src p)) (p_seq p) = []) -> False).
  { intros x Hx Hr Hall. apply in_split in Hx as (l1 & l2 & El).
    destruct (C45_only_own_packets c w l1 x l2 _ _ Hc V El (or_introl Hr)) as (p' & e' & s' & m' & Hi' & E1 & E2 & _).
    apply Hq. rewrite El. apply outstanding_stays; [|apply Hall].
    destruct (C45_resolved_once c w (e_chan (p_src p)) (p_seq p) Hc V) as (_ & _ & Hn). rewrite El, count_app, count_cons in Hn.
    assert (0 < count (commits (e_chan (p_src p)) (p_seq p)) l2)%nat.
    { apply (count_in _ _ _ Hi'). cbn [commits]. unfold at_pkt. now rewrite E1, E2, String.eqb_refl, N.eqb_refl. }
    lia. }
  split.
  - intros relayer H. apply (G _ H); cbn [outstanding resolves]; intros; now rewrite at_pkt_refl.
  - intros ack relayer res H E.
    assert (Es : ack_success_bytes ack = true) by (unfold ack_success_bytes; now rewrite E).
    apply (G _ H); cbn [outstanding resolves]; intros; now rewrite at_pkt_refl, ?Es.
Qed.
Example C31_case : exists s, w_store w26 = Some s /\ st_pending s "channel-0" 1 <> None.
Proof.
  exists (match w_store w26 with Some s => s | None => empty_store end).
  split; [vm_compute; reflexivity|]. vm_compute. discriminate.
Qed.

(** ** C32: the scratch entry never leaks *)

Theorem C32_no_scratch : forall c w s, cfg_ok c -> visited c w -> w_store w = Some s -> st_query s = None.
Proof. intros c w s Hc V Hs. now destruct (visited_base c w Hc V) as [_ B]; destruct (B s Hs) as (_ & _ & E & _). Qed.

(** gRPC paths of the queries, from the Cosmos SDK and wasmd. *)
Definition grpc_path (q : query_request) : string :=
  match q with
  | QStargate path _ => path
  | QBank (QBalance _ _) => "/cosmos.bank.v1beta1.Query/Balance"
  | QBank (QAllBalances _) => "/cosmos.bank.v1beta1.Query/AllBalances"
  | QBank (QDenomMetadata _) => "/cosmos.bank.v1beta1.Query/DenomMetadata"
  | QBank (QAllDenomMetadata _) => "/cosmos.bank.v1beta1.Query/DenomsMetadata"
  | QBank (QSupply _) => "/cosmos.bank.v1beta1.Query/SupplyOf"
  | QWasm (QContractInfo _) => "/cosmwasm.wasm.v1.Query/ContractInfo"
  | QWasm (QRaw _ _) => "/cosmwasm.wasm.v1.Query/RawContractState"
  | QWasm (QSmart _ _) => "/cosmwasm.wasm.v1.Query/SmartContractState"
  | QStaking (QValidator _) => "/cosmos.staking.v1beta1.Query/Validator"
  | QStaking QAllValidators => "/cosmos.staking.v1beta1.Query/Validators"
  | QStaking (QDelegation _ _) => "/cosmos.staking.v1beta1.Query/Delegation"
  | QStaking (QAllDelegations _) => "/cosmos.staking.v1beta1.Query/DelegatorDelegations"
  | QStaking QBondedDenom => "/cosmos.staking.v1beta1.Query/Params"
  | _ => ""
  end.
Definition stargate (q : query_request) : bool := match q with QStargate _ _ => true | _ => false end.
Definition query_paths (qs : list query_request) : list (string * bool) := map (fun q => (grpc_path q, stargate q)) qs.

Lemma sent_paths_eq qs : Forall qsupported qs -> sent_paths qs = query_paths qs.
Proof.
  intro H. apply map_ext_in. intros q Hq. rewrite Forall_forall in H. specialize (H q Hq).
  destruct q as [[]| |[]| | | |[]]; try contradiction H; reflexivity.
Qed.

Theorem C32_records : forall c w s id n ps,
  cfg_ok c -> visited c w -> w_store w = Some s -> st_pending s id n = Some ps ->
  exists e sender ms qs memo t p, In (LSent e sender (XSendCosmosMsgs ms qs memo t) p) (w_log w) /\
    e_chan (p_src p) = id /\ p_seq p = n /\ ps = query_paths qs.
Proof.
  intros c w s id n ps Hc V Hs Hp. rewrite (ip_pending _ (inv_pkts _ _ (visited_inv c w Hc V)) _ Hs) in Hp.
  destruct (outstanding_sent (w_log w) id n) as (e & sd & ms & qs & memo & t & p & I1 & I2 & I3);
    [intro E; rewrite E in Hp; discriminate|].
  exists e, sd, ms, qs, memo, t, p. apply at_pkt_eq in I2 as [E1 E2]. split; [exact I1|]. split; [exact E1|]. split; [exact E2|].
  rewrite <- sent_paths_eq by (rewrite <- I3; now apply (hist_queries c _ _ _ (visited_hist c w Hc V))).
  rewrite I3 in Hp. destruct qs as [|q qs]; [discriminate|]. cbn [paths_of] in Hp. now injection Hp as <-.
Qed.

(** Right after the transaction that sends a packet the queries recorded for
    it are its own. *)
Theorem C32_sent_recorded : forall c w h tm sender raw x ok w' b ms qs memo t e sd m p s',
  cfg_ok c -> visited c w -> act c (AExecute h tm sender raw x ok) w = Some (w', b) ->
  from_json jc_execute_msg raw = Some (XSendCosmosMsgs ms qs memo t) ->
  w_log w' = LSent e sd m p :: LExecuted (Env h tm (c_self c)) sender (XSendCosmosMsgs ms qs memo t) :: w_log w ->
  w_store w' = Some s' ->
  st_pending s' (e_chan (p_src p)) (p_seq p) = match qs with [] => None | _ => Some (query_paths qs) end.
Proof.
  intros c w h tm sender raw x ok w' b ms qs memo t e sd m p s' Hc V H Em El Hs.
  destruct (send_act _ _ _ _ _ _ _ _ _ _ _ _ _ _ Hc V H Em)
    as (s0 & info & s1 & pk & ce & s2 & _ & _ & _ & _ & _ & _ & _ & _ & _ & _ & _ & _ & Ew). cbv zeta in *.
  assert (Em' : m = XSendCosmosMsgs ms qs memo t).
  { rewrite Ew in El. cbn [w_log] in El. now injection El as _ _ <- _. }
  assert (V' := visited_act _ _ _ _ _ V H). assert (Hh := visited_hist c w' Hc V').
  rewrite (ip_pending _ (inv_pkts _ _ (visited_inv c w' Hc V')) _ Hs).
  assert (Eo : outstanding (w_log w') (e_chan (p_src p)) (p_seq p) = qs).
  { rewrite El. cbn [outstanding]. rewrite at_pkt_refl, Em'. reflexivity. }
  assert (Q := proj1 (hist_queries c _ (e_chan (p_src p)) (p_seq p) Hh)). rewrite Eo in Q |- *.
  destruct qs as [|q qs]; [reflexivity|]. cbn [paths_of]. now rewrite sent_paths_eq by exact Q.
Qed.
Example C32_case : exists s, w_store w26 = Some s /\ st_pending s "channel-0" 1 = Some (query_paths [query0]).
Proof.
  exists (match w_store w26 with Some s => s | None => empty_store end). split; vm_compute; reflexivity.
Qed.

(** ** C29, the text for a missing answer *)

(** An empty answer to a question for the bonded denomination carries no
    parameters.  If the answers before it are acceptable, the user is told so,
    whatever comes after it and whatever the libraries' error texts are. *)
Theorem C29_no_params : forall a h qs1 qs2 bs1 bs2,
  Forall qsupported qs1 -> Forall2 (fun q b => exists x, answer q b = Some x) qs1 bs1 ->
  length bs2 = length qs2 ->
  result_from_response a (query_paths (qs1 ++ QStaking QBondedDenom :: qs2)) (MqsResponse h (bs1 ++ "" :: bs2)) =
  QRError "empty response: /cosmos.staking.v1beta1.Query/Params".
Proof.
  intros a h qs1 qs2 bs1 bs2 Hs A Hl. unfold result_from_response. cbn [mq_responses mq_height].
  pose proof (Forall2_len _ _ _ A) as Hl1.
  replace (Nat.eqb _ _) with true
    by (symmetry; apply Nat.eqb_eq; unfold query_paths; rewrite map_length, !app_length; cbn [length]; lia).
  cbn [negb].
  assert (G : responses_of a (query_paths (qs1 ++ QStaking QBondedDenom :: qs2)) (bs1 ++ "" :: bs2) =
              inr "empty response: /cosmos.staking.v1beta1.Query/Params"); [|now rewrite G].
  clear Hl Hl1. revert Hs. induction A as [|q b qs1 bs1 (x & Hx) A IH]; intro Hs; [reflexivity|].
  inversion Hs as [|? ? Hq Hs']; subst. specialize (IH Hs').
  cbn [app query_paths map responses_of]. unfold query_paths in IH.
  assert (E : exists d, query_to_protobuf q = Ok (grpc_path q, d, stargate q))
    by (clear - Hq; destruct q as [[]| |[]| | | |[]]; try contradiction Hq; eexists; reflexivity).
  destruct E as (d & E). assert (Ac := answer_correct _ _ _ _ b E). rewrite Hx in Ac. apply to_opt_ok in Ac.
  rewrite Ac, IH. reflexivity.
Qed.
Example C29_no_params_case : exists x, answer query0 (answer_bytes (HABalance ("uatom", 5))) = Some x /\ qsupported query0.
Proof. eexists. split; [vm_compute; reflexivity|exact I]. Qed.

(** ** C52: validator commission rates *)

(** Not so.  The validator takes 5 percent; the callback reports a rate of
    5 * 10^16. *)
Definition v52 : host_validator :=
  HostValidator "cosmosvaloper1x" None false 3 1000 1000 ("moniker", "", "", "", "") 0 (0, 0)
    (5 * 10 ^ 16) (10 ^ 17) (10 ^ 16) (0, 0) 1 0 [].
Definition res52 : string := host_result [] [] 77 [answer_bytes (HAValidator v52)].
Definition w52 : world :=
  world_of (unordered_open ++ [exec "owner" (send0 [] [QStaking (QValidator "cosmosvaloper1x")]) "";
                               ack "channel-0" 1 (AckResult res52)]).

Lemma v52_ok : wf_hvalidator v52.
Proof.
  unfold wf_hvalidator, v52, wf_htime, u64, u32, utf8.
  cbn [hv_description hv_operator hv_pubkey hv_status hv_unbonding_height hv_unbonding_time hv_rate hv_max_rate
       hv_max_change hv_update_time hv_on_hold hv_ids fst snd wf_hany].
  repeat match goal with |- _ /\ _ => split end;
    match goal with |- _ <= _ => apply N.leb_le; vm_compute; reflexivity | |- True => exact I | |- Forall _ _ => constructor
    | |- _ => vm_compute; reflexivity end.
Qed.

Theorem C52_rates_exact_refuted : exists c w e sender ms a memo t p l1 addr msg l2 legacy resps h v relayer x,
  cfg_ok c /\ visited c w /\
  In (LSent e sender (XSendCosmosMsgs ms [QStaking (QValidator a)] memo t) p) (w_log w) /\
  w_log w = l1 ++ LCall addr msg :: l2 /\ wf_hvalidator v /\
  from_json jc_receiver msg = Some (CbAck (AckResult (host_result legacy resps h [answer_bytes (HAValidator v)]))
    p relayer (Some (QRSuccess h [RStaking (RValidator (Some x))]))) /\
  ~ rates_exact v x.
Proof.
  exists cfg0, w52. eexists _, _, _, _, _, _, _, [], _, _, _, [], [], 77, v52, _, _.
  split; [exact cfg0_ok|]. split; [apply world_visited|].
  split; [vm_compute; right; right; right; left; reflexivity|].
  split; [vm_compute; reflexivity|]. split; [exact v52_ok|].
  split; [vm_compute; reflexivity|]. intros [E _]. vm_compute in E. discriminate.
Qed.

(** What is reported is always the true rate times 10^18. *)
Definition scaled (v : host_validator) (x : validator) : Prop :=
  v_address x = hv_operator v /\ v_commission x = hv_rate v * 10 ^ 18 /\
  v_max_commission x = hv_max_rate v * 10 ^ 18 /\ v_max_change_rate x = hv_max_change v * 10 ^ 18.

Theorem C52_scaled_partial : forall a v path data sg,
  wf_hvalidator v -> slen (answer_bytes (HAValidator v)) < u64_lim ->
  query_to_protobuf (QStaking (QValidator a)) = Ok (path, data, sg) ->
  exists x, response_of path (answer_bytes (HAValidator v)) sg = Ok (RStaking (RValidator (Some x))) /\ scaled v x /\
    (rates_exact v x <-> hv_rate v = 0 /\ hv_max_rate v = 0 /\ hv_max_change v = 0).
Proof.
  intros a v path data sg W L H. exists (scaled_validator v).
  split; [apply to_opt_ok; rewrite (answer_correct _ _ _ _ _ H); now apply validator_rates|].
  split; [repeat split|]. unfold rates_exact, scaled_validator. cbn [v_commission v_max_commission v_max_change_rate].
  assert (1 < 10 ^ 18) by reflexivity. split.
  - intros (E1 & E2 & E3). nia.
  - intros (-> & -> & ->). auto.
Qed.

Theorem C52_all_scaled_partial : forall vs page path data sg,
  Forall wf_hvalidator vs -> wf_hpage page -> slen (answer_bytes (HAValidators vs page)) < u64_lim ->
  query_to_protobuf (QStaking QAllValidators) = Ok (path, data, sg) ->
  exists xs, response_of path (answer_bytes (HAValidators vs page)) sg = Ok (RStaking (RAllValidators xs)) /\
    Forall2 scaled vs xs.
Proof.
  intros vs page path data sg W1 W2 L H. exists (map scaled_validator vs). split.
  - apply to_opt_ok. rewrite (answer_correct _ _ _ _ _ H). cbn [answer_bytes] in *. unfold answer. rtb.
    + rewrite (omap_w w_validator rd_validator scaled_validator wf_hvalidator) by (assumption || apply rd_validator_w).
      reflexivity.
    + assert (X := w_page_ok _ W2). unfold msg_ok, ms_, m_. cbn [slots_ok]. rewrite X. cbn [slot_ok].
      rewrite (all_ok w_validator wf_hvalidator) by (assumption || apply w_validator_ok). reflexivity.
  - clear. induction vs; constructor; [repeat split|assumption].
Qed.
Example C52_case : wf_hvalidator v52 /\ hv_rate v52 <> 0 /\ slen (answer_bytes (HAValidator v52)) < u64_lim.
Proof. split; [exact v52_ok|]. split; [discriminate| vm_compute; reflexivity]. Qed.

Print Assumptions C26_matched.
Print Assumptions C26_every_callback.
Print Assumptions C27_type.
Print Assumptions C27_stargate.
Print Assumptions C27_callback_types.
Print Assumptions C28_decoded.
Print Assumptions C28_callback_shows.
Print Assumptions C29_any_paths.
Print Assumptions C29_callback.
Print Assumptions C29_no_params.
Print Assumptions C29_C54_ack_accepted.
Print Assumptions C54_timeout_accepted.
Print Assumptions C30_only_with_queries_refuted.
Print Assumptions C30_success_partial.
Print Assumptions C31_cleaned_up_refuted.
Print Assumptions C31_success_and_timeout_partial.
Print Assumptions C32_no_scratch.
Print Assumptions C32_records.
Print Assumptions C32_sent_recorded.
Print Assumptions C52_rates_exact_refuted.
Print Assumptions C52_scaled_partial.
Print Assumptions C52_all_scaled_partial.
