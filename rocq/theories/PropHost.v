(** * PropHost: both chains together.

    C72-C79: what the owner can rely on when the chain at the other end of the
    connection behaves as ibc-go's does ([Host.v]).  Every theorem speaks about
    all systems [reached], that is about every order in which the contract's
    users, the relayers and the host may act, with any delay. *)

From Verif Require Import Base Utf8 Proto Json JsonCodec Types JsonTypes Store Contract HostSpec AnswerSpec Chain ChainSpec
  Trans Inv HistorySpec History HistFacts Queries PropChannel PropPacket PropFlow PropAnswer PropCallback Host HostInv Witness HostReach.
From Coq Require Import ZifyBool ZifyN.
Local Open Scope string_scope.
Local Open Scope list_scope.
Local Open Scope N_scope.

(** ** C72: the account does only what the owner asked for, and does it once *)

(** Whatever the account ran was asked for, in one request, by the sender who
    owned the contract at that time: the messages and queries of that request
    and nothing else, every one of them (raw ones included) signed by the
    account the host gave to the channel. *)
Theorem C72_only_requested : forall c k s hid p account anys res answers,
  cfg_ok c -> reached c k s -> In (Ran hid p account anys res answers) (h_log (y_h s)) ->
  exists l1 e sender ms qs memo t l2 hc,
    w_log (y_w s) = l1 ++ LSent e sender (XSendCosmosMsgs ms qs memo t) p :: l2 /\
    owner_of l2 = Some sender /\
    host_packet (p_data p) = Some (anys, unwrap_or memo "") /\ packet_spec account ms qs anys /\
    Forall (fun x => signer_of k (fst x) (snd x) = Some account) anys /\
    h_chans (y_h s) hid = Some hc /\ hc_account hc = account /\ hc_cp hc = p_src p.
Proof.
  intros c k s hid p account anys res answers Hc R Hi. pose proof (reached_inv c k s Hc R) as I.
  destruct (si_hs _ _ _ I _ (si_h _ _ _ I)) as [Hh _].
  destruct (hi_item _ _ _ Hh _ Hi) as (hc & ack & Hch & _ & Hd & Hsrc & _ & _ & Ok & Ha). cbn [item_hid item_pkt] in *.
  destruct (lk_sent _ _ _ (si_link _ _ _ I) _ Hi) as (e & sd & m & Hs). cbn [item_pkt] in Hs.
  destruct (sent_item c _ _ _ _ _ Hc (si_w _ _ _ I) Hs) as
    (l1 & l2 & ms & qs & memo & t & ch & md & anys' & -> & El & Ow & _ & Op & S1 & S2 & Md & _ & Hp & Sp).
  destruct Ok as ((memo' & Hp') & Sg & _). rewrite Hp in Hp'. injection Hp' as <- <-.
  destruct (lk_open _ _ _ (si_link _ _ _ I) _ _ Op) as (hc' & Hc1 & Hc2 & Hc3 & _).
  rewrite <- S2, Hd, Hch in Hc1. injection Hc1 as <-.
  destruct (hi_chan _ _ _ Hh _ _ Hch) as (id & md' & _ & Md' & Ad). rewrite Hc3, Md in Md'. injection Md' as <-.
  exists l1, e, sd, ms, qs, memo, t, (LExecuted e sd (XSendCosmosMsgs ms qs memo t) :: l2), hc.
  split; [exact El|]. split; [exact Ow|]. split; [exact Hp|]. subst account. rewrite <- Ad. split; [exact Sp|].
  split; [|repeat split; congruence].
  eapply Forall_impl; [|exact Sg]. intros [u b] G. unfold signed_by in G. cbn [fst snd] in *.
  destruct (signer_of k u b) as [a|]; [|discriminate]. apply String.eqb_eq in G. congruence.
Qed.

Lemma received_app hid l1 l2 : received hid (l1 ++ l2) = received hid l1 ++ received hid l2.
Proof.
  induction l1 as [|i l IH]; [reflexivity|]. cbn [app received]. rewrite IH. now destruct (String.eqb (item_hid i) hid).
Qed.

(** No packet is handled twice, by execution or refusal. *)
Theorem C72_once : forall c k s l1 i l2 j,
  cfg_ok c -> reached c k s -> h_log (y_h s) = l1 ++ i :: l2 -> In j (l1 ++ l2) -> item_pkt j <> item_pkt i.
Proof.
  intros c k s l1 i l2 j Hc R E Hj Eq. pose proof (reached_inv c k s Hc R) as I.
  destruct (si_hs _ _ _ I _ (si_h _ _ _ I)) as [Hh _].
  assert (Ii : In i (h_log (y_h s))) by (rewrite E; apply in_or_app; right; now left).
  assert (Ij : In j (h_log (y_h s))).
  { rewrite E. apply in_or_app. apply in_app_or in Hj as [?|?]; [now left|right; now right]. }
  destruct (hi_item _ _ _ Hh _ Ii) as (_ & _ & _ & _ & Hd & _).
  destruct (hi_item _ _ _ Hh _ Ij) as (_ & _ & _ & _ & Hd' & _).
  assert (Eh : item_hid j = item_hid i) by congruence.
  pose proof (hi_nodup _ _ _ Hh (item_hid i)) as ND. rewrite E, received_app in ND. cbn [received] in ND.
  rewrite String.eqb_refl in ND. apply NoDup_remove_2 in ND. apply ND. rewrite <- received_app, <- Eq.
  now apply received_in.
Qed.
Example C72_case : exists s hid p account anys res answers, reached cfg0 k0 s /\ hcfg_ok k0 /\
  In (Ran hid p account anys res answers) (h_log (y_h s)) /\ length anys = 2%nat.
Proof.
  exists (sys0 (told0 Ordered)).
  assert (L : exists hid p account anys res answers,
    h_log (y_h (sys0 (told0 Ordered))) = [Ran hid p account anys res answers] /\ length anys = 2%nat).
  { eexists _, _, _, _, _, _. split; [vm_compute; reflexivity|reflexivity]. }
  destruct L as (hid & p & account & anys & res & answers & L & N). exists hid, p, account, anys, res, answers.
  split; [apply sys0_reached|]. split; [apply k0_ok|]. split; [rewrite L; now left|exact N].
Qed.

(** ** C73: requests are handled in the order they were made *)

(** Packets sent on a channel, and packets handled by the host on its channel, oldest first. *)
Fixpoint packets_sent (id : string) (l : list logitem) : list packet :=
  match l with
  | [] => []
  | LSent _ _ _ p :: r => if String.eqb (e_chan (p_src p)) id then packets_sent id r ++ [p] else packets_sent id r
  | _ :: r => packets_sent id r
  end.
Fixpoint packets_handled (hid : string) (l : list hitem) : list packet :=
  match l with
  | [] => []
  | i :: r => if String.eqb (item_hid i) hid then packets_handled hid r ++ [item_pkt i] else packets_handled hid r
  end.

Lemma packets_sent_seq id l : map p_seq (packets_sent id l) = sent_on id l.
Proof.
  induction l as [|[] l IH]; cbn [packets_sent sent_on]; auto.
  destruct (String.eqb (e_chan (p_src p)) id); [|exact IH]. rewrite map_app. cbn [map]. now rewrite IH.
Qed.
Lemma packets_sent_in id l p : In p (packets_sent id l) <-> exists e sd m, In (LSent e sd m p) l /\ e_chan (p_src p) = id.
Proof.
  induction l as [|x l IH]; [split; [intros []|intros (? & ? & ? & [] & _)]|].
  assert (G : In p (packets_sent id l) \/ (exists e sd m, x = LSent e sd m p /\ e_chan (p_src p) = id) <->
     exists e sd m, In (LSent e sd m p) (x :: l) /\ e_chan (p_src p) = id).
  { rewrite IH. split.
    - intros [(e & sd & m & H & Hi)|(e & sd & m & -> & Hi)]; exists e, sd, m; (split; [|exact Hi]); [now right|now left].
    - intros (e & sd & m & [H|H] & Hi); [right|left]; exists e, sd, m; auto. }
  rewrite <- G. clear G.
  destruct x; cbn [packets_sent]; try (split; [auto|intros [H|(? & ? & ? & H & _)]; [exact H|discriminate]]).
  destruct (String.eqb_spec (e_chan (p_src p0)) id) as [E|E].
  - rewrite in_app_iff. cbn [In]. split.
    + intros [H|[<-|[]]]; [now left|right; eauto].
    + intros [H|(? & ? & ? & H & _)]; [now left|injection H as <- <- <- <-; right; now left].
  - split; [auto|]. intros [H|(? & ? & ? & H & Hi)]; [exact H|]. injection H as <- <- <- <-. congruence.
Qed.
Lemma packets_handled_seq hid l : map p_seq (packets_handled hid l) = rev (received hid l).
Proof.
  induction l as [|i l IH]; [reflexivity|]. cbn [packets_handled received].
  destruct (String.eqb (item_hid i) hid); [|exact IH]. rewrite map_app. cbn [map rev]. now rewrite IH.
Qed.
Lemma packets_handled_in hid l p : In p (packets_handled hid l) -> exists i, In i l /\ item_hid i = hid /\ item_pkt i = p.
Proof.
  induction l as [|i l IH]; [intros []|]. cbn [packets_handled].
  destruct (String.eqb_spec (item_hid i) hid) as [E|E]; intro H.
  - apply in_app_or in H as [H|[H|[]]].
    + destruct (IH H) as (j & J1 & J2). exists j. split; [now right|exact J2].
    + exists i. split; [now left|auto].
  - destruct (IH H) as (j & J1 & J2). exists j. split; [now right|exact J2].
Qed.

Lemma prefix_by_seq (B : list packet) : forall A a b n, map p_seq A = map N.of_nat (seq n a) ->
  map p_seq B = map N.of_nat (seq n b) -> (forall p, In p B -> In p A) -> exists rest, A = B ++ rest.
Proof.
  induction B as [|q B IH]; intros A a b n HA HB Hin; [exists A; reflexivity|].
  destruct b as [|b]; [discriminate|]. cbn [seq map] in HB. injection HB as Hq HB.
  destruct A as [|p A]; [destruct (Hin q); now left|]. destruct a as [|a]; [discriminate|].
  cbn [seq map] in HA. injection HA as Hp HA.
  assert (Big : forall x L m, map p_seq L = map N.of_nat (seq (S n) m) -> In x L -> p_seq x <> N.of_nat n).
  { intros x L m HL Hx E. assert (G : In (p_seq x) (map N.of_nat (seq (S n) m))) by (rewrite <- HL; now apply in_map).
    apply in_map_iff in G as (y & G1 & G2). apply in_seq in G2. lia. }
  assert (q = p) as ->.
  { destruct (Hin q) as [H|H]; [now left|now symmetry|]. exfalso. now apply (Big q A a HA H). }
  destruct (IH A a b (S n) HA HB) as [rest ->]; [|now exists rest].
  intros x Hx. destruct (Hin x) as [<-|H]; [now right| |exact H]. exfalso. now apply (Big p B b HB Hx).
Qed.

Lemma rev_down k : rev (down k) = upto k.
Proof.
  induction k as [|k IH]; [reflexivity|]. cbn [down]. change (rev (?x :: ?l)) with (rev l ++ [x]). rewrite IH, upto_S.
  do 2 f_equal. lia.
Qed.

(** On an ordered channel the handled packets are a prefix of the sent ones: in
    the same order, without gaps.  On an unordered channel each sent packet is
    handled at most once, and none other. *)
Theorem C73_in_order : forall c k s hid hc, cfg_ok c -> reached c k s -> h_chans (y_h s) hid = Some hc ->
  let sent := packets_sent (e_chan (hc_cp hc)) (w_log (y_w s)) in
  let handled := packets_handled hid (h_log (y_h s)) in
  match hc_order hc with
  | Ordered => exists rest, sent = handled ++ rest
  | Unordered => NoDup handled /\ incl handled sent
  end.
Proof.
  intros c k s hid hc Hc R E. cbv zeta. pose proof (reached_inv c k s Hc R) as I.
  destruct (si_hs _ _ _ I _ (si_h _ _ _ I)) as [Hh _].
  assert (In1 : forall p, In p (packets_handled hid (h_log (y_h s))) -> In p (packets_sent (e_chan (hc_cp hc)) (w_log (y_w s)))).
  { intros p Hp. apply packets_handled_in in Hp as (i & Hi & <- & <-).
    destruct (lk_sent _ _ _ (si_link _ _ _ I) _ Hi) as (e & sd & m & Hs).
    destruct (hi_item _ _ _ Hh _ Hi) as (hc' & ack & Hch & _ & _ & Hsrc & _). rewrite E in Hch. injection Hch as <-.
    apply packets_sent_in. exists e, sd, m. split; [exact Hs|congruence]. }
  destruct (hc_order hc) eqn:Ho.
  - eapply (prefix_by_seq _ _ _ _ 1); [rewrite packets_sent_seq, (sends_count c); [reflexivity|]|
      rewrite packets_handled_seq, (hi_ordered _ _ _ Hh _ _ E Ho), rev_down; reflexivity|exact In1].
    apply visited_hist; [exact Hc|]. apply (si_w _ _ _ I).
  - split; [|exact In1]. apply (NoDup_map_inv p_seq). rewrite packets_handled_seq. apply NoDup_rev, (hi_nodup _ _ _ Hh).
Qed.

(** Two requests, the first handled. *)
Definition two0 (o : order) := done0 o ++ [on_contract (exec "owner" (send0 [bank0] []) "")].
Example C73_case : forall o, exists hc p q, reached cfg0 k0 (sys0 (two0 o)) /\
  h_chans (y_h (sys0 (two0 o))) "channel-7" = Some hc /\ hc_order hc = o /\
  packets_sent (e_chan (hc_cp hc)) (w_log (y_w (sys0 (two0 o)))) = [p; q] /\
  packets_handled "channel-7" (h_log (y_h (sys0 (two0 o)))) = [p].
Proof.
  intros []; eexists _, _, _; (split; [apply sys0_reached|]); (split; [vm_compute; reflexivity|]);
    (split; [reflexivity|]); (split; [vm_compute; reflexivity|]); vm_compute; reflexivity.
Qed.

(** ** C74: callbacks tell the truth *)

Lemma same_item c k s i j : cfg_ok c -> reached c k s -> In i (h_log (y_h s)) -> In j (h_log (y_h s)) ->
  item_pkt i = item_pkt j -> i = j.
Proof.
  intros Hc R Hi Hj E. apply in_split in Hi as (l1 & l2 & El).
  rewrite El in Hj. apply in_app_or in Hj as [Hj|[Hj|Hj]]; [|exact Hj|];
    exfalso; (eapply (C72_once c k s l1 i l2 j Hc R El); [apply in_or_app; auto|now symmetry]).
Qed.

(** A callback that reports a result: the host ran that very packet, with that
    result.  One that reports an error: the host refused the packet, and never
    runs it.  One that reports a timeout: the packet was sent, the host has not
    handled it and never will, and its time is over or the channel is closed.  One that reports a channel: version and ordering
    are those of the host's end, the account is the one the host gave to it.  [s'] is any later system. *)
Theorem C74_callbacks_true : forall c k s s' addr msg cb,
  cfg_ok c -> reached c k s -> follows c k s s' ->
  In (LCall addr msg) (w_log (y_w s)) -> from_json jc_receiver msg = Some cb ->
  match cb with
  | CbAck (AckResult res) p _ _ =>
      exists hid account anys answers, In (Ran hid p account anys res answers) (h_log (y_h s))
  | CbAck (AckError err) p _ _ =>
      exists hid, In (Failed hid p err) (h_log (y_h s)) /\
        forall i, In i (h_log (y_h s')) -> item_pkt i = p -> i = Failed hid p err
  | CbTimeout p _ =>
      (exists e sender m, In (LSent e sender m p) (w_log (y_w s))) /\
      (forall i, In i (h_log (y_h s')) -> item_pkt i <> p) /\
      (elapsed (p_timeout p) (h_clock (y_h s)) = true \/
       exists hc, h_chans (y_h s) (e_chan (p_dest p)) = Some hc /\ hc_state hc = HsClosed)
  | CbOpenAck ch account _ =>
      exists hc, h_chans (y_h s) (e_chan (ch_counterparty ch)) = Some hc /\
        hc_cp hc = ch_endpoint ch /\ hc_account hc = account /\
        hc_version hc = ch_version ch /\ hc_order hc = ch_order ch
  end.
Proof.
  intros c k s s' addr msg cb Hc R F Hi Hm. pose proof (reached_inv c k s Hc R) as I.
  pose proof (follows_inv c k s s' Hc I F) as I'.
  apply in_split in Hi as (l1 & l2 & El).
  pose proof (call_item c _ _ _ _ _ _ Hc (si_w _ _ _ I) El Hm) as C.
  destruct cb as [d p relayer qr|p relayer|ch account enc].
  - destruct C as (ack & Ha & Hd). destruct (lk_ack _ _ _ (si_link _ _ _ I) _ _ _ Ha) as (i & Hi & Ep & Hd').
    rewrite Hd in Hd'. injection Hd' as ->. destruct i as [hid p' account anys res answers|hid p' err]; cbn [item_ack item_pkt] in *; subst p'.
    + eauto.
    + exists hid. split; [exact Hi|]. intros i Hi' Ei.
      apply (same_item c k s' _ _ Hc (reached_follows _ _ _ _ R F) Hi' (host_log_grows _ _ _ _ _ Hc I F Hi) Ei).
  - split.
    { apply in_split in C as (m1 & m2 & Em).
      destruct (C45_only_own_packets c _ m1 (LTimeout p relayer) m2 (e_chan (p_src p)) (p_seq p) Hc (si_w _ _ _ I) Em) as
        (p' & e & sd & m & Hs & _ & _ & <-); [left; unfold resolves, at_pkt; now rewrite String.eqb_refl, N.eqb_refl|].
      exists e, sd, m. rewrite Em. apply in_or_app. right. now right. }
    split; [|apply (lk_timeout _ _ _ (si_link _ _ _ I) p relayer C)].
    apply (lk_timeout _ _ _ (si_link _ _ _ I') p relayer). exact (log_grows _ _ _ _ _ Hc I F C).
  - destruct C as (md & Op & Md & <-).
    destruct (lk_open _ _ _ (si_link _ _ _ I) _ _ Op) as (hc & H1 & H2 & H3 & H4). exists hc. split; [exact H1|].
    destruct (opened_end c _ _ _ Hc (si_w _ _ _ I) Op) as (ce & _ & _ & Ech).
    split; [rewrite H2, Ech; reflexivity|].
    destruct (si_hs _ _ _ I _ (si_h _ _ _ I)) as [Hh _].
    destruct (hi_chan _ _ _ Hh _ _ H1) as (id & md' & _ & Md' & <-). split; [rewrite H3, Md in Md'; congruence|auto].
Qed.

(** The four kinds of callback. *)
Definition refused0 (o : order) := asked0 o ++
  [inr (HRecv "channel-7" 1 (Fails "ABCI code: 5") (ack_of (AckError "ABCI code: 5")));
   inl (AAck "channel-0" 1 (ack_of (AckError "ABCI code: 5")) "relayer")].
Definition late0 (o : order) := asked0 o ++ [inr (HClock 70000000000); inl (ATimeout "channel-0" 1 "relayer")].
Definition last_callback (s : sys) : option callback_msg :=
  match w_log (y_w s) with LCall _ msg :: _ => from_json jc_receiver msg | _ => None end.
Definition kind (cb : option callback_msg) : nat :=
  match cb with
  | Some (CbAck (AckResult _) _ _ (Some (QRSuccess 42 [_]))) => 1
  | Some (CbAck (AckError _) _ _ _) => 2
  | Some (CbTimeout _ _) => 3
  | Some (CbOpenAck _ _ _) => 4
  | _ => 0
  end.
Example C74_case : forall o,
  kind (last_callback (sys0 (told0 o))) = 1%nat /\ kind (last_callback (sys0 (refused0 o))) = 2%nat /\
  kind (last_callback (sys0 (late0 o))) = 3%nat /\ kind (last_callback (sys0 (opened0 o))) = 4%nat.
Proof. intros []; vm_compute; auto. Qed.

(** ** C75: the answers a callback shows are the host's answers *)

Lemma unpack_safe (k : hcfg) account ms q qs anys answers : hcfg_ok k ->
  packet_spec account ms (q :: qs) anys -> answers_fit anys answers = true ->
  exists h bs, answers = Some (h, bs) /\ length bs = length (q :: qs) /\ h < u64_lim.
Proof.
  intros _ (l & rest & -> & _ & url & bytes & reqs & -> & D & F). unfold answers_fit. rewrite rev_app_distr.
  cbn [rev app]. rewrite D. destruct answers as [[h bs]|]; [|discriminate]. intro H. apply andb_prop in H as [H1 H2].
  exists h, bs. split; [reflexivity|]. pose proof (Forall2_len _ _ _ F). split; [apply Nat.eqb_eq in H1; congruence|lia].
Qed.

Lemma sizes_parts legacy resps h bs : sizes_fit legacy resps (Some (h, bs)) = true ->
  Forall (fun x => utf8 (fst x)) legacy /\ Forall (fun x => utf8 (fst x)) resps /\
  slen (host_result legacy resps h bs) < u64_lim /\ slen (query_response_bytes h bs) < u64_lim.
Proof.
  unfold sizes_fit. intro H. apply andb_prop in H as [H H3]. apply andb_prop in H as [H1 H2].
  rewrite forallb_app in H1. apply andb_prop in H1 as [H1 H1'].
  assert (G : forall l : list (string * string), forallb (fun x => utf8_valid (fst x)) l = true -> Forall (fun x => utf8 (fst x)) l).
  { intros l Hl. apply Forall_forall. intros x Hx. rewrite forallb_forall in Hl. now apply Hl. }
  split; [now apply G|]. split; [now apply G|]. apply N.ltb_lt in H2, H3. split; [exact H2|exact H3].
Qed.

(** The owner's queries are answered by the host when it runs the packet, one
    answer per query; the callback shows those answers, in the order of the
    queries, and the height they are from.  (If an answer cannot be read, it
    reports an error.) *)
Theorem C75_answers : forall c k s addr msg res p relayer qr e sender ms qs memo t,
  cfg_ok c -> hcfg_ok k -> reached c k s -> In (LCall addr msg) (w_log (y_w s)) ->
  from_json jc_receiver msg = Some (CbAck (AckResult res) p relayer qr) ->
  In (LSent e sender (XSendCosmosMsgs ms qs memo t) p) (w_log (y_w s)) -> qs <> [] ->
  exists hid account anys h bs r,
    In (Ran hid p account anys res (Some (h, bs))) (h_log (y_h s)) /\
    length bs = length qs /\ qr = Some r /\ result_spec qs h bs r /\
    (Forall2 answered qs bs ->
     exists rs, r = QRSuccess h rs /\ Forall2 (fun qb x => seen (fst qb) (snd qb) x) (combine qs bs) rs).
Proof.
  intros c k s addr msg res p relayer qr e sender ms qs memo t Hc Hk R Hi Hm Hs Hq.
  pose proof (reached_inv c k s Hc R) as I.
  destruct (C74_callbacks_true c k s s _ _ _ Hc R (follows_refl _ _ _) Hi Hm) as (hid & account & anys & answers & Hr).
  destruct (C72_only_requested c k s _ _ _ _ _ _ Hc R Hr) as (l1 & e' & sd' & ms' & qs' & memo' & t' & l2 & hc & El & _ & _ & Sp & _).
  assert (Es : LSent e sender (XSendCosmosMsgs ms qs memo t) p = LSent e' sd' (XSendCosmosMsgs ms' qs' memo' t') p).
  { eapply (sent_same c _ _ _ _ _ _ _ _ _ Hc (si_w _ _ _ I)); [exact Hs|rewrite El; apply in_or_app; right; now left|reflexivity|reflexivity]. }
  injection Es as <- <- <- <- <- <-. destruct qs as [|q qs]; [congruence|].
  destruct (si_hs _ _ _ I _ (si_h _ _ _ I)) as [Hh _].
  destruct (hi_item _ _ _ Hh _ Hr) as (_ & _ & _ & _ & _ & _ & _ & _ & Ok & _).
  destruct Ok as (_ & _ & Fit & legacy & resps & Eres & Sz & _).
  destruct (unpack_safe k account ms q qs anys answers Hk Sp Fit) as (h & bs & -> & Hl & Hlim).
  destruct (sizes_parts _ _ _ _ Sz) as (U1 & U2 & Z1 & Z2).
  apply in_split in Hi as (m1 & m2 & Em).
  pose proof (C26_every_callback _ _ _ _ _ _ _ _ _ _ _ _ _ _ _ _ Hc (si_w _ _ _ I) Em Hm Hs) as T.
  cbn iota in T. unfold told in T.
  assert (Er : res = host_result legacy resps h bs) by exact Eres.
  rewrite Er, host_result_read in T by assumption.
  destruct T as (h' & bs' & r & Eh & Rs & Eq). injection Eh as <- <-.
  exists hid, account, anys, h, bs, r. split; [exact Hr|]. split; [exact Hl|]. split; [exact Eq|]. split; [exact Rs|].
  intro A. rewrite <- Er in Z1.
  destruct (C28_callback_shows c _ _ _ _ _ _ _ _ _ _ _ _ _ _ _ legacy resps h bs Hc (si_w _ _ _ I) Em Hm Hs) as (rs & E1 & _ & E2);
    [discriminate|exact Er|assumption|assumption|exact Hlim|exact Z1|exact Z2|exact A|].
  exists rs. split; [congruence|exact E2].
Qed.
Example C75_case : exists s addr msg res p relayer rs l, reached cfg0 k0 s /\ w_log (y_w s) = LCall addr msg :: l /\
  from_json jc_receiver msg = Some (CbAck (AckResult res) p relayer (Some (QRSuccess 42 rs))) /\
  rs = [RBank (RBalance (Coin "uatom" 5))].
Proof.
  exists (sys0 (told0 Unordered)).
  assert (L : exists addr msg l, w_log (y_w (sys0 (told0 Unordered))) = LCall addr msg :: l /\
    option_map (fun cb => match cb with CbAck (AckResult _) _ _ (Some (QRSuccess 42 rs)) => rs | _ => [] end)
      (from_json jc_receiver msg) = Some [RBank (RBalance (Coin "uatom" 5))]).
  { eexists _, _, _. split; [vm_compute; reflexivity| vm_compute; reflexivity]. }
  destruct L as (addr & msg & l & L & M). destruct (from_json jc_receiver msg) as [cb|] eqn:E; [|discriminate].
  cbn [option_map] in M. injection M as M.
  destruct cb as [[res|] p relayer [[h rs|]|]| |]; try discriminate M.
  destruct (N.eq_dec h 42) as [->|Nh].
  - exists addr, msg, res, p, relayer, rs, l. split; [apply sys0_reached|]. auto.
  - exfalso. destruct h as [|h]; [discriminate M|]. repeat (destruct h as [h|h|]; try discriminate M). now apply Nh.
Qed.

(** ** C77: the account the contract reports is the host's *)

Theorem C77_account : forall c k s info cb,
  cfg_ok c -> reached c k s -> state_reported (y_w s) (ContractState (Some info) cb) ->
  exists hid hc, h_chans (y_h s) hid = Some hc /\ hc_account hc = ii_address info /\
    hc_cp hc = Endpoint (own_port c) (ii_channel info) /\
    exists ch st, channel_reported (y_w s) ch st /\ e_chan (ch_endpoint ch) = ii_channel info /\
      ch_counterparty ch = Endpoint "icahost" hid /\ ch_version ch = hc_version hc /\ ch_order ch = hc_order hc.
Proof.
  intros c k s info cb Hc R St. pose proof (reached_inv c k s Hc R) as I. pose proof (si_w _ _ _ I) as V.
  assert (Hl : w_log (y_w s) <> []).
  { intro E. destruct St as (t & A & _). apply (store_log c _ Hc V) in E. unfold ask in A. rewrite E in A. discriminate. }
  pose proof (ask_state c _ Hc V Hl) as St'. destruct St as (t & A & B), St' as (t' & A' & B').
  rewrite A in A'. injection A' as <-. rewrite B in B'. injection B' as E _. unfold account_of in E.
  pose proof (recorded_last (w_log (y_w s))) as L. pose proof (ask_channel c _ Hc V Hl) as Q.
  destruct (last_opened (w_log (y_w s))) as [ch|] eqn:Lo; [|discriminate].
  destruct (from_json jc_metadata (ch_version ch)) as [md|] eqn:Md; [|discriminate]. injection E as ->. cbn [ii_address ii_channel].
  destruct (recorded (w_log (y_w s))) as [[ch' b]|]; [|discriminate]. injection L as <-.
  apply last_opened_opened in Lo. destruct (lk_open _ _ _ (si_link _ _ _ I) _ _ Lo) as (hc & H1 & H2 & H3 & H4).
  destruct (opened_end c _ _ _ Hc V Lo) as (ce & Hce & _ & Ech).
  destruct (si_hs _ _ _ I _ (si_h _ _ _ I)) as [Hh _].
  destruct (hi_chan _ _ _ Hh _ _ H1) as (id & md' & _ & Md' & Ad). rewrite H3, Md in Md'. injection Md' as <-.
  exists (e_chan (ch_counterparty ch)), hc. split; [exact H1|]. split; [now symmetry|]. split; [exact H2|].
  eexists ch, _. split; [exact Q|]. split; [reflexivity|]. split; [|now split].
  pose proof (end_port c _ _ _ Hc V Hce) as Hp. rewrite Ech. unfold channel_of. cbn [ch_counterparty].
  destruct (ce_cp ce) as [x y]. cbn in Hp. now subst x.
Qed.
Example C77_case : exists s info cb, reached cfg0 k0 s /\ state_reported (y_w s) (ContractState (Some info) cb) /\
  ii_address info = "cosmos1acc".
Proof.
  exists (sys0 (opened0 Ordered)). eexists _, _. split; [apply sys0_reached|].
  split; [apply state_reported_by; vm_compute; reflexivity|reflexivity].
Qed.

(** ** C78: a channel closes only by the owner's request or an ordered timeout *)

Lemma closed_why l id : opened l id <> None -> chan_open l id = false ->
  In (LChanClosed id) l \/ exists p relayer, In (LTimeout p relayer) l /\ e_chan (p_src p) = id /\ chan_ordered l id = true.
Proof.
  induction l as [|i l IH]; [cbn; congruence|]. intros H1 H2.
  assert (G : opened l id <> None -> chan_open l id = false -> (chan_ordered l id = true -> chan_ordered (i :: l) id = true) ->
    In (LChanClosed id) (i :: l) \/
    exists p relayer, In (LTimeout p relayer) (i :: l) /\ e_chan (p_src p) = id /\ chan_ordered (i :: l) id = true).
  { intros G1 G2 G3. destruct (IH G1 G2) as [H|(p & r & H & E & O)]; [left; now right|right].
    exists p, r. split; [now right|auto]. }
  unfold chan_ordered in *.
  destruct i; cbn [opened chan_open] in *; auto.
  - destruct (on_chan id ch) eqn:E; [discriminate|]. auto.
  - destruct (String.eqb_spec id0 id) as [->|]; [left; now left|auto].
  - destruct (String.eqb_spec (e_chan (p_src p)) id) as [E|E]; [|auto]. cbn [andb] in H2. unfold chan_ordered in H2.
    destruct (match opened l id with Some ch => order_eqb (ch_order ch) Ordered | None => false end) eqn:O; [|auto].
    right. exists p, relayer. split; [now left|]. split; [exact E|reflexivity].
Qed.

(** The host never closes a channel by itself, so that a channel the contract
    completed is closed on the chain only if the owner asked to close it, or if
    it is ordered and one of its packets timed out (which the host then never
    handles, C74). *)
Theorem C78_closed_why : forall c k s id ce,
  cfg_ok c -> reached c k s -> w_chans (y_w s) id = Some ce -> ce_state ce = CClosed ->
  (exists l1 e sender l2, w_log (y_w s) = l1 ++ LChanClosed id :: LExecuted e sender XCloseChannel :: l2 /\
     owner_of l2 = Some sender) \/
  (ce_order ce = Ordered /\ exists p relayer, In (LTimeout p relayer) (w_log (y_w s)) /\ e_chan (p_src p) = id /\
     forall i, In i (h_log (y_h s)) -> item_pkt i <> p).
Proof.
  intros c k s id ce Hc R E St. pose proof (reached_inv c k s Hc R) as I. pose proof (si_w _ _ _ I) as V.
  pose proof (ic_chan _ _ (inv_chans _ _ (visited_inv c _ Hc V)) id) as C. rewrite E in C.
  destruct C as (_ & _ & _ & _ & _ & C). rewrite St in C. destruct C as [C1 C2].
  destruct (closed_why (w_log (y_w s)) id ltac:(congruence) C2) as [H|(p & r & H & Ei & O)].
  - left. apply in_split in H as (l1 & l2 & El). destruct (lk_closed _ _ _ (si_link _ _ _ I) _ _ _ El) as (e & sd & l3 & ->).
    exists l1, e, sd, l3. split; [exact El|].
    replace (l1 ++ LChanClosed id :: LExecuted e sd XCloseChannel :: l3)
      with ((l1 ++ [LChanClosed id]) ++ LExecuted e sd XCloseChannel :: l3) in El by (rewrite <- app_assoc; reflexivity).
    destruct (hist_item c _ _ _ _ (visited_hist c _ Hc V) El) as (l0 & n1 & n2 & _ & B & ->).
    remember (n1 ++ LExecuted e sd XCloseChannel :: n2) as new eqn:En. destruct B as [B|B]; destruct B;
      repeat match goal with X : callback _ _ _ |- _ => apply callback_quiet in X as [->|(? & ? & ->)] end;
      try (destruct n1 as [|? [|? [|? [|]]]]; discriminate En).
    destruct n1 as [|? [|? [|]]]; try discriminate En. injection En as _ <- <- <-. assumption.
  - right. split; [unfold chan_ordered in O; rewrite C1 in O; cbn in O; now destruct (ce_order ce)|].
    exists p, r. split; [exact H|]. split; [exact Ei|]. now apply (lk_timeout _ _ _ (si_link _ _ _ I) p r).
Qed.

(** No proof of a closed host channel makes the contract close its own. *)
Theorem C78_no_close_confirm : forall c k s h id,
  cfg_ok c -> reached c k s -> In h (y_hs s) -> genuine c (ACloseConfirm id) (y_w s) h ->
  act c (ACloseConfirm id) (y_w s) = None.
Proof.
  intros c k s h id Hc R Hh G. pose proof (reached_inv c k s Hc R) as I.
  destruct (si_hs _ _ _ I _ Hh) as [_ L].
  destruct (no_close_confirm c _ _ _ id L (si_link _ _ _ I) G) as (ce & E & St).
  destruct (act c (ACloseConfirm id) (y_w s)) as [[w' b]|] eqn:A; [|reflexivity].
  destruct (act_main c _ _ _ _ Hc (si_w _ _ _ I) A) as (_ & ce' & E' & N). congruence.
Qed.
Definition closed0 := opened0 Unordered ++
  [on_contract (exec "owner" XCloseChannel ""); inr (HCloseConfirm "channel-7")].
Example C78_case :
  (exists ce, reached cfg0 k0 (sys0 closed0) /\ w_chans (y_w (sys0 closed0)) "channel-0" = Some ce /\ ce_state ce = CClosed) /\
  (exists ce, reached cfg0 k0 (sys0 (late0 Ordered)) /\
     w_chans (y_w (sys0 (late0 Ordered))) "channel-0" = Some ce /\ ce_state ce = CClosed) /\
  (exists h, In h (y_hs (sys0 closed0)) /\ genuine cfg0 (ACloseConfirm "channel-0") (y_w (sys0 closed0)) h).
Proof.
  split; [|split].
  - eexists. split; [apply sys0_reached|]. split; [vm_compute; reflexivity|reflexivity].
  - eexists. split; [apply sys0_reached|]. split; [vm_compute; reflexivity|reflexivity].
  - exists (y_h (sys0 closed0)). split; [vm_compute; left; reflexivity|].
    eexists _, _. split; [vm_compute; reflexivity|]. split; [vm_compute; reflexivity|]. repeat split.
Qed.

(** ** C76: which requests can be concluded *)

Lemma host_answer c k s id n p ce i : cfg_ok c -> reached c k s -> w_commit (y_w s) id n = Some p ->
  w_chans (y_w s) id = Some ce -> In i (h_log (y_h s)) -> item_pkt i = p ->
  exists ack, h_ack (y_h s) (e_chan (ce_cp ce)) n = Some ack /\ from_json jc_ack ack = Some (item_ack i) /\ ran_ok k i.
Proof.
  intros Hc R Hp E Hi Ep. pose proof (reached_inv c k s Hc R) as I.
  destruct (si_hs _ _ _ I _ (si_h _ _ _ I)) as [Hh _].
  destruct (held c _ _ _ _ Hc (si_w _ _ _ I) Hp) as (ce' & E' & _ & S1 & S2 & S3 & _). rewrite E in E'. injection E' as <-.
  destruct (hi_item _ _ _ Hh _ Hi) as (hc & ack & _ & _ & Hd & _ & Ha & Hj & Ok & _).
  exists ack. rewrite <- Hd, Ep, S2, S3 in Ha. auto.
Qed.

Lemma handled_readable c k s p i e sender ms qs memo t ack : cfg_ok c -> hcfg_ok k -> reached c k s ->
  In (LSent e sender (XSendCosmosMsgs ms qs memo t) p) (w_log (y_w s)) ->
  In i (h_log (y_h s)) -> item_pkt i = p -> ran_ok k i -> from_json jc_ack ack = Some (item_ack i) -> readable qs ack.
Proof.
  intros Hc Hk R Hs Hi Ep Ok Hj. pose proof (reached_inv c k s Hc R) as I. unfold readable. rewrite Hj.
  destruct i as [hid p' account anys res answers|hid p' err]; cbn [item_ack item_pkt] in *; [subst p'|exact Logic.I].
  destruct (C72_only_requested c k s _ _ _ _ _ _ Hc R Hi) as (l1 & e' & sd' & ms' & qs' & memo' & t' & l2 & hc & El & _ & _ & Sp & _).
  assert (Es : LSent e sender (XSendCosmosMsgs ms qs memo t) p = LSent e' sd' (XSendCosmosMsgs ms' qs' memo' t') p).
  { eapply (sent_same c _ _ _ _ _ _ _ _ _ Hc (si_w _ _ _ I)); [exact Hs|rewrite El; apply in_or_app; right; now left|reflexivity|reflexivity]. }
  injection Es as <- <- <- <- <- <-. destruct qs as [|q qs]; [now left|right].
  destruct Ok as (_ & _ & Fit & legacy & resps & Eres & Sz & _).
  destruct (unpack_safe k account ms q qs anys answers Hk Sp Fit) as (h & bs & -> & Hl & Hlim).
  destruct (sizes_parts _ _ _ _ Sz) as (U1 & U2 & Z1 & Z2).
  assert (Er : res = host_result legacy resps h bs) by exact Eres. rewrite Er, host_result_read by assumption. discriminate.
Qed.

(** An acknowledgement the host has written is accepted by the contract, if the
    channel is open and, if it is ordered, the packet is the next one. *)
Theorem C76_ack_accepted : forall c k s h id n ack relayer p ce,
  cfg_ok c -> hcfg_ok k -> reached c k s -> In h (y_hs s) -> genuine c (AAck id n ack relayer) (y_w s) h ->
  utf8 relayer -> w_commit (y_w s) id n = Some p -> w_chans (y_w s) id = Some ce -> ce_state ce = COpen ->
  (ce_order ce = Ordered -> n = w_nextack (y_w s) id) ->
  exists w b, act c (AAck id n ack relayer) (y_w s) = Some (w, b).
Proof.
  intros c k s h id n ack relayer p ce Hc Hk R Hh G Hr Hp E So Hn. pose proof (reached_inv c k s Hc R) as I.
  destruct (si_hs _ _ _ I _ Hh) as [_ L]. destruct G as (ce' & E' & Ha). rewrite E in E'. injection E' as <-.
  apply (hl_ack _ _ L) in Ha. destruct (si_hs _ _ _ I _ (si_h _ _ _ I)) as [Hv _].
  destruct (in_received _ _ _ (hi_ack _ _ _ Hv _ _ _ Ha)) as (i & Hi & Eh & En).
  pose proof (item_is c k _ _ _ _ _ _ _ Hc (si_w _ _ _ I) (si_link _ _ _ I) Hv Hp E Hi Eh En) as Ep.
  destruct (host_answer c k s id n p ce i Hc R Hp E Hi Ep) as (ack' & Ha' & Hj & Ok). rewrite Ha in Ha'. injection Ha' as <-.
  destruct (held c _ _ _ _ Hc (si_w _ _ _ I) Hp) as (_ & _ & _ & _ & _ & _ & e & sd & m & Hs).
  destruct (sent_item c _ _ _ _ _ Hc (si_w _ _ _ I) Hs) as (l1 & l2 & ms & qs & memo & t & ch & md & anys & -> & _).
  apply (C29_C54_ack_accepted c (y_w s) id n ack relayer e sd ms qs memo t p ce Hc (si_w _ _ _ I) Hr Hs Hp E So Hn).
  eapply handled_readable; eassumption.
Qed.

Lemma count_pos f (x : logitem) l : In x l -> f x = true -> (1 <= count f l)%nat.
Proof.
  intros H F. apply in_split in H as (l1 & l2 & ->). unfold count. rewrite filter_app, app_length. cbn [filter]. rewrite F.
  cbn [length]. lia.
Qed.

(** A resolved packet is no longer held. *)
Lemma resolved_none c w e sd m p : cfg_ok c -> visited c w -> In (LSent e sd m p) (w_log w) ->
  (exists ack r, In (LAck p ack r) (w_log w)) \/ (exists r, In (LTimeout p r) (w_log w)) ->
  w_commit w (e_chan (p_src p)) (p_seq p) = None.
Proof.
  intros Hc V Hs H. assert (At : at_pkt (e_chan (p_src p)) (p_seq p) p = true).
  { unfold at_pkt. now rewrite String.eqb_refl, N.eqb_refl. }
  destruct (C66_accounted c w e sd m p Hc V Hs) as [(_ & A & T)|[(A & _)|(A & _)]]; [exfalso|exact A|exact A].
  destruct H as [(ack & r & H)|(r & H)].
  - pose proof (count_pos (acks_of (e_chan (p_src p)) (p_seq p)) _ _ H At). lia.
  - pose proof (count_pos (timeouts_of (e_chan (p_src p)) (p_seq p)) _ _ H At). lia.
Qed.

(** Some callback to [addr] tells what became of the packet. *)
Definition outcome_told (l : list logitem) (addr : string) (p : packet) : Prop :=
  exists msg cb, In (LCall addr msg) l /\ from_json jc_receiver msg = Some cb /\
    match cb with CbAck _ q _ _ | CbTimeout q _ => q = p | CbOpenAck _ _ _ => False end.

(** The state query in terms of the history. *)
Lemma reports c w : cfg_ok c -> visited c w -> w_log w <> [] ->
  state_reported w (ContractState (account_of (w_log w)) (callback_of (w_log w))).
Proof. intros Hc V Hl. exact (ask_state c w Hc V Hl). Qed.
Lemma told_in addr m new : told_once (Some addr) m new -> exists msg, In (LCall addr msg) new /\ from_json jc_receiver msg = Some m.
Proof.
  intros (msg & Hf & Hm). exists msg. split; [|exact Hm].
  assert (H : In (LCall addr msg) (filter is_call new)) by (rewrite Hf; now left). now apply filter_In in H as [H _].
Qed.

Lemma settle_timeout c k s id n p : cfg_ok c -> reached c k s -> w_commit (y_w s) id n = Some p ->
  (forall i, In i (h_log (y_h s)) -> item_pkt i <> p) ->
  exists s', follows c k s s' /\ w_commit (y_w s') id n = None /\
    forall addr, callback_of (w_log (y_w s)) = Some addr -> outcome_told (w_log (y_w s')) addr p.
Proof.
  intros Hc R Hp Hn. pose proof (reached_inv c k s Hc R) as I.
  destruct (si_hs _ _ _ I _ (si_h _ _ _ I)) as [Hv _].
  destruct (held c _ _ _ _ Hc (si_w _ _ _ I) Hp) as (ce & E & Nc & S1 & S2 & S3 & e & sd & m & Hs).
  destruct (sent_item c _ _ _ _ _ Hc (si_w _ _ _ I) Hs) as
    (l1 & l2 & ms & qs & memo & t & ch & md & anys & _ & El & _ & _ & _ & _ & _ & _ & To & _).
  set (T := env_time e + unwrap_or t 600 * 10 ^ 9) in To.
  set (h1 := Host (N.max T (h_clock (y_h s))) (h_chans (y_h s)) (h_receipt (y_h s)) (h_ack (y_h s)) (h_log (y_h s))
    (h_active (y_h s)) (h_accounts (y_h s))).
  destruct (C54_timeout_accepted c (y_w s) id n "relayer" p Hc (si_w _ _ _ I) eq_refl Hp) as (w' & b & A).
  assert (F : follows c k s (Sys w' (w' :: y_ws s) h1 (h1 :: y_hs s))).
  { eapply follows_step; [eapply follows_step; [constructor|]|].
    - eapply (S_host c k s (HClock (N.max T (h_clock (y_h s)))) (y_w s) h1 (si_here _ _ _ I)). cbn [hact].
      replace (h_clock (y_h s) <=? N.max T (h_clock (y_h s))) with true by lia. reflexivity.
    - eapply (S_controller c k (Sys (y_w s) (y_ws s) h1 (h1 :: y_hs s)) (ATimeout id n "relayer") h1); [now left| |exact A].
      cbn [genuine y_w]. exists ce, p. split; [exact E|]. split; [exact Hp|].
      assert (Nr : ~ In n (received (e_chan (ce_cp ce)) (h_log (y_h s)))).
      { intro Hr. destruct (in_received _ _ _ Hr) as (i & Hi & Eh & En). apply (Hn i Hi).
        eapply (item_is c k _ _ _ _ _ _ _ Hc (si_w _ _ _ I) (si_link _ _ _ I) Hv Hp E Hi Eh En). }
      destruct (host_end c _ _ _ _ Hc (si_w _ _ _ I) (si_link _ _ _ I) E Nc) as (hc & Hh1 & _ & _ & Ho).
      split; [|left; rewrite To; cbn [elapsed to_timestamp h1 h_clock]; unfold elapsed; cbn; lia].
      destruct (ce_order ce) eqn:O.
      + exists hc. split; [exact Hh1|]. rewrite (hi_ordered _ _ _ Hv _ _ Hh1 Ho), in_down in Nr.
        assert (1 <= n).
        { pose proof (si_w _ _ _ I) as V. pose proof (sends_count c _ id (visited_hist c _ Hc V)) as Sc.
          assert (In n (sent_on id (w_log (y_w s)))).
          { rewrite <- packets_sent_seq, <- S3. apply in_map, packets_sent_in. exists e, sd, m. split; [exact Hs|now rewrite S1]. }
          rewrite Sc in H. unfold upto in H. apply in_map_iff in H as (x & <- & H). apply in_seq in H. lia. }
        pose proof (hi_next _ _ _ Hv _ _ Hh1). lia.
      + destruct (h_receipt (y_h s) (e_chan (ce_cp ce)) n) eqn:Er; [|exact Er].
        exfalso. apply Nr. now apply (hi_receipt _ _ _ Hv _ _ Hh1 Ho). }
  eexists. split; [exact F|]. cbn [y_w].
  pose proof (follows_inv c k _ _ Hc I F) as I'. pose proof (si_w _ _ _ I') as V'. cbn [y_w] in V'.
  destruct (act_main c _ _ _ _ Hc (si_w _ _ _ I) A) as (pre & ce' & p' & _ & Hp' & El' & _). rewrite Hp in Hp'. injection Hp' as <-.
  assert (Hs' : In (LSent e sd m p) (w_log w')).
  { rewrite El'. apply in_or_app. right. now right. }
  pose proof (resolved_none c w' e sd m p Hc V' Hs') as N. rewrite S1, S3 in N. split.
  { apply N. right. exists "relayer". rewrite El'. apply in_or_app. right. now left. }
  intros addr Ea. assert (Hl : w_log (y_w s) <> []) by (intro X; now rewrite X in Hs).
  pose proof (reports c _ Hc (si_w _ _ _ I) Hl) as Rp. rewrite Ea in Rp.
  destruct (C33_timeout c _ _ _ _ _ _ _ _ Hc (si_w _ _ _ I) Rp A) as (q & new & Hq & En & Tl).
  rewrite Hp in Hq. injection Hq as <-. apply told_in in Tl as (msg & Tl & Tm). exists msg, (CbTimeout p "relayer").
  split; [rewrite En; apply in_or_app; now left|]. auto.
Qed.

Lemma in_upto n k : In n (upto k) <-> 1 <= n <= N.of_nat k.
Proof.
  unfold upto. rewrite in_map_iff. split.
  - intros (x & <- & H). apply in_seq in H. lia.
  - intro H. exists (N.to_nat n). split; [lia|]. apply in_seq. lia.
Qed.
Lemma acked_in id l n : In n (acked_on id l) <-> exists p ack r, In (LAck p ack r) l /\ e_chan (p_src p) = id /\ p_seq p = n.
Proof.
  induction l as [|x l IH]; [split; [intros []|intros (? & ? & ? & [] & _)]|].
  assert (G : In n (acked_on id l) \/ (exists p ack r, x = LAck p ack r /\ e_chan (p_src p) = id /\ p_seq p = n) <->
     exists p ack r, In (LAck p ack r) (x :: l) /\ e_chan (p_src p) = id /\ p_seq p = n).
  { rewrite IH. split.
    - intros [(p & ack & r & H & Hi)|(p & ack & r & -> & Hi)]; exists p, ack, r; (split; [|exact Hi]); [now right|now left].
    - intros (p & ack & r & [H|H] & Hi); [right|left]; exists p, ack, r; auto. }
  rewrite <- G. clear G.
  destruct x; cbn [acked_on]; try (split; [auto|intros [H|(? & ? & ? & H & _)]; [exact H|discriminate]]).
  destruct (String.eqb_spec (e_chan (p_src p)) id) as [E|E].
  - rewrite in_app_iff. cbn [In]. split.
    + intros [H|[<-|[]]]; [now left|right; eauto 7].
    + intros [H|(? & ? & ? & H & _ & <-)]; [now left|injection H as <- <- <-; right; now left].
  - split; [auto|]. intros [H|(? & ? & ? & H & Hi & _)]; [exact H|]. injection H as <- <- <-. congruence.
Qed.

Lemma plain_acks pre l id : Forall plain pre -> acks (pre ++ l) id = acks l id.
Proof. induction 1 as [|x pre Hx _ IH]; [reflexivity|]. destruct x; try contradiction; exact IH. Qed.
Lemma plain_open pre l id : Forall plain pre -> chan_open (pre ++ l) id = chan_open l id.
Proof. induction 1 as [|x pre Hx _ IH]; [reflexivity|]. destruct x; try contradiction; exact IH. Qed.
Lemma plain_callback pre l : Forall plain pre -> callback_of (pre ++ l) = callback_of l.
Proof. induction 1 as [|x pre Hx _ IH]; [reflexivity|]. destruct x; try contradiction; exact IH. Qed.
Lemma plain_count f pre l : (forall x, plain x -> f x = false) -> Forall plain pre -> count f (pre ++ l) = count f l.
Proof.
  intros Hf. induction 1 as [|x pre Hx _ IH]; [reflexivity|]. cbn [app]. rewrite count_cons, Hf by exact Hx. exact IH.
Qed.

(** Acknowledging the next packet of an open channel. *)
Lemma settle_one c k s id n p ce i : cfg_ok c -> hcfg_ok k -> reached c k s -> w_commit (y_w s) id n = Some p ->
  w_chans (y_w s) id = Some ce -> ce_state ce = COpen -> (ce_order ce = Ordered -> n = w_nextack (y_w s) id) ->
  In i (h_log (y_h s)) -> item_pkt i = p ->
  exists s', follows c k s s' /\ w_commit (y_w s') id n = None /\ y_h s' = y_h s /\
    (forall addr, callback_of (w_log (y_w s)) = Some addr -> exists msg qr, In (LCall addr msg) (w_log (y_w s')) /\
       from_json jc_receiver msg = Some (CbAck (item_ack i) p "relayer" qr)) /\
    exists ack pre, w_log (y_w s') = pre ++ LAck p ack "relayer" :: w_log (y_w s) /\ Forall plain pre.
Proof.
  intros Hc Hk R Hp E So Hn Hi Ep. pose proof (reached_inv c k s Hc R) as I.
  destruct (host_answer c k s id n p ce i Hc R Hp E Hi Ep) as (ack & Ha & Hj & Ok).
  assert (G : genuine c (AAck id n ack "relayer") (y_w s) (y_h s)) by (exists ce; auto).
  destruct (C76_ack_accepted c k s (y_h s) id n ack "relayer" p ce Hc Hk R (si_h _ _ _ I) G eq_refl Hp E So Hn) as (w' & b & A).
  assert (F : follows c k s (Sys w' (w' :: y_ws s) (y_h s) (y_hs s))).
  { eapply follows_step; [constructor|]. eapply S_controller; [exact (si_h _ _ _ I)|exact G|exact A]. }
  eexists. split; [exact F|]. cbn [y_w y_h].
  destruct (act_main c _ _ _ _ Hc (si_w _ _ _ I) A) as (pre & ce' & p' & _ & Hp' & El' & Pl). rewrite Hp in Hp'. injection Hp' as <-.
  destruct (held c _ _ _ _ Hc (si_w _ _ _ I) Hp) as (_ & _ & _ & S1 & _ & S3 & e & sd & m & Hs).
  pose proof (si_w _ _ _ (follows_inv c k _ _ Hc I F)) as V'. cbn [y_w] in V'.
  split; [|split; [reflexivity|split; [|exists ack, pre; auto]]].
  - assert (Hs' : In (LSent e sd m p) (w_log w')) by (rewrite El'; apply in_or_app; right; now right).
    pose proof (resolved_none c w' e sd m p Hc V' Hs') as N. rewrite S1, S3 in N. apply N. left. exists ack, "relayer".
    rewrite El'. apply in_or_app. right. now left.
  - intros addr Ea. assert (Hl : w_log (y_w s) <> []) by (intro X; now rewrite X in Hs).
    pose proof (reports c _ Hc (si_w _ _ _ I) Hl) as Rp. rewrite Ea in Rp.
    destruct (C33_ack c _ _ _ _ _ _ _ _ _ Hc (si_w _ _ _ I) Rp A) as (q & d & qr & new & Hq & Hd & En & Tl).
    rewrite Hp in Hq. injection Hq as <-. rewrite Hj in Hd. injection Hd as <-. apply told_in in Tl as (msg & Tl & Tm).
    exists msg, qr. split; [rewrite En; apply in_or_app; now left|exact Tm].
Qed.

Lemma settle_ack c k id n p : cfg_ok c -> hcfg_ok k -> forall d s ce i, reached c k s -> w_commit (y_w s) id n = Some p ->
  w_chans (y_w s) id = Some ce -> ce_state ce = COpen -> In i (h_log (y_h s)) -> item_pkt i = p ->
  (N.to_nat n - N.to_nat (acks (w_log (y_w s)) id) <= d)%nat ->
  exists s', follows c k s s' /\ w_commit (y_w s') id n = None /\ y_h s' = y_h s /\
    forall addr, callback_of (w_log (y_w s)) = Some addr -> exists msg qr, In (LCall addr msg) (w_log (y_w s')) /\
      from_json jc_receiver msg = Some (CbAck (item_ack i) p "relayer" qr).
Proof.
  intros Hc Hk. induction d as [|d IH]; intros s ce i R Hp E So Hi Ep Hd.
  all: pose proof (reached_inv c k s Hc R) as I; pose proof (si_w _ _ _ I) as V.
  all: destruct (ce_order ce) eqn:O; [|destruct (settle_one c k s id n p ce i Hc Hk R Hp E So ltac:(congruence) Hi Ep) as (s' & F & N & Eh & Tl & _); eauto 6].
  all: destruct (held c _ _ _ _ Hc V Hp) as (_ & _ & _ & S1 & _ & S3 & e & sd & m & Hs).
  all: pose proof (HostInv.end_opened c _ _ _ Hc V E ltac:(congruence)) as Op.
  all: assert (Or : chan_ordered (w_log (y_w s)) id = true) by (unfold chan_ordered; rewrite Op; cbn; now rewrite O).
  all: destruct (acks_order c _ id (visited_hist c _ Hc V)) as [_ Ak]; destruct (Ak Or) as (Ak1 & _).
  all: assert (Na : w_nextack (y_w s) id = 1 + acks (w_log (y_w s)) id)
         by (pose proof (il_ack _ (visited_log c _ Hc V) id) as J; rewrite E in J; now apply J).
  all: assert (Sn : In n (sent_on id (w_log (y_w s))))
         by (rewrite <- packets_sent_seq, <- S3; apply in_map, packets_sent_in; exists e, sd, m; split; [exact Hs|now rewrite S1]).
  all: rewrite (sends_count c) in Sn by (now apply visited_hist); apply in_upto in Sn.
  all: assert (Gt : acks (w_log (y_w s)) id < n)
         by (destruct (N.lt_ge_cases (acks (w_log (y_w s)) id) n) as [H|H]; [exact H|exfalso];
             assert (Ia : In n (acked_on id (w_log (y_w s)))) by (rewrite Ak1; apply in_upto; lia);
             apply acked_in in Ia as (p' & ack & r & Ia & Es1 & Es2);
             destruct (C66_accounted c _ _ _ _ _ Hc V Hs) as [(_ & A0 & _)|[(A0 & _)|(A0 & _)]]; rewrite ?S1, ?S3 in A0; cbn [e_chan] in A0; [|congruence|congruence];
             assert (P : acks_of id n (LAck p' ack r) = true) by (cbn [acks_of]; unfold at_pkt; rewrite Es1, Es2, String.eqb_refl, N.eqb_refl; reflexivity);
             pose proof (count_pos _ _ _ Ia P); lia).
  1: lia.
  destruct (N.eq_dec n (acks (w_log (y_w s)) id + 1)) as [En|En].
  { destruct (settle_one c k s id n p ce i Hc Hk R Hp E So ltac:(intros _; lia) Hi Ep) as (s' & F & N & Eh & Tl & _); eauto 6. }
  set (m0 := acks (w_log (y_w s)) id + 1) in *.
  (* the packet before *)
  assert (X : exists q, w_commit (y_w s) id m0 = Some q /\ exists j, In j (h_log (y_h s)) /\ item_pkt j = q).
  { assert (Hm : In m0 (map p_seq (packets_sent id (w_log (y_w s))))).
    { rewrite packets_sent_seq, (sends_count c) by (now apply visited_hist). apply in_upto. lia. }
    apply in_map_iff in Hm as (q & Q1 & Q2). apply packets_sent_in in Q2 as (e1 & sd1 & m1 & Q2 & Q3).
    assert (Cq : w_commit (y_w s) id m0 = Some q).
    { destruct (C66_accounted c _ _ _ _ _ Hc V Q2) as [(A0 & _)|[(_ & A0 & _)|(_ & _ & A0)]]; rewrite Q1, Q3 in A0.
      - exact A0.
      - exfalso. unfold count in A0. destruct (filter (acks_of id m0) (w_log (y_w s))) as [|x r] eqn:Fx; [discriminate|].
        assert (Ix : In x (filter (acks_of id m0) (w_log (y_w s)))) by (rewrite Fx; now left).
        apply filter_In in Ix as [Ix1 Ix2]. destruct x; try discriminate. cbn [acks_of] in Ix2. unfold at_pkt in Ix2.
        apply andb_prop in Ix2 as [Ix2 Ix3]. apply String.eqb_eq in Ix2. apply N.eqb_eq in Ix3.
        assert (Ia : In m0 (acked_on id (w_log (y_w s)))) by (apply acked_in; eauto 7). rewrite Ak1, in_upto in Ia. lia.
      - exfalso. unfold count in A0. destruct (filter (timeouts_of id m0) (w_log (y_w s))) as [|x r] eqn:Fx; [discriminate|].
        assert (Ix : In x (filter (timeouts_of id m0) (w_log (y_w s)))) by (rewrite Fx; now left).
        apply filter_In in Ix as [Ix1 Ix2]. destruct x; try discriminate. cbn [timeouts_of] in Ix2. unfold at_pkt in Ix2.
        apply andb_prop in Ix2 as [Ix2 Ix3]. apply String.eqb_eq in Ix2.
        destruct (timed_out_closed c _ id _ _ (visited_hist c _ Hc V) Ix1 Ix2) as [_ Cl]. specialize (Cl Or).
        pose proof (ic_chan _ _ (inv_chans _ _ (visited_inv c _ Hc V)) id) as C0. rewrite E in C0.
        destruct C0 as (_ & _ & _ & _ & _ & C0). rewrite So in C0. destruct C0 as [_ C0]. congruence. }
    exists q. split; [exact Cq|].
    destruct (si_hs _ _ _ I _ (si_h _ _ _ I)) as [Hv _].
    destruct (host_end c _ _ _ _ Hc V (si_link _ _ _ I) E ltac:(congruence)) as (hc & Hh1 & _ & _ & Ho). rewrite O in Ho.
    destruct (hi_item _ _ _ Hv _ Hi) as (hc' & ack & H1 & _ & H2 & _).
    assert (Eh : item_hid i = e_chan (ce_cp ce)).
    { rewrite <- H2, Ep. destruct (held c _ _ _ _ Hc V Hp) as (ce2 & E2 & _ & _ & S2' & _). congruence. }
    pose proof (received_in _ _ _ Hi Eh) as Rn. rewrite Ep, S3 in Rn.
    rewrite (hi_ordered _ _ _ Hv _ _ Hh1 Ho), in_down in Rn.
    assert (Rm : In m0 (received (e_chan (ce_cp ce)) (h_log (y_h s)))).
    { rewrite (hi_ordered _ _ _ Hv _ _ Hh1 Ho), in_down. lia. }
    destruct (in_received _ _ _ Rm) as (j & Hj & Ej & Sj). exists j. split; [exact Hj|].
    eapply (item_is c k _ _ _ _ _ _ _ Hc V (si_link _ _ _ I) Hv Cq E Hj Ej Sj). }
  destruct X as (q & Cq & j & Hj & Ej).
  destruct (settle_one c k s id m0 q ce j Hc Hk R Cq E So ltac:(intros _; lia) Hj Ej) as (s1 & F1 & _ & Eh1 & _ & ack & pre & El & Pl).
  pose proof (reached_follows _ _ _ _ R F1) as R1. pose proof (reached_inv c k s1 Hc R1) as I1. pose proof (si_w _ _ _ I1) as V1.
  destruct (follows_later _ _ _ _ Hc I F1) as [L1 _].
  destruct (later_chan c _ _ _ _ Hc V L1 E) as (ce1 & E1 & _ & _ & Se & _). destruct Se as (Sc & _ & Sn1); [congruence|].
  assert (Q3 : p_src q = Endpoint (port c) id /\ p_seq q = m0).
  { destruct (held c _ _ _ _ Hc V Cq) as (_ & _ & _ & T1 & _ & T3 & _). auto. }
  destruct Q3 as [Q3 Q4].
  assert (So1 : ce_state ce1 = COpen).
  { pose proof (ic_chan _ _ (inv_chans _ _ (visited_inv c _ Hc V1)) id) as C1. rewrite E1 in C1.
    destruct C1 as (_ & _ & _ & _ & _ & C1). destruct (ce_state ce1); [congruence|reflexivity|]. destruct C1 as [_ C1].
    rewrite El, plain_open in C1 by exact Pl. cbn [chan_open] in C1.
    pose proof (ic_chan _ _ (inv_chans _ _ (visited_inv c _ Hc V)) id) as C0. rewrite E in C0.
    destruct C0 as (_ & _ & _ & _ & _ & C0). rewrite So in C0. destruct C0 as [_ C0]. congruence. }
  assert (Hp1 : w_commit (y_w s1) id n = Some p).
  { assert (Hs1 : In (LSent e sd m p) (w_log (y_w s1))) by (rewrite El; apply in_or_app; right; now right).
    assert (Aq : at_pkt id n q = false) by (unfold at_pkt; rewrite Q4; destruct (N.eqb_spec m0 n); [lia|]; now rewrite andb_false_r).
    destruct (C66_accounted c _ _ _ _ _ Hc V Hs) as [(_ & A1 & A2)|[(A0 & _)|(A0 & _)]]; rewrite ?S1, ?S3 in *; cbn [e_chan] in *; [|congruence|congruence].
    destruct (C66_accounted c _ _ _ _ _ Hc V1 Hs1) as [(A0 & _)|[(_ & A0 & _)|(_ & _ & A0)]]; rewrite ?S1, ?S3 in A0; cbn [e_chan] in A0; [exact A0|exfalso|exfalso].
    - rewrite El, plain_count, count_cons in A0; [|intros x Hx; destruct x; try contradiction; reflexivity|exact Pl].
      cbn [acks_of] in A0. rewrite Aq in A0. lia.
    - rewrite El, plain_count, count_cons in A0; [|intros x Hx; destruct x; try contradiction; reflexivity|exact Pl].
      cbn [timeouts_of] in A0. lia. }
  destruct (IH s1 ce1 i R1 Hp1 E1 So1) as (s' & F' & N' & Eh' & Tl'); [now rewrite Eh1|exact Ep| |
    exists s'; split; [eapply follows_trans; eassumption|split; [exact N'|split; [congruence|]]];
    rewrite El, plain_callback in Tl' by exact Pl; exact Tl'].
  rewrite El, plain_acks by exact Pl. cbn [acks]. rewrite Q3. cbn [e_chan]. rewrite String.eqb_refl. lia.
Qed.

(** A closed channel takes no acknowledgement. *)
Lemma stuck_step c w a w' b id n p ce : cfg_ok c -> visited c w -> act c a w = Some (w', b) ->
  w_commit w id n = Some p -> w_chans w id = Some ce -> ce_state ce = CClosed ->
  w_commit w' id n = Some p \/ exists r, In (LTimeout p r) (w_log w').
Proof.
  intros Hc V A Hp E St. destruct (act_block c w a w' b Hc V A) as (new & B & El).
  destruct (held c _ _ _ _ Hc V Hp) as (_ & _ & _ & S1 & _ & S3 & e & sd & m & Hs).
  assert (V' : visited c w') by (eapply visited_act; eassumption).
  assert (Hs' : In (LSent e sd m p) (w_log w')) by (rewrite El; apply in_or_app; now right).
  destruct (C66_accounted c _ _ _ _ _ Hc V Hs) as [(_ & A1 & A2)|[(A0 & _)|(A0 & _)]]; rewrite ?S1, ?S3 in *; cbn [e_chan] in *; [|congruence|congruence].
  destruct (C66_accounted c _ _ _ _ _ Hc V' Hs') as [(A0 & _)|[(_ & A0 & _)|(_ & _ & A0)]]; rewrite ?S1, ?S3 in *; cbn [e_chan] in *; [now left|exfalso|right].
  - assert (Cn : (1 <= count (acks_of id n) new)%nat).
    { rewrite El in A0. unfold count in *. rewrite filter_app, app_length in A0. lia. }
    unfold count in Cn. destruct (filter (acks_of id n) new) as [|x r] eqn:Fx; [cbn in Cn; lia|].
    assert (Ix : In x (filter (acks_of id n) new)) by (rewrite Fx; now left).
    apply filter_In in Ix as [Ix1 Ix2]. destruct x; try discriminate. cbn [acks_of] in Ix2. unfold at_pkt in Ix2.
    apply andb_prop in Ix2 as [Ix2 _]. apply String.eqb_eq in Ix2.
    assert (Cl : chan_open (w_log w) id = false).
    { pose proof (ic_chan _ _ (inv_chans _ _ (visited_inv c _ Hc V)) id) as C0. rewrite E in C0.
      destruct C0 as (_ & _ & _ & _ & _ & C0). rewrite St in C0. apply C0. }
    destruct B as [B|B].
    + apply user_local in B. rewrite Forall_forall in B. exact (B _ Ix1).
    + destruct B; repeat match goal with X : callback _ _ _ |- _ => apply callback_quiet in X as [->|(? & ? & ->)] end;
        cbn [app In] in Ix1; repeat (destruct Ix1 as [Ix1|Ix1]; [try discriminate Ix1|]); try contradiction;
        injection Ix1 as -> -> ->; rewrite Ix2 in *; congruence.
  - unfold count in A0. destruct (filter (timeouts_of id n) (w_log w')) as [|x r] eqn:Fx; [discriminate|].
    assert (Ix : In x (filter (timeouts_of id n) (w_log w'))) by (rewrite Fx; now left).
    apply filter_In in Ix as [Ix1 Ix2]. destruct x; try discriminate. cbn [timeouts_of] in Ix2. unfold at_pkt in Ix2.
    apply andb_prop in Ix2 as [Ix2 Ix3]. apply String.eqb_eq in Ix2. apply N.eqb_eq in Ix3.
    apply in_split in Ix1 as (l1 & l2 & El').
    assert (Rv : resolves id n (LTimeout p0 relayer) = true).
    { cbn [resolves]. unfold at_pkt. now rewrite Ix2, Ix3, String.eqb_refl, N.eqb_refl. }
    destruct (C45_only_own_packets c w' l1 _ l2 id n Hc V' El' (or_introl Rv)) as (q & e' & sd' & m' & Hq & Q1 & Q2 & ->).
    assert (Es : LSent e' sd' m' q = LSent e sd m p).
    { eapply (sent_same c w' _ _ _ _ _ _ _ _ Hc V'); [rewrite El'; apply in_or_app; right; right; exact Hq|exact Hs'|
        now rewrite S1|congruence]. }
    injection Es as _ _ _ ->. exists relayer. rewrite El'. apply in_or_app. right. now left.
Qed.

(** A packet the host has handled, on a channel that has been closed since: it
    stays held for ever, and no callback ever tells what became of it. *)
Lemma stuck c k s id n p ce i : cfg_ok c -> reached c k s -> w_commit (y_w s) id n = Some p ->
  w_chans (y_w s) id = Some ce -> ce_state ce = CClosed -> In i (h_log (y_h s)) -> item_pkt i = p ->
  forall s', follows c k s s' -> w_commit (y_w s') id n = Some p.
Proof.
  intros Hc R Hp E St Hi Ep s' F. pose proof (reached_inv c k s Hc R) as I.
  induction F as [|s1 s2 F IH Sp]; [exact Hp|].
  pose proof (follows_inv c k s s1 Hc I F) as I1.
  assert (F2 : follows c k s s2) by (eapply follows_step; eassumption). pose proof (follows_inv c k s s2 Hc I F2) as I2.
  pose proof (host_log_grows c k s s2 i Hc I F2 Hi) as Hi2.
  destruct Sp as [a h w b Hh G A|a w h Hw A]; cbn [y_w y_h] in *; [|exact IH].
  destruct (follows_later _ _ _ _ Hc I F) as [L _].
  destruct (later_chan c _ _ _ _ Hc (si_w _ _ _ I) L E) as (ce1 & E1 & _ & _ & _ & Cl).
  destruct (stuck_step c _ _ _ _ _ _ _ _ Hc (si_w _ _ _ I1) A IH E1 (Cl St)) as [H|(r & H)]; [exact H|exfalso].
  now apply (proj1 (lk_timeout _ _ _ (si_link _ _ _ I2) p r H) i Hi2).
Qed.

(** A packet can still be acknowledged or time out, and the callback contract be
    told, exactly if its channel is open or the host has not handled it. *)
Theorem C76_concluded_partial : forall c k s id n p ce,
  cfg_ok c -> hcfg_ok k -> reached c k s -> w_commit (y_w s) id n = Some p -> w_chans (y_w s) id = Some ce ->
  ((exists s', follows c k s s' /\ w_commit (y_w s') id n = None /\
      forall addr, callback_of (w_log (y_w s)) = Some addr -> outcome_told (w_log (y_w s')) addr p) <->
   ce_state ce = COpen \/ forall i, In i (h_log (y_h s)) -> item_pkt i <> p).
Proof.
  intros c k s id n p ce Hc Hk R Hp E. pose proof (reached_inv c k s Hc R) as I. 
  assert (D : (exists i, In i (h_log (y_h s)) /\ item_pkt i = p) \/ forall i, In i (h_log (y_h s)) -> item_pkt i <> p).
  { destruct (si_hs _ _ _ I _ (si_h _ _ _ I)) as [Hv _].
    destruct (in_dec N.eq_dec n (received (e_chan (ce_cp ce)) (h_log (y_h s)))) as [D|D].
    - left. destruct (in_received _ _ _ D) as (i & Hi & Eh & En). exists i. split; [exact Hi|].
      eapply (item_is c k _ _ _ _ _ _ _ Hc (si_w _ _ _ I) (si_link _ _ _ I) Hv Hp E Hi Eh En).
    - right. intros i Hi Ep. apply D.
      destruct (held c _ _ _ _ Hc (si_w _ _ _ I) Hp) as (ce' & E' & _ & _ & S2 & S3 & _). rewrite E in E'. injection E' as <-.
      destruct (hi_item _ _ _ Hv _ Hi) as (_ & _ & _ & _ & Hd & _).
      rewrite <- S3, <- Ep. apply received_in; [exact Hi|]. rewrite <- Hd, Ep. congruence. }
  split.
  - intros (s' & F & N & _). destruct D as [(i & Hi & Ep)|D]; [left|now right].
    destruct (ce_state ce) eqn:St; [|reflexivity|].
    + destruct (held c _ _ _ _ Hc (si_w _ _ _ I) Hp) as (ce' & E' & Nc & _). rewrite E in E'. injection E' as <-. congruence.
    + rewrite (stuck c k s id n p ce i Hc R Hp E St Hi Ep s' F) in N. discriminate.
  - intros [So|Hn]; [|now apply settle_timeout with (p := p)].
    destruct D as [(i & Hi & Ep)|D]; [|now apply settle_timeout with (p := p)].
    destruct (settle_ack c k id n p Hc Hk _ s ce i R Hp E So Hi Ep (le_n _)) as (s' & F & N & _ & Tl).
    exists s'. split; [exact F|]. split; [exact N|]. intros addr Ea. destruct (Tl addr Ea) as (msg & qr & T1 & T2).
    exists msg, (CbAck (item_ack i) p "relayer" qr). auto.
Qed.

(** The unconditional statement is false: the owner sends a request, the host
    runs it, the owner closes the channel before the acknowledgement arrives.
    The outcome can never be reported: in every later system the packet is still
    held, and no callback is about it. *)
Theorem C76_concluded_refuted : exists c k s hid p account anys res answers,
  cfg_ok c /\ hcfg_ok k /\ reached c k s /\
  In (Ran hid p account anys res answers) (h_log (y_h s)) /\ callback_of (w_log (y_w s)) <> None /\
  forall s', follows c k s s' ->
    w_commit (y_w s') (e_chan (p_src p)) (p_seq p) = Some p /\
    forall addr msg cb, In (LCall addr msg) (w_log (y_w s')) -> from_json jc_receiver msg = Some cb ->
      match cb with CbAck _ q _ _ | CbTimeout q _ => q <> p | CbOpenAck _ _ _ => True end.
Proof.
  set (s := sys0 (done0 Unordered ++ [on_contract (exec "owner" XCloseChannel "")])).
  assert (R : reached cfg0 k0 s) by apply sys0_reached.
  assert (X : exists hid p account anys res answers ce, h_log (y_h s) = [Ran hid p account anys res answers] /\
    w_commit (y_w s) (e_chan (p_src p)) (p_seq p) = Some p /\ w_chans (y_w s) (e_chan (p_src p)) = Some ce /\ ce_state ce = CClosed).
  { eexists _, _, _, _, _, _, _. split; [vm_compute; reflexivity|]. split; [vm_compute; reflexivity|].
    split; [vm_compute; reflexivity|reflexivity]. }
  destruct X as (hid & p & account & anys & res & answers & ce & X1 & X2 & X3 & X4).
  exists cfg0, k0, s, hid, p, account, anys, res, answers. split; [exact cfg0_ok|]. split; [exact k0_ok|]. split; [exact R|].
  assert (Hi : In (Ran hid p account anys res answers) (h_log (y_h s))) by (rewrite X1; now left).
  split; [exact Hi|]. split; [vm_compute; discriminate|].
  intros s' F. pose proof (stuck cfg0 k0 s _ _ p ce _ cfg0_ok R X2 X3 X4 Hi eq_refl s' F) as H. split; [exact H|].
  intros addr msg cb Hcall Hm.
  pose proof (reached_follows _ _ _ _ R F) as R'. pose proof (reached_inv _ _ _ cfg0_ok R') as I'.
  destruct (held cfg0 _ _ _ _ cfg0_ok (si_w _ _ _ I') H) as (_ & _ & _ & _ & _ & _ & e & sd & m & Hs).
  apply in_split in Hcall as (l1 & l2 & El). pose proof (call_item cfg0 _ _ _ _ _ _ cfg0_ok (si_w _ _ _ I') El Hm) as C.
  destruct cb as [d q relayer qr|q relayer|]; [| |exact I].
  - intros ->. destruct C as (ack & C & _).
    pose proof (resolved_none cfg0 _ _ _ _ _ cfg0_ok (si_w _ _ _ I') Hs (or_introl (ex_intro _ ack (ex_intro _ relayer C)))). congruence.
  - intros ->.
    pose proof (resolved_none cfg0 _ _ _ _ _ cfg0_ok (si_w _ _ _ I') Hs (or_intror (ex_intro _ relayer C))). congruence.
Qed.
Example C76_case : exists s p ce, reached cfg0 k0 s /\ w_commit (y_w s) "channel-0" 2 = Some p /\
  w_chans (y_w s) "channel-0" = Some ce /\ ce_state ce = COpen /\ ce_order ce = Ordered /\ w_nextack (y_w s) "channel-0" = 1.
Proof.
  exists (sys0 (two0 Ordered)). eexists _, _. split; [apply sys0_reached|]. split; [vm_compute; reflexivity|].
  split; [vm_compute; reflexivity|]. split; [reflexivity|]. split; [reflexivity| vm_compute; reflexivity].
Qed.

(** ** C79: the host accepts what the contract sends *)

Lemma meaning_not_query m a signer reqs : meaning m a = Some (HQuerySafe signer reqs) -> False.
Proof.
  unfold meaning. destruct m; try discriminate;
    repeat match goal with |- context [match ?x with _ => _ end] => is_var x; destruct x end; try discriminate.
  all: repeat match goal with |- context [match ?x with _ => _ end] => destruct x end; discriminate.
Qed.

(** The packet of a request without raw messages, presented in time and in
    order on an open channel, passes the host's decoding and authentication: the
    host can run it with any responses and any answers (one per query). *)
Theorem C79_host_accepts : forall c k s id n p e sender ms qs memo t hid hc legacy resps answers ack,
  cfg_ok c -> hcfg_ok k -> reached c k s ->
  In (LSent e sender (XSendCosmosMsgs ms qs memo t) p) (w_log (y_w s)) -> w_commit (y_w s) id n = Some p ->
  Forall (fun m => match m with MStargate _ _ => False | _ => True end) ms ->
  h_chans (y_h s) hid = Some hc -> hc_state hc = HsOpen -> e_chan (p_dest p) = hid ->
  h_clock (y_h s) < env_time e + unwrap_or t 600 * 10 ^ 9 ->
  match hc_order hc with
  | Ordered => n = hc_next hc
  | Unordered => forall i, In i (h_log (y_h s)) -> item_pkt i <> p
  end ->
  length resps = length ms ->
  match qs, answers with
  | [], None => True
  | _ :: _, Some (h, bs) => length bs = length qs /\ h < u64_lim
  | _, _ => False
  end ->
  sizes_fit legacy resps answers = true ->
  from_json jc_ack ack = Some (AckResult (result_bytes legacy resps answers)) ->
  exists h' anys, hact c k (HRecv hid n (Runs legacy resps answers) ack) (y_w s) (y_h s) = Some h' /\
    h_log h' = Ran hid p (hc_account hc) anys (result_bytes legacy resps answers) answers :: h_log (y_h s) /\
    packet_spec (hc_account hc) ms qs anys.
Proof.
  intros c k s id n p e sender ms qs memo t hid hc legacy resps answers ack Hc Hk R Hs Hp Ns Hh So Hd Ht Hn Hl Ha Sz Hj.
  pose proof (reached_inv c k s Hc R) as I. pose proof (si_w _ _ _ I) as V.
  destruct (si_hs _ _ _ I _ (si_h _ _ _ I)) as [Hv _].
  destruct (sent_item c _ _ _ _ _ Hc V Hs) as
    (l1 & l2 & ms' & qs' & memo' & t' & ch & md & anys & Em & El & _ & _ & Op & S1 & S2 & Md & To & Pk & Sp).
  injection Em as <- <- <- <-.
  destruct (held c _ _ _ _ Hc V Hp) as (ce & E & Nc & T1 & T2 & T3 & _).
  destruct (lk_open _ _ _ (si_link _ _ _ I) _ _ Op) as (hc' & Hc1 & Hc2 & Hc3 & _).
  rewrite <- S2, Hd, Hh in Hc1. injection Hc1 as <-.
  destruct (hi_chan _ _ _ Hv _ _ Hh) as (id' & md' & _ & Md' & Ad). rewrite Hc3, Md in Md'. injection Md' as <-.
  rewrite Ad in Sp. rewrite T1 in Hc2. cbn [e_chan] in Hc2.
  pose proof (packet_signed _ _ _ _ Sp) as (Len & Sg1 & Sg2).
  assert (Sg : forallb (signed_by k (hc_account hc)) anys = true).
  { apply forallb_forall. intros [u b] Hub. apply In_nth_error in Hub as (j & Hub).
    assert (X : exists h, host_decode u b = Some h /\ host_signer h = hc_account hc).
    { destruct (nth_error ms j) as [m|] eqn:Ej.
      - destruct (Sg1 j m Ej) as (u' & b' & Hub' & X). rewrite Hub in Hub'. injection Hub' as <- <-.
        rewrite Forall_forall in Ns. specialize (Ns m (nth_error_In _ _ Ej)). destruct m; solve [contradiction|exact X].
      - apply nth_error_None in Ej. assert (j < length anys)%nat by (apply nth_error_Some; congruence).
        destruct qs as [|q qs]; [lia|]. destruct (Sg2 ltac:(discriminate)) as (u' & b' & h & Hub' & X1 & X2).
        assert (j = length ms) as -> by lia. rewrite Hub in Hub'. injection Hub' as <- <-. eauto. }
    destruct X as (h & X1 & X2). unfold signed_by. cbn [fst snd]. rewrite (proj1 Hk _ _ _ X1), X2. apply String.eqb_refl. }
  assert (Af : answers_fit anys answers = true).
  { destruct Sp as (l & rest & -> & F & Rest). unfold answers_fit. destruct qs as [|q qs].
    - subst rest. destruct answers as [[h bs]|]; [contradiction|]. rewrite app_nil_r.
      destruct (rev l) as [|[u b] r] eqn:Er; [reflexivity|].
      assert (Il : In (u, b) l) by (apply in_rev; rewrite Er; now left).
      destruct (host_decode u b) as [h|] eqn:Dh; [|reflexivity].
      apply In_nth_error in Il as (j & Il). destruct (nth_error ms j) as [m|] eqn:Ej.
      + destruct (Forall2_nth _ _ _ F j m Ej) as (x & Hx & C). rewrite Il in Hx. injection Hx as <-. cbn [fst snd] in C.
        rewrite Forall_forall in Ns. specialize (Ns m (nth_error_In _ _ Ej)). unfold carries in C.
        destruct m; try contradiction; destruct C as (h' & C1 & C2); rewrite Dh in C2; injection C2 as ->;
          destruct h'; try reflexivity; exfalso; eapply meaning_not_query; exact C1.
      + apply nth_error_None in Ej. pose proof (Forall2_len _ _ _ F). assert (j < length l)%nat by (apply nth_error_Some; congruence). lia.
    - destruct Rest as (u & b & reqs & -> & D & F2). rewrite rev_app_distr. cbn [rev app]. rewrite D.
      destruct answers as [[h bs]|]; [|contradiction]. destruct Ha as [Ha1 Ha2]. rewrite Ha1, (Forall2_len _ _ _ F2), Nat.eqb_refl. cbn [andb]. lia. }
  assert (Ln : (length anys =? length resps + (if answers then 1 else 0))%nat = true).
  { apply Nat.eqb_eq. rewrite Len, Hl. destruct qs, answers as [[h bs]|]; try contradiction; reflexivity. }
  eexists _, anys. cbn [hact]. rewrite Hh. cbn [obind]. rewrite So. cbn [guard obind]. rewrite Hc2. cbn [e_chan].
  rewrite Hp. cbn [obind]. rewrite Hd, String.eqb_refl. cbn [guard obind]. unfold elapsed. rewrite To. cbn [to_timestamp].
  replace (env_time e + unwrap_or t 600 * 10 ^ 9 <=? h_clock (y_h s)) with false by lia. cbn [negb guard obind].
  assert (Tn : match hc_order hc with Ordered => n =? hc_next hc | Unordered => negb (h_receipt (y_h s) hid n) end = true).
  { destruct (hc_order hc) eqn:O; [subst n; apply N.eqb_refl|].
    destruct (h_receipt (y_h s) hid n) eqn:Er; [exfalso|reflexivity].
    apply (hi_receipt _ _ _ Hv _ _ Hh O) in Er. destruct (in_received _ _ _ Er) as (i & Hi & Eh & En).
    apply (Hn i Hi). eapply (item_is c k _ _ _ _ _ _ _ Hc V (si_link _ _ _ I) Hv Hp E Hi); [congruence|exact En]. }
  rewrite Tn. cbn [guard obind]. cbn [deliver]. rewrite Pk. cbn [obind]. rewrite Sg. cbn [guard obind]. rewrite Af. cbn [guard obind].
  rewrite Ln. cbn [guard obind]. rewrite Sz. cbn [guard obind]. unfold says. rewrite Hj, String.eqb_refl. cbn [guard obind].
  split; [reflexivity|]. split; [reflexivity|exact Sp].
Qed.
Example C79_case : exists s p e sender memo t hc, reached cfg0 k0 s /\
  In (LSent e sender (XSendCosmosMsgs [bank0] [query0] memo t) p) (w_log (y_w s)) /\ w_commit (y_w s) "channel-0" 1 = Some p /\
  h_chans (y_h s) "channel-7" = Some hc /\ hc_state hc = HsOpen /\ e_chan (p_dest p) = "channel-7" /\
  h_clock (y_h s) < env_time e + unwrap_or t 600 * 10 ^ 9 /\ hc_order hc = Ordered /\ 1 = hc_next hc /\
  sizes_fit [] [resp0] (Some (42, [answer0])) = true /\
  from_json jc_ack (ack_of (AckResult result0)) = Some (AckResult (result_bytes [] [resp0] (Some (42, [answer0])))).
Proof.
  exists (sys0 (asked0 Ordered)). eexists _, _, _, _, _, _. split; [apply sys0_reached|].
  split; [vm_compute; left; reflexivity|]. split; [vm_compute; reflexivity|]. split; [vm_compute; reflexivity|].
  repeat (split; [reflexivity|]). vm_compute. reflexivity.
Qed.

Print Assumptions C72_only_requested.
Print Assumptions C72_once.
Print Assumptions C73_in_order.
Print Assumptions C74_callbacks_true.
Print Assumptions C75_answers.
Print Assumptions C77_account.
Print Assumptions C78_closed_why.
Print Assumptions C78_no_close_confirm.
Print Assumptions C76_ack_accepted.
Print Assumptions C76_concluded_partial.
Print Assumptions C76_concluded_refuted.
Print Assumptions C79_host_accepts.
