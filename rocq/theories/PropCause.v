(** * PropCause: what brings the exceptions about.

    C13, C15, C31, C53 and C61 are false of the code.  The theorems here say for
    each which events of the history, and no others, make an exception.  They
    look only at what happened since the channel in question was opened, so that
    older accidents do not matter. *)

From Verif Require Import Base Utf8 Proto Json JsonCodec Types JsonTypes Store Contract CosmosMsg QueryMsg Metadata PacketData
  JsonSound HostSpec AnswerSpec Chain ChainSpec Trans Inv HistorySpec History HistFacts Queries Enabled Witness
  PropChannel PropPacket PropAnswer PropClose.
From Coq Require Import ZifyBool ZifyN.
Local Open Scope string_scope.
Local Open Scope list_scope.
Local Open Scope N_scope.

(** ** C15 *)

(** At some time this channel was reported open, and a packet of another channel
    timed out. *)
Definition late_timeout_of (l : list logitem) (ch : channel) : Prop :=
  exists l1 p relayer l2, l = l1 ++ LTimeout p relayer :: l2 /\
    recorded l2 = Some (ch, true) /\ e_chan (p_src p) <> e_chan (ch_endpoint ch).

Lemma late_cons i l ch : late_timeout_of l ch -> late_timeout_of (i :: l) ch.
Proof.
  intros (l1 & p & r & l2 & -> & H). exists (i :: l1), p, r, l2. split; [reflexivity|exact H].
Qed.

Lemma closed_open l ch : recorded l = Some (ch, false) -> chan_open l (e_chan (ch_endpoint ch)) = true ->
  ch_order ch = Ordered /\ late_timeout_of l ch.
Proof.
  induction l as [|i l IH]; [discriminate|].
  assert (IH' : recorded l = Some (ch, false) -> chan_open l (e_chan (ch_endpoint ch)) = true ->
    ch_order ch = Ordered /\ late_timeout_of (i :: l) ch).
  { intros R O. destruct (IH R O) as [E L]. split; [exact E|]. now apply late_cons. }
  destruct i; cbn [recorded chan_open]; auto.
  - discriminate.
  - destruct (recorded l) as [[ch' b]|] eqn:Er; [|discriminate]. unfold on_chan.
    destruct (String.eqb_spec (e_chan (ch_endpoint ch')) id) as [E|E]; intro H; assert (ch' = ch) by congruence; subst.
    + rewrite String.eqb_refl. discriminate.
    + destruct (String.eqb_spec id (e_chan (ch_endpoint ch))); [discriminate|]. now apply IH'.
  - pose proof (recorded_last l) as L. destruct (recorded l) as [[ch' b]|] eqn:Er; [|discriminate]. intro H.
    assert (ch' = ch) by (destruct (order_eqb _ _); congruence). subst ch'.
    unfold chan_ordered. pose proof (last_opened_opened l ch L) as O.
    destruct (String.eqb_spec (e_chan (p_src p)) (e_chan (ch_endpoint ch))) as [E|E]; cbn [andb].
    + rewrite O. destruct (ch_order ch) eqn:Eo; cbn [order_eqb] in *; [discriminate|].
      apply IH'. congruence.
    + intro Hop. destruct (ch_order ch) eqn:Eo; cbn [order_eqb] in H; [|apply IH'; congruence].
      split; [reflexivity|]. destruct b; [|apply IH'; congruence].
      exists [], p, relayer, l. auto.
Qed.

(** Items that tell of a channel having been opened, and items that close it. *)
Definition touches (id : string) (i : logitem) : bool :=
  match i with
  | LChanClosed id' => String.eqb id' id
  | LTimeout p _ => String.eqb (e_chan (p_src p)) id
  | LSent _ _ _ p => String.eqb (e_chan (p_src p)) id
  | _ => false
  end.
Definition closes (id : string) (i : logitem) : bool :=
  match i with
  | LChanClosed id' => String.eqb id' id
  | LTimeout p _ => String.eqb (e_chan (p_src p)) id
  | _ => false
  end.

Lemma unresolved_in l id n p : unresolved l id n = Some p ->
  e_chan (p_src p) = id /\ exists e sd m, In (LSent e sd m p) l.
Proof.
  induction l as [|i l IH]; [discriminate|]. intro H.
  assert (G : unresolved l id n = Some p -> e_chan (p_src p) = id /\ exists e sd m, In (LSent e sd m p) (i :: l)).
  { intro H'. destruct (IH H') as (E & e & sd & m & Hi). split; [exact E|]. exists e, sd, m. now right. }
  destruct i; cbn [unresolved] in H; auto.
  - destruct (at_pkt id n p0) eqn:Ea; [|auto]. injection H as ->. apply at_pkt_eq in Ea as [<- _].
    split; [reflexivity|]. eexists _, _, _. left. reflexivity.
  - destruct (at_pkt id n p0); [discriminate|auto].
  - destruct (at_pkt id n p0); [discriminate|auto].
Qed.

Lemma quiet_before c l id : hist c l -> opened l id = None -> forall i, In i l -> touches id i = false.
Proof.
  intro H. induction H as [|l new Hl IH B]; [intros _ i []|]. intros Ho i Hi.
  assert (K : opened l id = None -> (forall j, In j new -> touches id j = false) -> touches id i = false).
  { intros Hl' Hn. apply in_app_iff in Hi as [Hi|Hi]; auto. }
  assert (R : forall ch b, opened l id = None -> recorded l = Some (ch, b) -> String.eqb (e_chan (ch_endpoint ch)) id = false).
  { intros ch b Hn Hr. pose proof (recorded_last l) as L. rewrite Hr in L. apply last_opened_opened in L.
    destruct (String.eqb_spec (e_chan (ch_endpoint ch)) id) as [E|]; [congruence|reflexivity]. }
  assert (U : forall n p, opened l id = None -> unresolved l (e_chan (p_src p)) n = Some p -> String.eqb (e_chan (p_src p)) id = false).
  { intros n p Hn Hu. apply unresolved_in in Hu as (_ & e & sd & m & Hs). exact (IH Hn _ Hs). }
  destruct B as [B|B]; destruct B;
    repeat match goal with H : callback _ _ _ |- _ => apply callback_quiet in H as [->|(? & ? & ->)] end;
    cbn [app opened] in Ho; 
    try match type of Ho with (if ?b then _ else _) = _ => destruct b; [discriminate|] end;
    apply K; try exact Ho; cbn [app];
    repeat match goal with
    | |- forall j, In j [] -> _ => intros j []
    | |- forall j, In j (_ :: _) -> _ => intros j [<-|Hj]; [|revert j Hj]; cbn [touches]; try reflexivity
    end; eauto.
  match goal with H : last_opened l = Some ch, E : p_src p = _ |- _ => apply last_opened_opened in H; rewrite E;
    destruct (String.eqb_spec (e_chan (ch_endpoint ch)) id) as [X|]; [congruence|reflexivity] end.
Qed.

Lemma open_quiet c l id : hist c l -> chan_open l id = true -> chan_ordered l id = true ->
  forall i, In i l -> closes id i = false.
Proof.
  intro H. induction H as [|l new Hl IH B]; [discriminate|]. intros Ho Hr i Hi.
  assert (K : chan_open l id = true -> chan_ordered l id = true -> (forall j, In j new -> closes id j = false) -> closes id i = false).
  { intros X Y Hn. apply in_app_iff in Hi as [Hi|Hi]; auto. }
  assert (K' : opened l id = None -> (forall j, In j new -> closes id j = false) -> closes id i = false).
  { intros X Hn. apply in_app_iff in Hi as [Hi|Hi]; [auto|]. pose proof (quiet_before c l id Hl X i Hi) as T.
    destruct i; cbn [touches closes] in *; auto. }
  unfold chan_ordered in *.
  destruct B as [B|B]; destruct B;
    repeat match goal with H : callback _ _ _ |- _ => apply callback_quiet in H as [->|(? & ? & ->)] end;
    cbn [app opened chan_open] in Ho, Hr; unfold chan_ordered in *;
    try (apply K; try assumption; cbn [app];
      repeat match goal with
      | |- forall j, In j [] -> _ => intros j []
      | |- forall j, In j (_ :: _) -> _ => intros j [<-|Hj]; [|revert j Hj]; cbn [closes]; try reflexivity
      end; fail).
  - destruct (String.eqb (e_chan (ch_endpoint ch)) id) eqn:E; [discriminate|]. apply K; auto.
    intros j [<-|[<-|[]]]; [exact E|reflexivity].
  - destruct (on_chan id ch) eqn:E.
    + apply K'; [|intros j [<-|[]]; reflexivity]. unfold on_chan in E. apply String.eqb_eq in E.
      match goal with H : ch_endpoint ch = _ |- _ => rewrite H in E end. cbn in E. subst id0. assumption.
    + apply K; auto. intros j [<-|[]]; reflexivity.
  - destruct (on_chan id ch) eqn:E.
    + apply K'; [|intros j [<-|[<-|[]]]; reflexivity]. unfold on_chan in E. apply String.eqb_eq in E.
      match goal with H : ch_endpoint ch = _ |- _ => rewrite H in E end. cbn in E. subst id0. assumption.
    + apply K; auto. intros j [<-|[<-|[]]]; reflexivity.
  - destruct (String.eqb (e_chan (ch_endpoint ch)) id) eqn:E; [discriminate|]. apply K; auto.
    intros j [<-|[]]. exact E.
  - rewrite Hr in Ho. destruct (String.eqb (e_chan (p_src p)) id) eqn:E; [discriminate|]. apply K; auto.
    intros j [<-|[]]. exact E.
  - rewrite Hr in Ho. destruct (String.eqb (e_chan (p_src p)) id) eqn:E; [discriminate|]. apply K; auto.
    intros j [<-|[<-|[]]]; [reflexivity|exact E].
Qed.

Lemma closed_by l id ch : opened l id = Some ch -> chan_open l id = false -> exists i, In i l /\ closes id i = true.
Proof.
  induction l as [|i l IH]; [discriminate|]. intros Ho Hc.
  assert (G : opened l id = Some ch -> chan_open l id = false -> exists j, In j (i :: l) /\ closes id j = true).
  { intros X Y. destruct (IH X Y) as (j & Hj & E). exists j. split; [now right|exact E]. }
  destruct i; cbn [opened chan_open] in *; auto.
  - destruct (on_chan id ch0); [discriminate|auto].
  - destruct (String.eqb id0 id) eqn:E; [|auto]. eexists. split; [left; reflexivity|exact E].
  - destruct (String.eqb (e_chan (p_src p)) id) eqn:E; [|auto]. eexists. split; [left; reflexivity|exact E].
Qed.

(** A channel reported closed is open on the chain exactly if it is ordered, a
    packet of another channel timed out while it was reported open, it was never
    closed on the chain, and none of its own packets has timed out. *)
Theorem C15_cause_partial : forall c w ch,
  cfg_ok c -> visited c w -> channel_reported w ch StClosed ->
  exists ce, w_chans w (e_chan (ch_endpoint ch)) = Some ce /\
    (ce_state ce = COpen <->
     ch_order ch = Ordered /\ late_timeout_of (w_log w) ch /\
     ~ In (LChanClosed (e_chan (ch_endpoint ch))) (w_log w) /\
     (forall p relayer, In (LTimeout p relayer) (w_log w) -> e_chan (p_src p) <> e_chan (ch_endpoint ch))).
Proof.
  intros c w ch Hc V Hch.
  destruct (channel_reported_log c w ch StClosed Hc V Hch) as (_ & [|] & Hr & Hb); [discriminate|].
  pose proof (recorded_last (w_log w)) as L. rewrite Hr in L.
  destruct (last_opened_end c w ch Hc V L) as (ce & md & E1 & E2 & E3 & E4 & E5 & E6). exists ce.
  split; [exact E1|].
  pose proof (ic_chan _ _ (inv_chans _ _ (visited_inv c w Hc V)) (e_chan (ch_endpoint ch))) as C. rewrite E1 in C.
  split.
  - intro Ho. rewrite Ho in C. destruct C as (_ & _ & _ & _ & _ & C1 & C2).
    destruct (closed_open _ _ Hr C2) as [Or La]. split; [exact Or|]. split; [exact La|].
    assert (Q : forall i, In i (w_log w) -> closes (e_chan (ch_endpoint ch)) i = false).
    { apply (open_quiet c); [apply (visited_hist c w Hc V)|exact C2|]. unfold chan_ordered.
      rewrite (last_opened_opened _ _ L), Or. reflexivity. }
    split.
    + intro Hi. apply Q in Hi. cbn [closes] in Hi. rewrite String.eqb_refl in Hi. discriminate.
    + intros p r Hi. apply Q in Hi. cbn [closes] in Hi. now apply String.eqb_neq.
  - intros (_ & _ & N1 & N2). destruct E5 as [E5|E5]; [exact E5|exfalso]. rewrite E5 in C.
    destruct C as (_ & _ & _ & _ & _ & C1 & C2).
    destruct (closed_by _ _ _ C1 C2) as (i & Hi & Ei). destruct i; try discriminate; cbn [closes] in Ei; apply String.eqb_eq in Ei.
    + subst id. now apply N1.
    + exact (N2 _ _ Hi Ei).
Qed.
(** In the history [late_timeout] it is. *)
Example C15_cause_case : exists ch ce, channel_reported (world_of late_timeout) ch StClosed /\
  w_chans (world_of late_timeout) (e_chan (ch_endpoint ch)) = Some ce /\ ce_state ce = COpen.
Proof.
  eexists _, _. split; [apply channel_reported_by; vm_compute; reflexivity|]. split; [vm_compute; reflexivity|reflexivity].
Qed.

(** ** C13 *)

(** When [ch], the channel opened last, was opened, the handshake of [id] was
    already under way. *)
Definition overlapped (l : list logitem) (ch : channel) (id : string) : Prop :=
  exists l1 l2, l = l1 ++ LChanOpen ch :: l2 /\ In (LChanInit id) l2 /\
    (forall ch', ~ In (LChanOpen ch') l1) /\
    (forall ch', In (LChanOpen ch') l2 -> e_chan (ch_endpoint ch') <> id) /\ e_chan (ch_endpoint ch) <> id.

Definition new_request (i : logitem) : Prop := exists id, i = LChanInit id.
Definition new_channel (i : logitem) : Prop := exists ch, i = LChanOpen ch.
Lemma open_since c l : hist c l -> forall ch, recorded l = Some (ch, true) ->
  exists l1 l2, l = l1 ++ LChanOpen ch :: l2 /\
    (forall i, In i l1 -> ~ new_request i /\ ~ new_channel i).
Proof.
  intro H. induction H as [|l new Hl IH B]; intros ch R; [discriminate|].
  assert (K : recorded l = Some (ch, true) -> (forall i, In i new -> ~ new_request i /\ ~ new_channel i) ->
    exists l1 l2, new ++ l = l1 ++ LChanOpen ch :: l2 /\ (forall i, In i l1 -> ~ new_request i /\ ~ new_channel i)).
  { intros R' N. destruct (IH ch R') as (l1 & l2 & -> & H1). exists (new ++ l1), l2.
    split; [apply app_assoc|]. intros i Hi. apply in_app_iff in Hi as [Hi|Hi]; auto. }
  assert (Q : forall i, ~ new_request i /\ ~ new_channel i -> forall n,
    (forall i, In i n -> ~ new_request i /\ ~ new_channel i) -> forall j, In j (i :: n) -> ~ new_request j /\ ~ new_channel j).
  { intros i Hi n Hn j [<-|Hj]; auto. }
  assert (Q0 : forall i : logitem, In i [] -> ~ new_request i /\ ~ new_channel i) by (intros i []).
  destruct B as [B|B]; destruct B;
    repeat match goal with H : callback _ _ _ |- _ => apply callback_quiet in H as [->|(? & ? & ->)] end;
    cbn [app recorded] in R;
    try (apply K; [exact R|]; cbn [app]; repeat (apply Q; [split; intros [? X]; discriminate|]); exact Q0).
  - subst l. discriminate.
  - match goal with H : recorded_open_in l = false |- _ => unfold recorded_open_in in H; rewrite R in H; discriminate end.
  - match goal with H : recorded l = _ |- _ => rewrite H in R end. unfold on_chan in R. rewrite String.eqb_refl in R. discriminate.
  - injection R as ->. exists [], l. split; [reflexivity|exact Q0].
  - injection R as ->. eexists [_], l. split; [reflexivity|]. apply Q; [split; intros [? X]; discriminate|exact Q0].
  - match goal with H : recorded l = _ |- _ => rewrite H in R end. unfold on_chan in R. rewrite String.eqb_refl in R. discriminate.
  - apply K; [|cbn [app]; repeat (apply Q; [split; intros [? X]; discriminate|]); exact Q0].
    destruct (recorded l) as [[ch' b]|]; [|discriminate]. destruct (order_eqb _ _); [discriminate|exact R].
  - apply K; [|cbn [app]; repeat (apply Q; [split; intros [? X]; discriminate|]); exact Q0].
    destruct (recorded l) as [[ch' b]|]; [|discriminate]. destruct (order_eqb _ _); [discriminate|exact R].
Qed.

Lemma requested_in l id o : requested l id = Some o -> In (LChanInit id) l.
Proof.
  induction l as [|i l IH]; [discriminate|]. destruct i; cbn [requested]; intro H; try (right; now apply IH).
  destruct (String.eqb_spec id0 id) as [->|]; [left; reflexivity|right; now apply IH].
Qed.
Lemma not_opened l id : opened l id = None -> forall ch, In (LChanOpen ch) l -> e_chan (ch_endpoint ch) <> id.
Proof.
  induction l as [|i l IH]; intros H ch; [intros []|]. intros [->|Hi].
  - cbn [opened] in H. unfold on_chan in H. destruct (String.eqb_spec (e_chan (ch_endpoint ch)) id); [discriminate|assumption].
  - apply IH; [|exact Hi]. destruct i; cbn [opened] in H; auto. destruct (on_chan id ch0); [discriminate|exact H].
Qed.

(** A channel open acknowledgement replaces a channel reported open only if
    the handshake it completes was under way when that channel was opened. *)
Theorem C13_cause_partial : forall c w id cp v w' b ch,
  cfg_ok c -> visited c w -> act c (AOpenAck id cp v) w = Some (w', b) ->
  channel_reported w ch StOpen -> overlapped (w_log w) ch id.
Proof.
  intros c w id cp v w' b ch Hc V H Hch.
  destruct (channel_reported_log c w ch StOpen Hc V Hch) as (_ & [|] & Hr & Hb); [|discriminate].
  destruct (proj1 (proj1 (C09_open_ack c w id cp v Hc V)) (ex_intro _ w' (ex_intro _ b H)))
    as (_ & _ & o & md & H1 & H2 & _).
  destruct (open_since c _ (visited_hist c w Hc V) ch Hr) as (l1 & l2 & El & Hn).
  pose proof (not_opened _ _ H2) as Hno. apply requested_in in H1. rewrite El in H1, Hno.
  exists l1, l2. split; [exact El|].
  split.
  { apply in_app_iff in H1 as [H1|[H1|H1]]; [|discriminate|exact H1].
    elim (proj1 (Hn _ H1)). now exists id. }
  split; [intros ch' Hi; apply (proj2 (Hn _ Hi)); now exists ch'|].
  split; [intros ch' Hi|]; apply Hno; apply in_app_iff; right; [right; exact Hi|left; reflexivity].
Qed.

Example C13_cause_case : exists w' b ch,
  act cfg0 (AOpenAck "channel-1" "channel-8" (host_version "cosmos1acc")) (world_of two_handshakes) = Some (w', b) /\
  channel_reported (world_of two_handshakes) ch StOpen.
Proof.
  eexists _, _, _. split; [vm_compute; reflexivity|]. apply channel_reported_by. vm_compute. reflexivity.
Qed.

(** ** C61 *)

(** A close confirmation for a channel that is open on the chain is refused only
    if another channel has been opened since, or a packet of another channel
    timed out while this one was reported open. *)
Theorem C61_cause_partial : forall c w id ce beh,
  cfg_ok c -> visited c w -> w_chans w id = Some ce -> ce_state ce = COpen ->
  step c (Tx (ACloseConfirm id) beh) w = None ->
  exists ch, e_chan (ch_endpoint ch) = id /\
    ((exists l1 ch' l2, w_log w = l1 ++ LChanOpen ch' :: l2 /\ In (LChanOpen ch) l2 /\ e_chan (ch_endpoint ch') <> id) \/
     ch_order ch = Ordered /\ late_timeout_of (w_log w) ch).
Proof.
  intros c w id ce beh Hc V Hce Ho Hs.
  pose proof (ic_chan _ _ (inv_chans _ _ (visited_inv c w Hc V)) id) as C. rewrite Hce, Ho in C.
  destruct C as (_ & _ & _ & _ & _ & C1 & C2).
  exists (channel_of c id ce). split; [reflexivity|].
  assert (Hin : forall l, opened l id = Some (channel_of c id ce) -> exists l1 l2, l = l1 ++ LChanOpen (channel_of c id ce) :: l2 /\
    (last_opened l1 = None \/ exists l3 ch' l4, l1 = l3 ++ LChanOpen ch' :: l4 /\ e_chan (ch_endpoint ch') <> id)).
  { induction l as [|i l IH]; [discriminate|]. intro H.
    assert (G : opened l id = Some (channel_of c id ce) -> (forall ch, i <> LChanOpen ch) -> exists l1 l2, i :: l = l1 ++ LChanOpen (channel_of c id ce) :: l2 /\
    (last_opened l1 = None \/ exists l3 ch' l4, l1 = l3 ++ LChanOpen ch' :: l4 /\ e_chan (ch_endpoint ch') <> id)).
    { intros Hl Hi. destruct (IH Hl) as (l1 & l2 & -> & Q). exists (i :: l1), l2. split; [reflexivity|].
      destruct Q as [Q|(l3 & ch' & l4 & -> & Q)].
      - left. destruct i; try exact Q. now elim (Hi ch).
      - right. exists (i :: l3), ch', l4. split; [reflexivity|exact Q]. }
    destruct i; cbn [opened] in H; try (apply G; [exact H|discriminate]).
    unfold on_chan in H. destruct (String.eqb_spec (e_chan (ch_endpoint ch)) id) as [E|E].
    - injection H as ->. exists [], l. split; [reflexivity|left; reflexivity].
    - destruct (IH H) as (l1 & l2 & -> & _). exists (LChanOpen ch :: l1), l2. split; [reflexivity|].
      right. exists [], ch, l1. split; [reflexivity|exact E]. }
  destruct (Hin _ C1) as (l1 & l2 & El & Hl).
  destruct Hl as [Hl|(l3 & ch' & l4 & -> & E)].
  - right.
    assert (HL : last_opened (w_log w) = Some (channel_of c id ce)).
    { rewrite El. clear -Hl. induction l1 as [|i l1 IH]; [reflexivity|].
      destruct i; cbn [app last_opened] in *; try discriminate; apply IH; exact Hl. }
    pose proof (recorded_last (w_log w)) as R. destruct (recorded (w_log w)) as [[ch b]|] eqn:Er; [|congruence].
    assert (ch = channel_of c id ce) by congruence. subst ch. destruct b.
    + exfalso. destruct (proj2 (C60_confirm c w id beh Hc V)) as [w' Hw']; [|congruence].
      exists (channel_of c id ce). split; [apply (recorded_reported c w _ true Hc V Er)|reflexivity].
    + now apply closed_open.
  - left. exists l3, ch', (l4 ++ LChanOpen (channel_of c id ce) :: l2).
    split; [rewrite El, <- app_assoc; reflexivity|]. split; [apply in_app_iff; right; left; reflexivity|exact E].
Qed.

Example C61_cause_case : exists ce, w_chans (world_of late_timeout) "channel-1" = Some ce /\ ce_state ce = COpen /\
  step cfg0 (Tx (ACloseConfirm "channel-1") None) (world_of late_timeout) = None.
Proof. eexists. split; [vm_compute; reflexivity|]. split; [reflexivity| vm_compute; reflexivity]. Qed.

(** ** C53 *)

(** Without a new request, the only channels that can still open are those whose
    handshake is under way, and only one of them can take the place of the
    channel reported closed. *)
Lemma cause_step c w w1 w2 b ch : trans c w1 w2 b ->
  open_requests (w_log w2) = open_requests (w_log w1) ->
  (forall id ce, w_chans w1 id = Some ce -> ce_state ce = CInit -> w_chans w id = Some ce) ->
  (forall id ce, w_chans w1 id = Some ce -> ce_state ce = COpen ->
     w_chans w id = Some ce \/ exists ce0, w_chans w id = Some ce0 /\ ce_state ce0 = CInit) ->
  (forall ch' b', recorded (w_log w1) = Some (ch', b') -> ch' = ch /\ b' = false \/
     exists ce0, w_chans w (e_chan (ch_endpoint ch')) = Some ce0 /\ ce_state ce0 = CInit) ->
  (forall id ce, w_chans w2 id = Some ce -> ce_state ce = CInit -> w_chans w id = Some ce) /\
  (forall id ce, w_chans w2 id = Some ce -> ce_state ce = COpen ->
     w_chans w id = Some ce \/ exists ce0, w_chans w id = Some ce0 /\ ce_state ce0 = CInit) /\
  (forall ch' b', recorded (w_log w2) = Some (ch', b') -> ch' = ch /\ b' = false \/
     exists ce0, w_chans w (e_chan (ch_endpoint ch')) = Some ce0 /\ ce_state ce0 = CInit).
Proof.
  intros T Ho I1 I2 I3.
  assert (Hcl : forall id0 ce0, w_chans w1 id0 = Some ce0 ->
    (forall id ce, upd (w_chans w1) id0 (Some (closed_end ce0)) id = Some ce -> ce_state ce = CInit -> w_chans w id = Some ce) /\
    (forall id ce, upd (w_chans w1) id0 (Some (closed_end ce0)) id = Some ce -> ce_state ce = COpen ->
       w_chans w id = Some ce \/ exists ce1, w_chans w id = Some ce1 /\ ce_state ce1 = CInit)).
  { intros id0 ce0 H0. split; intros id ce; unfold upd; destruct (String.eqb_spec id0 id) as [<-|]; auto;
    intro E; injection E as <-; discriminate. }
  assert (Hrc : forall id0 ch' b', match recorded (w_log w1) with
      | Some (ch0, b0) => if on_chan id0 ch0 then Some (ch0, false) else Some (ch0, b0) | None => None end = Some (ch', b') ->
      ch' = ch /\ b' = false \/ exists ce0, w_chans w (e_chan (ch_endpoint ch')) = Some ce0 /\ ce_state ce0 = CInit).
  { intros id0 ch' b'. destruct (recorded (w_log w1)) as [[ch0 b0]|]; [|discriminate].
    destruct (I3 ch0 b0 eq_refl) as [[E1 E2]|E]; destruct (on_chan id0 ch0); intro X; injection X as <- <-; auto. }
  assert (Hrt : forall ch' b', match recorded (w_log w1) with
      | Some (ch0, b0) => if order_eqb (ch_order ch0) Ordered then Some (ch0, false) else Some (ch0, b0) | None => None end = Some (ch', b') ->
      ch' = ch /\ b' = false \/ exists ce0, w_chans w (e_chan (ch_endpoint ch')) = Some ce0 /\ ce_state ce0 = CInit).
  { intros ch' b'. destruct (recorded (w_log w1)) as [[ch0 b0]|]; [|discriminate].
    destruct (I3 ch0 b0 eq_refl) as [[E1 E2]|E]; destruct (order_eqb _ _); intro X; injection X as <- <-; auto. }
  destruct T; cbn [w_log w_chans open_requests] in *;
    rewrite ?(log_calls recorded), ?(log_calls open_requests) in * by reflexivity;
    cbn [recorded open_requests] in *; try lia;
    try (split; [exact I1|split; [exact I2|exact I3]]).
  - match goal with H : w_chans w1 id = Some ce |- _ => destruct (Hcl id ce H) as [C1 C2] end. eauto.
  - match goal with H : w_chans w1 id = Some ce, H' : ce_state ce = CInit |- _ => rename H into Hce; rename H' into Hin end.
    pose proof (I1 id ce Hce Hin) as Hw.
    split; [|split].
    + intros i ce1. unfold upd. destruct (String.eqb_spec id i) as [<-|]; [|apply I1]. intro E. injection E as <-. discriminate.
    + intros i ce1. unfold upd. destruct (String.eqb_spec id i) as [<-|]; [|apply I2]. intros E _. right. eauto.
    + intros ch' b' E. injection E as <- <-. right. exists ce. split; [exact Hw|exact Hin].
  - match goal with H : w_chans w1 id = Some ce |- _ => destruct (Hcl id ce H) as [C1 C2] end. eauto.
  - match goal with H : w_chans w1 id = Some ce |- _ => destruct (Hcl id ce H) as [C1 C2] end.
    destruct (ce_order ce); eauto.
Qed.

Theorem C53_cause_partial : forall c w w' ch,
  cfg_ok c -> visited c w -> later c w w' -> channel_reported w ch StClosed ->
  open_requests (w_log w') = open_requests (w_log w) ->
  (forall id ce, w_chans w' id = Some ce -> ce_state ce = COpen ->
     w_chans w id = Some ce \/ exists ce0, w_chans w id = Some ce0 /\ ce_state ce0 = CInit) /\
  (forall ch' st, channel_reported w' ch' st -> ch' = ch /\ st = StClosed \/
     exists ce0, w_chans w (e_chan (ch_endpoint ch')) = Some ce0 /\ ce_state ce0 = CInit).
Proof.
  intros c w w' ch Hc V L Hch Ho.
  destruct (channel_reported_log c w ch StClosed Hc V Hch) as (_ & [|] & Hr & Hb); [discriminate|].
  assert (G : (forall id ce, w_chans w' id = Some ce -> ce_state ce = CInit -> w_chans w id = Some ce) /\
    (forall id ce, w_chans w' id = Some ce -> ce_state ce = COpen ->
     w_chans w id = Some ce \/ exists ce0, w_chans w id = Some ce0 /\ ce_state ce0 = CInit) /\
    (forall ch' b', recorded (w_log w') = Some (ch', b') -> ch' = ch /\ b' = false \/
     exists ce0, w_chans w (e_chan (ch_endpoint ch')) = Some ce0 /\ ce_state ce0 = CInit)).
  { revert Ho. induction L as [|w1 a w2 b L IH H]; intro Ho.
    - split; [auto|]. split; [auto|]. intros ch' b' E. rewrite Hr in E. injection E as <- <-. auto.
    - pose proof (act_trans c w1 a w2 b Hc (visited_base c w1 Hc (later_visited _ _ _ V L)) H) as T.
      pose proof (requests_grow _ _ _ _ T). pose proof (later_grow c w w1 Hc V L).
      destruct IH as (J1 & J2 & J3); [lia|].
      apply (cause_step c w w1 w2 b ch T); [lia|assumption..]. }
  destruct G as (_ & G2 & G3). split; [exact G2|]. intros ch' st Hch'.
  destruct (channel_reported_log c w' ch' st Hc (later_visited _ _ _ V L) Hch') as (_ & b' & Hr' & ->).
  destruct (G3 ch' b' Hr') as [[-> ->]|E]; auto.
Qed.

Example C53_cause_case : exists ch ch', channel_reported (world_of stale_handshake) ch StClosed /\
  channel_reported (run cfg0 [open_ack "channel-1" "channel-8" "cosmos1acc"] (world_of stale_handshake)) ch' StOpen /\
  open_requests (w_log (run cfg0 [open_ack "channel-1" "channel-8" "cosmos1acc"] (world_of stale_handshake))) =
  open_requests (w_log (world_of stale_handshake)).
Proof.
  eexists _, _. split; [apply channel_reported_by; vm_compute; reflexivity|].
  split; [apply channel_reported_by; vm_compute; reflexivity| vm_compute; reflexivity].
Qed.

(** ** C31 *)

(** Exactly the packets sent with queries that are outstanding, or were
    acknowledged with an error, have a record. *)
Theorem C31_exactly_partial : forall c w s id n,
  cfg_ok c -> visited c w -> w_store w = Some s ->
  (st_pending s id n <> None <->
   exists e sender ms qs memo t p, In (LSent e sender (XSendCosmosMsgs ms qs memo t) p) (w_log w) /\
    e_chan (p_src p) = id /\ p_seq p = n /\ qs <> [] /\
    (forall relayer, ~ In (LTimeout p relayer) (w_log w)) /\
    (forall ack relayer res, In (LAck p ack relayer) (w_log w) -> from_json jc_ack ack <> Some (AckResult res))).
Proof.
  intros c w s id n Hc V Hs. split; [apply (C31_success_and_timeout_partial c w s id n Hc V Hs)|].
  intros (e & sd & ms & qs & memo & t & p & Hin & <- & <- & Hq & Ht & Ha).
  rewrite (ip_pending _ (inv_pkts _ _ (visited_inv c w Hc V)) _ Hs).
  assert (Own : forall x, In x (w_log w) -> resolves (e_chan (p_src p)) (p_seq p) x = true ->
    match x with LAck p' _ _ | LTimeout p' _ => p' = p | _ => False end).
  { intros x Hx Hr. apply in_split in Hx as (l1 & l2 & El).
    destruct (C45_only_own_packets c w l1 x l2 _ _ Hc V El (or_introl Hr)) as (p' & e' & s' & m' & Hi' & E1 & E2 & E3).
    assert (Hi : In (LSent e' s' m' p') (w_log w)) by (rewrite El; apply in_app_iff; right; right; exact Hi').
    destruct (sent_unique c _ _ _ _ _ _ _ _ _ (visited_hist c w Hc V) Hin Hi (eq_sym E1) (eq_sym E2)) as (_ & _ & _ & ->).
    destruct x; try discriminate; exact E3. }
  assert (One := proj2 (proj2 (C45_resolved_once c w (e_chan (p_src p)) (p_seq p) Hc V))).
  assert (G : outstanding (w_log w) (e_chan (p_src p)) (p_seq p) = qs).
  { clear Hs s V. revert Own One Ht Ha Hin. generalize (w_log w) as l. induction l as [|i l IH]; intros Own One Ht Ha Hin; [destruct Hin|].
    rewrite count_cons in One. destruct Hin as [->|Hin].
    - cbn [outstanding queries_of]. now rewrite at_pkt_refl.
    - assert (IHl : outstanding l (e_chan (p_src p)) (p_seq p) = qs).
      { apply IH; [intros x Hx; apply Own; now right|lia|intros r Hr; apply (Ht r); now right|
        intros a r res Hr; apply (Ha a r res); now right|exact Hin]. }
      destruct i; cbn [outstanding]; try exact IHl.
      + destruct (at_pkt (e_chan (p_src p)) (p_seq p) p0) eqn:Ea; [|exact IHl]. exfalso.
        cbn [commits] in One. rewrite Ea in One.
        pose proof (count_in (commits (e_chan (p_src p)) (p_seq p)) l _ Hin (at_pkt_refl p)). lia.
      + destruct (at_pkt (e_chan (p_src p)) (p_seq p) p0 && ack_success_bytes ack) eqn:Ea; [|exact IHl]. exfalso.
        apply andb_true_iff in Ea as [Ea Es].
        pose proof (Own _ (or_introl eq_refl) Ea) as E. cbn in E. subst p0.
        unfold ack_success_bytes in Es. destruct (from_json jc_ack ack) as [[res|err]|] eqn:Ej; try discriminate.
        exact (Ha ack relayer res (or_introl eq_refl) Ej).
      + destruct (at_pkt (e_chan (p_src p)) (p_seq p) p0) eqn:Ea; [|exact IHl]. exfalso.
        pose proof (Own _ (or_introl eq_refl) Ea) as E. cbn in E. subst p0.
        exact (Ht relayer (or_introl eq_refl)). }
  rewrite G. destruct qs; [congruence|discriminate].
Qed.
Example C31_exactly_case : exists s, w_store w31 = Some s /\ st_pending s "channel-0" 1 <> None.
Proof.
  exists (match w_store w31 with Some s => s | None => empty_store end).
  split; [vm_compute; reflexivity|]. vm_compute. discriminate.
Qed.

Print Assumptions C15_cause_partial.
Print Assumptions C13_cause_partial.
Print Assumptions C61_cause_partial.
Print Assumptions C53_cause_partial.
Print Assumptions C31_exactly_partial.
