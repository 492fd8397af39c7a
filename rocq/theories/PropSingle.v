(** * PropSingle: a controller that was asked for one channel only.

    C13, C15, C53 and C61 are false of the code, and every exception needs a
    second channel.  A controller whose owner never asked for another channel
    is without exceptions.  The example owner contract never asks for one, so
    this is true of every controller it creates. *)

From Verif Require Import Base Utf8 Proto Json JsonCodec Types JsonTypes Store Contract CosmosMsg QueryMsg Metadata PacketData
  JsonSound HostSpec AnswerSpec Chain ChainSpec Trans Inv HistorySpec History HistFacts Queries Enabled Witness
  CallSpec CallFacts OwnerContract OwnerSpec PropChannel PropPacket PropAnswer PropClose PropCause PropOwnerContract.
From Coq Require Import ZifyBool ZifyN.
Local Open Scope string_scope.
Local Open Scope list_scope.
Local Open Scope N_scope.

Lemma requested_in l id : requested l id <> None -> In (LChanInit id) l.
Proof.
  induction l as [|i l IH]; cbn [requested]; [congruence|]. destruct i; try (intro H; right; now apply IH).
  match goal with |- context [String.eqb ?a ?b] => destruct (String.eqb_spec a b) as [->|N] end; intro H; [now left|right; now apply IH].
Qed.
Lemma created_in l id : In (LChanInit id) l -> (1 <= channels_created l)%nat.
Proof.
  induction l as [|i l IH]; [intros []|]. intros [->|H]; cbn [channels_created]; [lia|]. specialize (IH H). destruct i; lia.
Qed.
Lemma created_one l a b : (channels_created l <= 1)%nat -> In (LChanInit a) l -> In (LChanInit b) l -> a = b.
Proof.
  induction l as [|i l IH]; [intros _ []|]. intros H [Ha|Ha] [Hb|Hb]; subst; cbn [channels_created] in H.
  - congruence.
  - apply created_in in Hb. lia.
  - apply created_in in Ha. lia.
  - apply IH; auto. destruct i; lia.
Qed.

(** There is one channel. *)
Lemma one_channel c w a b ca cb : cfg_ok c -> visited c w -> open_requests (w_log w) = 1%nat ->
  w_chans w a = Some ca -> w_chans w b = Some cb -> a = b.
Proof.
  intros Hc V Ho Ha Hb. apply (created_one (w_log w)).
  - rewrite (C05_counts c w Hc V). lia.
  - apply requested_in. pose proof (ic_chan _ _ (inv_chans _ _ (visited_inv c w Hc V)) a) as C. rewrite Ha in C.
    destruct C as ((o & E & _) & _). congruence.
  - apply requested_in. pose proof (ic_chan _ _ (inv_chans _ _ (visited_inv c w Hc V)) b) as C. rewrite Hb in C.
    destruct C as ((o & E & _) & _). congruence.
Qed.

(** Packets were sent on channels that exist. *)
Lemma sent_chan c e sd m p : cfg_ok c -> forall w, visited c w -> In (LSent e sd m p) (w_log w) ->
  w_chans w (e_chan (p_src p)) <> None.
Proof.
  intros Hc. apply (visited_ind' c (fun w => In (LSent e sd m p) (w_log w) -> w_chans w (e_chan (p_src p)) <> None));
    [exact Hc|contradiction|].
  intros w w' b V _ IH T Hi. destruct T; cbn [w_log] in Hi; try (destruct (cs_callback st); cbn [calls] in Hi);
    repeat (destruct Hi as [Hi|Hi]; [try discriminate Hi|]); cbn [w_chans]; unfold upd; try (exact (IH Hi));
    try (destruct (String.eqb _ _); [discriminate|exact (IH Hi)]).
  all: try (injection Hi as <- <- <- <-; subst p0; cbn [p_src e_chan]; congruence).
  all: try (destruct (ce_order ce); try (exact (IH Hi)); destruct (String.eqb _ _); [discriminate|exact (IH Hi)]).
Qed.

Lemma timeout_chan c w p r : cfg_ok c -> visited c w -> In (LTimeout p r) (w_log w) -> w_chans w (e_chan (p_src p)) <> None.
Proof.
  intros Hc V H. apply in_split in H as (l1 & l2 & E).
  destruct (C45_only_own_packets c w l1 _ l2 (e_chan (p_src p)) (p_seq p) Hc V E) as (q & e & sd & m & H1 & _ & _ & ->).
  { left. cbn [resolves]. unfold at_pkt. rewrite String.eqb_refl, N.eqb_refl. reflexivity. }
  apply (sent_chan c e sd m q Hc w V). rewrite E. apply in_or_app. right. now right.
Qed.

(** ** C90 *)

(** What a controller that was asked once reports about its channel is what the
    chain has: closed is closed, no other channel takes the place of an open
    one, the host can close it, and closed stays closed. *)
Theorem C90_single : forall c w, cfg_ok c -> visited c w -> open_requests (w_log w) = 1%nat ->
  (forall ch, channel_reported w ch StClosed ->
     exists ce, w_chans w (e_chan (ch_endpoint ch)) = Some ce /\ ce_state ce = CClosed) /\
  (forall ch id cp v, channel_reported w ch StOpen -> act c (AOpenAck id cp v) w = None) /\
  (forall id ce beh, w_chans w id = Some ce -> ce_state ce = COpen ->
     (exists ch, channel_reported w ch StOpen /\ e_chan (ch_endpoint ch) = id) /\
     exists w', step c (Tx (ACloseConfirm id) beh) w = Some w') /\
  (forall w' ch, later c w w' -> open_requests (w_log w') = 1%nat -> channel_reported w ch StClosed ->
     channel_reported w' ch StClosed /\ forall id ce, w_chans w' id = Some ce -> ce_state ce = CClosed).
Proof.
  intros c w Hc V Ho.
  assert (Closed : forall w0, visited c w0 -> open_requests (w_log w0) = 1%nat -> forall ch, channel_reported w0 ch StClosed ->
     exists ce, w_chans w0 (e_chan (ch_endpoint ch)) = Some ce /\ ce_state ce = CClosed).
  { intros w0 V0 Ho0 ch Hch. destruct (C15_cause_partial c w0 ch Hc V0 Hch) as (ce & E & G). exists ce. split; [exact E|].
    destruct (channel_reported_log c w0 ch StClosed Hc V0 Hch) as (_ & [|] & Hr & Hb); [discriminate|].
    pose proof (recorded_last (w_log w0)) as L. rewrite Hr in L.
    destruct (last_opened_end c w0 ch Hc V0 L) as (ce' & md & E1 & _ & _ & _ & E5 & _).
    destruct E5 as [E5|E5]; [|congruence].
    assert (E5' : ce_state ce = COpen) by congruence.
    apply G in E5' as (_ & (l1 & p & r & l2 & El & _ & N) & _).
    assert (Hi : In (LTimeout p r) (w_log w0)) by (rewrite El; apply in_or_app; right; now left).
    apply (timeout_chan c w0 p r Hc V0) in Hi. destruct (w_chans w0 (e_chan (p_src p))) as [ce2|] eqn:E2; [|congruence].
    elim N. exact (one_channel c w0 _ _ _ _ Hc V0 Ho0 E2 E). }
  split; [exact (Closed w V Ho)|]. split; [|split].
  - intros ch id cp v Hch. destruct (act c (AOpenAck id cp v) w) as [[w' b]|] eqn:A; [|reflexivity]. exfalso.
    destruct (C14_open_is_open c w ch Hc V Hch) as (ce & E & S & _).
    destruct (proj1 (proj1 (C09_open_ack c w id cp v Hc V)) (ex_intro _ w' (ex_intro _ b A))) as (_ & _ & o & md & H1 & H2 & _).
    pose proof (ic_chan _ _ (inv_chans _ _ (visited_inv c w Hc V)) id) as C.
    destruct (w_chans w id) as [ce2|] eqn:E2; [|destruct C; congruence].
    assert (X := one_channel c w _ _ _ _ Hc V Ho E2 E). subst id. rewrite E2 in E. injection E as ->.
    rewrite S in C. destruct C as (_ & _ & _ & _ & _ & C & _). congruence.
  - intros id ce beh E S.
    destruct (step c (Tx (ACloseConfirm id) beh) w) as [w'|] eqn:Es.
    + split; [|eauto]. apply (C60_confirm c w id beh Hc V). eauto.
    + exfalso. destruct (C61_cause_partial c w id ce beh Hc V E S Es) as (ch & Eid & [(l1 & ch' & l2 & El & _ & N)|(_ & (l1 & p & r & l2 & El & _ & N))]).
      * pose proof (ic_chan _ _ (inv_chans _ _ (visited_inv c w Hc V)) (e_chan (ch_endpoint ch'))) as C.
        destruct (w_chans w (e_chan (ch_endpoint ch'))) as [ce2|] eqn:E2.
        -- apply N. exact (one_channel c w _ _ _ _ Hc V Ho E2 E).
        -- destruct C as [_ C]. rewrite El in C. clear - C. induction l1 as [|i l1 IH]; cbn [app opened] in C.
           ++ unfold on_chan in C. rewrite String.eqb_refl in C. discriminate.
           ++ destruct i; auto. destruct (on_chan _ _); [discriminate|auto].
      * assert (Hi : In (LTimeout p r) (w_log w)) by (rewrite El; apply in_or_app; right; now left).
        apply (timeout_chan c w p r Hc V) in Hi. destruct (w_chans w (e_chan (p_src p))) as [ce2|] eqn:E2; [|congruence].
        apply N. rewrite Eid. exact (one_channel c w _ _ _ _ Hc V Ho E2 E).
  - intros w' ch Hl Ho' Hch. assert (V' := later_visited c w w' V Hl).
    destruct (Closed w V Ho ch Hch) as (ce & E & S).
    destruct (C53_permanent_closure_partial c w w' ch Hc V Hl Hch) as [R _]; [|congruence|].
    { intros id ce2 E2 S2. assert (X := one_channel c w _ _ _ _ Hc V Ho E2 E). subst id. congruence. }
    split; [exact R|]. intros id ce2 E2. destruct (Closed w' V' Ho' ch R) as (ce3 & E3 & S3).
    assert (X := one_channel c w' _ _ _ _ Hc V' Ho' E2 E3). subst id. congruence.
Qed.

(** A controller created by the example owner contract was asked once. *)
Lemma asked_once c l self : hist c l ->
  (forall e s m, In (LInstantiated e s m) l -> im_owner m = Some self /\ im_callbacks m = Some self) ->
  (forall e m, In (LExecuted e self m) l -> exists to, m = action to) ->
  l = [] \/ open_requests l = 1%nat.
Proof.
  induction 1 as [|l new Hl IH B]; intros Hi He; [now left|]. right.
  assert (Hi' := fun e s m H => Hi e s m (in_or_app _ _ _ (or_intror H))).
  assert (He' := fun e m H => He e m (in_or_app _ _ _ (or_intror H))).
  specialize (IH Hi' He'). assert (O := stays_owner c l self Hl Hi' He'). 
  assert (Hn : forall i, In i new -> In i (new ++ l)) by (intros; apply in_or_app; now left).
  destruct B as [B|B]; destruct B;
    repeat match goal with H : callback _ _ _ |- _ => apply callback_quiet in H as [->|(? & ? & ->)] end;
    try (destruct IH as [->|IH]; [discriminate|cbn [app open_requests]; exact IH]).
  all: try (subst l; reflexivity).
  - destruct O as [->|(I1 & I2 & I3)]; [discriminate|]. rewrite I1 in *.
    match goal with H : Some self = Some sender |- _ => injection H as <- end.
    destruct (He e (XCreateChannel opts)) as (to & E); [apply Hn; right; left; reflexivity|]. discriminate E.
  - destruct IH as [->|IH]; [congruence|]. exact IH.
Qed.

Theorem C90_example : forall oc ow c w, ocfg_ok oc -> oreach oc ow -> cfg_ok c -> visited c w -> coupled oc ow c w ->
  open_requests (w_log w) = 1%nat.
Proof.
  intros oc ow c w Hoc R Hc V [(code & m & e & sender & Hm & Hi) Hcalls Hex].
  assert (Hh := visited_hist c w Hc V).
  destruct (C49_controllers oc ow _ _ _ Hoc R Hm) as (O1 & O2 & _).
  destruct (asked_once c _ (oc_self oc) Hh) as [E|E]; [..|rewrite E in Hi; destruct Hi|exact E].
  - intros e' s' m' Hi'. rewrite (one_instantiation c _ Hh _ _ _ _ _ _ Hi' Hi). auto.
  - intros e' m' He'. apply executed_in in He'. rewrite <- Hex in He'. apply sent_to_in in He'.
    exact (proj2 (C49_messages oc ow _ _ Hoc R He')).
Qed.

(** Once such a controller reports its channel closed, it stays closed: the
    owner contract cannot get its interchain account back. *)
Theorem C90_no_way_back : forall oc ow ow' c w w' ch, ocfg_ok oc -> cfg_ok c ->
  oreach oc ow -> visited c w -> coupled oc ow c w -> channel_reported w ch StClosed ->
  oreach oc ow' -> later c w w' -> coupled oc ow' c w' ->
  channel_reported w' ch StClosed /\
  (forall id ce, w_chans w' id = Some ce -> ce_state ce = CClosed) /\
  (forall a w2 b id n, act c a w' = Some (w2, b) -> w_commit w' id n = None -> w_commit w2 id n = None).
Proof.
  intros oc ow ow' c w w' ch Hoc Hc R V P Hch R' L P'. assert (V' := later_visited c w w' V L).
  destruct (C90_single c w Hc V (C90_example oc ow c w Hoc R Hc V P)) as (_ & _ & _ & K).
  destruct (K w' ch L (C90_example oc ow' c w' Hoc R' Hc V' P') Hch) as [K1 K2].
  split; [exact K1|]. split; [exact K2|]. intros a w2 b id n A N. destruct (w_commit w2 id n) as [p|] eqn:E; [|reflexivity]. exfalso.
  destruct (C44_sent_by_owner c w' a w2 b id n p Hc V' A N E)
    as (h & tm & sender & raw & x & ok & ms & qs & memo & t & o & info & cb & ce & anys & _ & _ & _ & _ & _ & _ & E1 & E2 & _).
  rewrite (K2 id ce E1) in E2. discriminate.
Qed.

(** The example owner contract sends two packets on an ordered channel.  The
    first times out, which closes the channel; then the second times out. *)
Definition sent90 : world := history c57 [inst57; open_ack "channel-0" "channel-7" "cosmos1acc"; exec "dao" (action "cosmos1to") "";
  exec "dao" (action "cosmos1to") ""].
Definition closed90 : world := run c57 [timed_out "channel-0" 1] sent90.
Definition closed90' : world := run c57 [timed_out "channel-0" 2] closed90.
Definition lost90 (n : N) : list oaction :=
  match w_commit sent90 "channel-0" n with Some p => [o_tell "wasmB" (CbTimeout p "relayer")] | None => [] end.
Definition o_sent90 : oworld := o_run oc49 [o_do "1"] w49.
Definition o_closed90 : oworld := o_run oc49 (lost90 1) o_sent90.
Definition o_closed90' : oworld := o_run oc49 (lost90 2) o_closed90.

Example C90_case : visited c57 sent90 /\ coupled oc49 o_sent90 c57 sent90 /\ oreach oc49 o_sent90 /\
  (exists ch, channel_reported sent90 ch StOpen) /\ exists ce, w_chans sent90 "channel-0" = Some ce /\ ce_state ce = COpen.
Proof.
  split; [apply history_visited|]. split; [|split; [apply o_run_reach; exact w49_reach|split]].
  - split.
    + exists 7, (made_msg oc49 (opts0 None)). eexists _, _. split; [vm_compute; do 3 right; left; reflexivity|].
      vm_compute. do 7 right. left. reflexivity.
    + vm_compute. reflexivity.
    + vm_compute. reflexivity.
  - eexists. apply channel_reported_by. vm_compute. reflexivity.
  - eexists. split; [vm_compute; reflexivity|]. reflexivity.
Qed.
Example C90_closed_case : visited c57 closed90 /\ coupled oc49 o_closed90 c57 closed90 /\ oreach oc49 o_closed90 /\
  (exists ch, channel_reported closed90 ch StClosed) /\ later c57 closed90 closed90' /\
  coupled oc49 o_closed90' c57 closed90' /\ oreach oc49 o_closed90' /\ w_log closed90' <> w_log closed90.
Proof.
  assert (R : oreach oc49 o_closed90) by (exact (o_run_reach oc49 (lost90 1) o_sent90 (o_run_reach oc49 _ w49 w49_reach))).
  split; [exact (later_visited c57 sent90 closed90 (history_visited c57 _) (run_later c57 _ sent90))|]. split; [|split; [exact R|split; [|split; [exact (run_later c57 _ closed90)|split]]]].
  - split.
    + exists 7, (made_msg oc49 (opts0 None)). eexists _, _. split; [vm_compute; do 4 right; left; reflexivity|].
      vm_compute. do 9 right. left. reflexivity.
    + vm_compute. reflexivity.
    + vm_compute. reflexivity.
  - eexists. apply channel_reported_by. vm_compute. reflexivity.
  - split.
    + exists 7, (made_msg oc49 (opts0 None)). eexists _, _. split; [vm_compute; do 5 right; left; reflexivity|].
      vm_compute. do 11 right. left. reflexivity.
    + vm_compute. reflexivity.
    + vm_compute. reflexivity.
  - split; [exact (o_run_reach oc49 (lost90 2) o_closed90 R)|]. intro E. apply (f_equal (@length logitem)) in E. vm_compute in E. discriminate E.
Qed.

Print Assumptions C90_single.
Print Assumptions C90_example.
Print Assumptions C90_no_way_back.
