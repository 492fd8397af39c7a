(** * PropClose: properties C60 and C61, channels closed by the host. *)

From Verif Require Import Base Text Utf8 Base64 Proto Json JsonCodec Types JsonTypes Store
  CosmosMsg QueryMsg Metadata Stargate PacketData Ownable Semver Contract JsonSound HostSpec AnswerSpec AnswerFacts
  EntryFacts Chain ChainSpec Trans Inv HistorySpec History Queries HistFacts Enabled Witness PropChannel.
From Coq Require Import ZifyBool ZifyN.
Local Open Scope string_scope.
Local Open Scope list_scope.
Local Open Scope N_scope.

(** ** C60: a channel close confirmation *)

(** In any store: accepted exactly for the recorded, open channel; afterwards
    only the status has changed, and nothing is sent. *)
Theorem C60_confirm_any_store : forall s ch s' r,
  ibc_channel_close s (MCloseConfirm ch) = Ok (s', r) <->
  st_channel s = Some (ChannelState ch StOpen) /\ s' = set_channel (Some (ChannelState ch StClosed)) s /\
  r = Response [] [].
Proof.
  intros s ch s' r. cbn [ibc_channel_close]. unfold on_close_confirm, close_recorded, load.
  destruct (st_channel s) as [[ch' st]|]; cbn [of_option bindo cst_channel]; [|split; [discriminate|intros (E & _); discriminate]].
  destruct (channel_eqb ch' ch) eqn:E; cbn [negb].
  - apply channel_eqb_spec in E. subst ch'. destruct st; cbn [is_open cst_status negb];
      split; first [discriminate | intros (X & _); discriminate | intro X; injection X as <- <-; auto | intros (_ & -> & ->); reflexivity].
  - split; [discriminate|]. intros (X & _). injection X as X _. apply channel_eqb_spec in X. congruence.
Qed.

(** In every state of every history: accepted exactly for the channel a
    GetChannel query reports as open.  The report then says closed, the chain's
    end is closed, no message is sent, and nothing else has changed. *)
Lemma confirm_act c w id : cfg_ok c -> visited c w -> forall w' b,
  (act c (ACloseConfirm id) w = Some (w', b) <->
   exists s ce, w_store w = Some s /\ w_chans w id = Some ce /\ ce_state ce = COpen /\
     recorded (w_log w) = Some (channel_of c id ce, true) /\ b = false /\
     w' = note (LChanClosed id)
        (put_chan id (ChanEnd CClosed (ce_order ce) (ce_cp ce) (ce_conn ce) (ce_version ce))
          (put_store (set_channel (Some (ChannelState (channel_of c id ce) StClosed)) s) w))).
Proof.
  intros Hc V w' b. cbn [act]. split.
  - intro H. apply obind_some in H as (ce & Hce & H). apply obind_some in H as (? & Hg & H).
    apply obind_some in H as (s & Hs & H). apply obind_some in H as ([s' r] & HC & H). apply ok_of_some in HC.
    apply C60_confirm_any_store in HC as (HC & -> & ->). exists s, ce.
    assert (R : recorded (w_log w) = Some (channel_of c id ce, true)).
    { apply recorded_state_some. rewrite <- (proj1 (recorded_is c w s Hc V Hs)). exact HC. }
    pose proof (recorded_last (w_log w)) as L. rewrite R in L.
    destruct (last_opened_end c w _ Hc V L) as (ce' & md & E1 & E2 & E3 & E4 & E5 & E6). cbn [channel_of ch_endpoint e_chan] in E1.
    rewrite Hce in E1. injection E1 as <-.
    repeat split; auto.
    + apply E6. unfold recorded_open_in. now rewrite R.
    + cbn in H. congruence.
    + cbn in H. congruence.
  - intros (s & ce & Hs & Hce & Ho & R & -> & ->). rewrite Hce. cbn [obind]. rewrite Ho. cbn [guard obind].
    rewrite Hs. cbn [obind].
    rewrite (proj2 (C60_confirm_any_store s (channel_of c id ce)
      (set_channel (Some (ChannelState (channel_of c id ce) StClosed)) s) (Response [] []))); [reflexivity|].
    split; [|split; reflexivity]. rewrite (proj1 (recorded_is c w s Hc V Hs)). unfold recorded_state. now rewrite R.
Qed.

Theorem C60_confirm : forall c w id beh, cfg_ok c -> visited c w ->
  ((exists w', step c (Tx (ACloseConfirm id) beh) w = Some w') <->
   exists ch, channel_reported w ch StOpen /\ e_chan (ch_endpoint ch) = id).
Proof.
  intros c w id beh Hc V. cbn [step]. split.
  - intros (w' & H). destruct (act c (ACloseConfirm id) w) as [[w1 b]|] eqn:HA; [|discriminate].
    apply (confirm_act c w id Hc V) in HA as (s & ce & _ & _ & _ & R & _).
    eexists. split; [apply (recorded_reported c w _ true Hc V R)|reflexivity].
  - intros (ch & R & <-). destruct (channel_reported_log c w ch StOpen Hc V R) as (Hl & [|] & Hr & Hb); [|discriminate].
    pose proof (recorded_last (w_log w)) as L. rewrite Hr in L.
    destruct (last_opened_end c w ch Hc V L) as (ce & md & E1 & E2 & E3 & E4 & E5 & E6).
    destruct (store_some c w Hc V Hl) as [s Hs].
    erewrite (proj2 (confirm_act c w _ Hc V _ false)).
    2: { exists s, ce. split; [exact Hs|]. split; [exact E1|].
         split; [apply E6; unfold recorded_open_in; now rewrite Hr|]. split; [now rewrite E2|]. split; reflexivity. }
    eexists. reflexivity.
Qed.

Theorem C60_after : forall c w id beh w', cfg_ok c -> visited c w ->
  step c (Tx (ACloseConfirm id) beh) w = Some w' ->
  w_log w' = LChanClosed id :: w_log w /\
  (forall ch, channel_reported w ch StOpen -> channel_reported w' ch StClosed) /\
  (exists ce, w_chans w' id = Some ce /\ ce_state ce = CClosed) /\
  (forall id', id' <> id -> w_chans w' id' = w_chans w id') /\
  (forall q, q = get_contract_state \/ q = get_ownership -> ask w' q = ask w q) /\
  (* and no second confirmation is accepted *)
  (forall id' beh', step c (Tx (ACloseConfirm id') beh') w' = None).
Proof.
  intros c w id beh w' Hc V H.
  assert (V' : visited c w').
  { cbn [step] in H. destruct (act c (ACloseConfirm id) w) as [[w1 b]|] eqn:HA; [|discriminate].
    pose proof HA as HB. apply (confirm_act c w id Hc V) in HB as (s & ce & _ & _ & _ & _ & -> & _).
    injection H as <-. eapply visited_act; eassumption. }
  cbn [step] in H. destruct (act c (ACloseConfirm id) w) as [[w1 b]|] eqn:HA; [|discriminate].
  apply (confirm_act c w id Hc V) in HA as (s & ce & Hs & Hce & Ho & R & -> & ->). injection H as H.
  assert (El : w_log w' = LChanClosed id :: w_log w) by (rewrite <- H; reflexivity).
  assert (R' : recorded (w_log w') = Some (channel_of c id ce, false)).
  { rewrite El. cbn [recorded]. rewrite R. unfold on_chan. cbn [channel_of ch_endpoint e_chan]. now rewrite String.eqb_refl. }
  split; [exact El|]. split; [|split; [|split; [|split]]].
  - intros ch Hch. destruct (channel_reported_log c w ch StOpen Hc V Hch) as (_ & [|] & Hr & Hb); [|discriminate].
    rewrite R in Hr. injection Hr as <-. apply (recorded_reported c w' _ false Hc V' R').
  - rewrite <- H. eexists. cbn [note put_chan put_store w_chans]. split; [apply upd_same|reflexivity].
  - intros id' Hne. rewrite <- H. cbn [note put_chan put_store w_chans]. apply upd_other; congruence.
  - intros q Hq. rewrite <- H. unfold ask. cbn [note put_chan put_store w_store]. rewrite Hs.
    destruct Hq as [-> | ->]; reflexivity.
  - intros id' beh'. destruct (step c _ w') as [w2|] eqn:E; [exfalso|reflexivity].
    destruct (proj1 (C60_confirm c w' id' beh' Hc V') (ex_intro _ w2 E)) as (ch & Hch & _).
    destruct (channel_reported_log c w' ch StOpen Hc V' Hch) as (_ & [|] & Hr & Hb); [|discriminate].
    rewrite R' in Hr. discriminate.
Qed.

Example C60_case : exists w ch w', visited cfg0 w /\ channel_reported w ch StOpen /\
  step cfg0 (Tx (ACloseConfirm (e_chan (ch_endpoint ch))) None) w = Some w'.
Proof.
  exists (world_of ordered_open). eexists _, _. split; [apply world_visited|].
  split; [apply channel_reported_by; vm_compute; reflexivity|]. vm_compute. reflexivity.
Qed.

(** ** C61: the host can always close a channel that is open on the chain *)

Theorem C61_host_can_close_refuted : exists c w id ce,
  cfg_ok c /\ visited c w /\ w_chans w id = Some ce /\ ce_state ce = COpen /\
  forall beh, step c (Tx (ACloseConfirm id) beh) w = None.
Proof.
  exists cfg0, (world_of late_timeout), "channel-1". eexists. split; [apply cfg0_ok|].
  split; [apply world_visited|]. split; [vm_compute; reflexivity|]. split; [reflexivity|].
  intro beh. vm_compute. reflexivity.
Qed.

(** It can if handshakes were started one at a time and every timeout concerned
    the channel recorded at that time, or that channel was unordered. *)
Lemma open_recorded c l : hist c l -> always timely l -> always one_at_a_time l ->
  forall id, chan_open l id = true -> exists ch, recorded l = Some (ch, true) /\ e_chan (ch_endpoint ch) = id.
Proof.
  intro H. induction H as [|l new Hl IH B]; intros T A id; [discriminate|].
  assert (T' : always timely l) by (clear -T; induction new as [|x new IH]; [exact T|apply IH, T]).
  assert (A' : always one_at_a_time l) by (clear -A; induction new as [|x new IH]; [exact A|apply IH, A]).
  specialize (IH T' A').
  assert (Hopen : forall id0 o ch, requested l id0 = Some o -> opened l id0 = None ->
    (if on_chan id ch then true else chan_open l id) = true ->
    exists ch0, Some (ch, true) = Some (ch0, true) /\ e_chan (ch_endpoint ch0) = id).
  { intros id0 o ch Hr Ho Hop. exists ch. split; [reflexivity|]. unfold on_chan in Hop.
    destruct (String.eqb_spec (e_chan (ch_endpoint ch)) id) as [E|E]; [exact E|exfalso].
    destruct (IH id Hop) as (ch' & R & _). destruct (one_pending c l Hl A') as [I1 _].
    apply (I1 ltac:(unfold recorded_open_in; now rewrite R) id0); congruence. }
  assert (Hclose : forall ch, recorded l = Some (ch, true) ->
    (if String.eqb (e_chan (ch_endpoint ch)) id then false else chan_open l id) = true ->
    exists ch0, (match recorded l with Some (ch1, b) => if on_chan (e_chan (ch_endpoint ch)) ch1 then Some (ch1, false) else Some (ch1, b) | None => None end) = Some (ch0, true) /\ e_chan (ch_endpoint ch0) = id).
  { intros ch R Hop. destruct (String.eqb_spec (e_chan (ch_endpoint ch)) id) as [E|E]; [discriminate|].
    destruct (IH id Hop) as (ch' & R' & E'). rewrite R in R'. injection R' as <-. contradiction. }
  assert (Htime : forall p r, timely (LTimeout p r) l ->
    (if String.eqb (e_chan (p_src p)) id && chan_ordered l id then false else chan_open l id) = true ->
    exists ch0, (match recorded l with Some (ch1, b) => if order_eqb (ch_order ch1) Ordered then Some (ch1, false) else Some (ch1, b) | None => None end) = Some (ch0, true) /\ e_chan (ch_endpoint ch0) = id).
  { intros p r Ht Hop. destruct (_ && _) eqn:Eb; [discriminate|]. destruct (IH id Hop) as (ch & R & E).
    pose proof (recorded_last l) as L. rewrite R in L |- *. exists ch. split; [|exact E].
    cbn [timely] in Ht. destruct (Ht ch L) as [X|X]; [|now rewrite X].
    unfold chan_ordered in Eb. pose proof (last_opened_opened l ch L) as O. rewrite X, E, String.eqb_refl in Eb. rewrite E in O.
    rewrite O in Eb. cbn [andb] in Eb. now rewrite Eb. }
  destruct B as [B|B]; destruct B;
    repeat match goal with H : callback _ _ _ |- _ => apply callback_quiet in H as [->|(? & ? & ->)] end;
    cbn [app always] in T, A; cbn [app recorded chan_open]; intro Hop; eauto 3.
  - eapply Htime; [|exact Hop]. apply T.
  - eapply Htime; [|exact Hop]. apply T.
Qed.

Theorem C61_host_can_close_partial : forall c w id ce beh,
  cfg_ok c -> visited c w -> always timely (w_log w) -> always one_at_a_time (w_log w) ->
  w_chans w id = Some ce -> ce_state ce = COpen ->
  exists w', step c (Tx (ACloseConfirm id) beh) w = Some w'.
Proof.
  intros c w id ce beh Hc V T A Hce Ho. apply (C60_confirm c w id beh Hc V).
  pose proof (ic_chan _ _ (inv_chans _ _ (visited_inv c w Hc V)) id) as C. rewrite Hce, Ho in C.
  destruct C as (_ & _ & _ & _ & _ & _ & C).
  destruct (open_recorded c _ (visited_hist c w Hc V) T A id C) as (ch & R & E). exists ch.
  split; [apply (recorded_reported c w ch true Hc V R)|exact E].
Qed.
Example C61_case : exists w ce, visited cfg0 w /\ always timely (w_log w) /\ always one_at_a_time (w_log w) /\
  w_chans w "channel-0" = Some ce /\ ce_state ce = COpen.
Proof.
  exists (world_of ordered_open). eexists. split; [apply world_visited|].
  split; [|split; [|split; [vm_compute; reflexivity|reflexivity]]].
  - set (w := world_of _). assert (Hl : exists x4 ch x3 x2, w_log w = [LCall "cb" x4; LChanOpen ch; LChanInit "channel-0"; LInstantiated x3 "owner" x2])
      by (eexists _, _, _, _; vm_compute; reflexivity).
    destruct Hl as (x4 & ch & x3 & x2 & ->). cbn. auto 10.
  - set (w := world_of _). assert (Hl : exists x4 ch x3 x2, w_log w = [LCall "cb" x4; LChanOpen ch; LChanInit "channel-0"; LInstantiated x3 "owner" x2])
      by (eexists _, _, _, _; vm_compute; reflexivity).
    destruct Hl as (x4 & ch & x3 & x2 & ->). cbn. repeat split; auto.
Qed.

Print Assumptions C60_confirm_any_store.
Print Assumptions C60_confirm.
Print Assumptions C60_after.
Print Assumptions C61_host_can_close_refuted.
Print Assumptions C61_host_can_close_partial.
