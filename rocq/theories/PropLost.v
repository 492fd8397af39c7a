(** * PropLost: when an account is out of reach for good, and when it is not.

    C85, which settles what C82 leaves open: [forsaken] describes the states in
    which the contract can never send anything to the account of a connection
    again ([C85_lost]), [way] those from which the owner can get on
    ([C85_regained]), and [C85_either] says how the two fit together. *)

From Verif Require Import Base Utf8 Proto Json JsonCodec Types JsonTypes Store Contract CosmosMsg QueryMsg Metadata PacketData Ownable
  JsonSound HostSpec AnswerSpec HostFacts PacketFacts EntryFacts
  Chain ChainSpec Trans Inv HistorySpec History HistFacts Queries Enabled PropChannel PropPacket PropFlow PropAnswer PropCallback
  Host HostInv Witness HostReach PropHost PropEnd.
From Coq Require Import ZifyBool ZifyN.
Local Open Scope string_scope.
Local Open Scope list_scope.
Local Open Scope N_scope.

(** The contract reports the account on this channel. *)
Definition current (w : world) (id : string) : Prop :=
  exists st info, state_reported w st /\ cs_ica st = Some info /\ ii_channel info = id.

(** No way is left to the account of the host's end [x] of a connection: the
    host's active channel there is not closed on the contract's chain; and for
    every channel end the host has there, the contract's end
    - is not waiting for the handshake to be completed,
    - has not been closed before the host learnt that it was open, and
    - if it is open, is not the channel of the account the contract reports,
      and (if it is ordered, and the host's active channel or one the host can
      still make so) has no packet left that could time out and close it. *)
Record forsaken (s : sys) (x : string) : Prop := {
  fs_active : exists a hc ce, h_active (y_h s) x = Some a /\ h_chans (y_h s) a = Some hc /\
    w_chans (y_w s) (e_chan (hc_cp hc)) = Some ce /\ ce_state ce <> CClosed;
  fs_ends : forall hid hc ce, h_chans (y_h s) hid = Some hc -> hc_conn hc = x ->
    w_chans (y_w s) (e_chan (hc_cp hc)) = Some ce ->
    ce_state ce <> CInit /\
    (e_chan (ce_cp ce) = hid ->
      (hc_state hc = HsTry -> ce_state ce <> CClosed) /\
      (ce_state ce = COpen ->
        ~ current (y_w s) (e_chan (hc_cp hc)) /\
        (hc_state hc = HsTry \/ h_active (y_h s) x = Some hid -> ce_order ce = Ordered ->
         forall n p, w_commit (y_w s) (e_chan (hc_cp hc)) n = Some p -> n < hc_next hc)))
}.

(** ** The contract's chain *)

Lemma current_log c w id : cfg_ok c -> visited c w ->
  (current w id <-> exists ch, last_opened (w_log w) = Some ch /\ e_chan (ch_endpoint ch) = id).
Proof.
  intros Hc V. split.
  - intros (st & info & H1 & H2 & H3). destruct (state_reported_log c w st Hc V H1) as (_ & ->). cbn [cs_ica] in H2.
    unfold account_of in H2. destruct (last_opened (w_log w)) as [ch|]; [|discriminate]. exists ch. split; [reflexivity|].
    destruct (from_json jc_metadata (ch_version ch)); [|discriminate]. injection H2 as <-. exact H3.
  - intros (ch & H1 & H2). destruct (last_opened_end c w ch Hc V H1) as (ce & md & _ & _ & Md & _).
    assert (Hl : w_log w <> []) by (intro E; rewrite E in H1; discriminate).
    eexists _, _. split; [exact (reports c w Hc V Hl)|]. unfold account_of. rewrite H1, Md. split; [reflexivity|exact H2].
Qed.

Lemma end_open c w id ce : cfg_ok c -> visited c w -> w_chans w id = Some ce -> ce_state ce <> CInit ->
  (ce_state ce = COpen <-> chan_open (w_log w) id = true).
Proof.
  intros Hc V E N. pose proof (ic_chan _ _ (inv_chans _ _ (visited_inv c w Hc V)) id) as C. rewrite E in C.
  destruct C as (_ & _ & _ & _ & _ & C). destruct (ce_state ce); [congruence| |]; destruct C as (C1 & C2); split; congruence.
Qed.

Lemma last_plain pre l : Forall plain pre -> last_opened (pre ++ l) = last_opened l.
Proof. induction 1 as [|i pre Hi _ IH]; [reflexivity|]. destruct i; try contradiction; exact IH. Qed.

(** What a step of the contract's chain changes, as far as this file goes. *)
Record moved (c : cfg) (w : world) (w' : world) : Prop := {
  mv_end : forall id ce', w_chans w' id = Some ce' -> forall ce, w_chans w id = Some ce -> same_end ce ce';
  mv_current : forall id, current w' id -> current w id \/ exists ce, w_chans w id = Some ce /\ ce_state ce = CInit;
  mv_closed : forall id ce ce', w_chans w id = Some ce -> ce_state ce = COpen ->
    w_chans w' id = Some ce' -> ce_state ce' = CClosed ->
    current w id \/
    (ce_order ce = Ordered /\ exists n p r, w_commit w id n = Some p /\ In (LTimeout p r) (w_log w'));
  mv_commit : forall id n p, w_commit w' id n = Some p -> w_commit w id n = Some p \/ current w id;
  mv_sent : forall e sd m p, In (LSent e sd m p) (w_log w') -> In (LSent e sd m p) (w_log w) \/
    (current w (e_chan (p_src p)) /\ chan_open (w_log w) (e_chan (p_src p)) = true)
}.

Lemma act_moved c a w w' b : cfg_ok c -> visited c w -> (forall id, a <> ACloseConfirm id) ->
  act c a w = Some (w', b) -> moved c w w'.
Proof.
  intros Hc V Na Ha. pose proof (act_trans _ _ _ _ _ Hc (visited_base _ _ Hc V) Ha) as T.
  assert (V' : visited c w') by (econstructor; eassumption).
  destruct (act_main c a w w' b Hc V Ha) as (pre & M).
  constructor.
  - intros id ce' E' ce E. destruct (chan_step _ _ _ _ _ _ T E) as (ce2 & E2 & S). congruence.
  - intros id H. apply (current_log c w' id Hc V') in H as (ch & H1 & H2).
    assert (Old : last_opened (w_log w') = last_opened (w_log w) -> current w id).
    { intro X. apply (current_log c w id Hc V). exists ch. split; congruence. }
    assert (U : user_block c (w_log w) pre /\ w_log w' = pre ++ w_log w -> current w id).
    { intros (B & El). apply Old. rewrite El. destruct B; reflexivity. }
    destruct a; try (left; exact (U M)).
    + right. destruct M as (ce & M1 & M2 & M3). rewrite M2, last_plain in H1 by exact M3. cbn [last_opened] in H1.
      injection H1 as <-. cbn [channel_of ch_endpoint e_chan] in H2. subst id0. exists ce. split; [exact M1|].
      cbn [act] in Ha. apply obind_some in Ha as ([] & _ & Ha). apply obind_some in Ha as (ce' & E' & Ha).
      apply obind_some in Ha as ([] & G7 & _). apply guard_some in G7. assert (ce' = ce) by congruence. subst ce'.
      destruct (ce_state ce); congruence.
    + destruct (Na _ eq_refl).
    + left. apply Old. destruct M as (ce & p & _ & _ & M3 & M4). rewrite M3, last_plain by exact M4. reflexivity.
    + left. apply Old. destruct M as (ce & p & _ & _ & M3 & M4). rewrite M3, last_plain by exact M4. reflexivity.
  - intros id ce ce' E St E' St'.
    assert (N : ce_state ce <> CInit) by congruence.
    pose proof (proj1 (end_open c w id ce Hc V E N) St) as Op.
    assert (Op' : chan_open (w_log w') id = false).
    { destruct (chan_open (w_log w') id) eqn:X; [|reflexivity]. apply (end_open c w' id ce' Hc V' E') in X; congruence. }
    assert (U : user_block c (w_log w) pre /\ w_log w' = pre ++ w_log w -> current w id).
    { intros (B & El). rewrite El in Op'. destruct B; cbn [app chan_open] in Op'; try congruence.
      destruct (String.eqb_spec (e_chan (ch_endpoint ch)) id) as [<-|]; [|cbn in Op'; congruence].
      apply (current_log c w _ Hc V). exists ch. split; [|reflexivity].
      match goal with X : recorded _ = Some (ch, true) |- _ => pose proof (recorded_last (w_log w)) as La; rewrite X in La end. exact La. }
    destruct a; try (left; exact (U M)).
    + exfalso. destruct M as (ce0 & M1 & M2 & M3). rewrite M2, chan_open_plain in Op' by exact M3. cbn [chan_open] in Op'.
      destruct (on_chan _ _); congruence.
    + destruct (Na _ eq_refl).
    + exfalso. destruct M as (ce0 & p & _ & _ & M3 & M4). rewrite M3, chan_open_plain in Op' by exact M4. cbn [chan_open] in Op'. congruence.
    + right. destruct M as (ce0 & p & M1 & M2 & M3 & M4). rewrite M3, chan_open_plain in Op' by exact M4. cbn [chan_open] in Op'.
      destruct (held _ _ _ _ _ Hc V M2) as (ce1 & K1 & K2 & K3 & _). rewrite K3 in Op'. cbn [e_chan] in Op'.
      unfold chan_ordered in Op'. rewrite (end_opened _ _ _ _ Hc V E N) in Op'.
      destruct (String.eqb_spec id0 id) as [->|]; [|cbn in Op'; congruence]. split.
      * cbn [channel_of ch_order] in Op'. destruct (ce_order ce); [reflexivity|]. cbn in Op'. congruence.
      * eexists _, p, relayer. split; [exact M2|]. rewrite M3. apply in_or_app. right. now left.
  - intros id n p H. destruct T; cbn [w_commit] in H; auto.
    + unfold upd2 in H. destruct (_ && _) eqn:X; [|auto]. right. apply andb_true_iff in X as (X & _). apply String.eqb_eq in X.
      subst id. apply (current_log c w _ Hc V).
      pose proof (inv_recorded _ _ (visited_inv c w Hc V) _ H0) as R. unfold inv_rec in R.
      destruct (st_channel s) as [cs|].
      * destruct R as (st' & info' & ce' & md & R1 & R2 & _ & _ & R3 & R4 & _). assert (st' = st) by congruence. subst st'.
        assert (info' = info) by congruence. subst info'. exists (cst_channel cs). split; [exact R3|]. rewrite R4. reflexivity.
      * destruct R as (_ & st' & R1 & R2). congruence.
    + unfold upd2 in H. destruct (_ && _); [discriminate|auto].
    + unfold upd2 in H. destruct (_ && _); [discriminate|auto].
  - intros e sd m p H.
    assert (U : user_block c (w_log w) pre /\ w_log w' = pre ++ w_log w ->
      In (LSent e sd m p) (w_log w) \/
      (current w (e_chan (p_src p)) /\ chan_open (w_log w) (e_chan (p_src p)) = true)).
    { intros (B & El). rewrite El in H. destruct B; cbn [app In] in H;
        repeat (destruct H as [H|H]; [try discriminate H|]); auto.
      injection H as <- <- <- <-. right. split; [|congruence]. apply (current_log c w _ Hc V). exists ch. split; [assumption|]. congruence. }
    destruct a; try (exact (U M)).
    + left. destruct M as (ce & M1 & M2 & M3). rewrite M2 in H. apply sent_plain in H; [|exact M3]. destruct H as [H|H]; [discriminate|exact H].
    + destruct (Na _ eq_refl).
    + left. destruct M as (ce0 & p0 & _ & _ & M3 & M4). rewrite M3 in H. apply sent_plain in H; [|exact M4]. destruct H as [H|H]; [discriminate|exact H].
    + left. destruct M as (ce0 & p0 & _ & _ & M3 & M4). rewrite M3 in H. apply sent_plain in H; [|exact M4]. destruct H as [H|H]; [discriminate|exact H].
Qed.

Lemma seq_pos c w id n p : cfg_ok c -> visited c w -> w_commit w id n = Some p -> 1 <= n.
Proof.
  intros Hc V H. destruct (held _ _ _ _ _ Hc V H) as (ce & _ & _ & S & _ & Q & e & sd & m & Hs).
  pose proof (sends_count c _ id (visited_hist c _ Hc V)) as Sc.
  assert (Hx : In n (sent_on id (w_log w))).
  { rewrite <- packets_sent_seq, <- Q. apply in_map, packets_sent_in. exists e, sd, m. split; [exact Hs|]. now rewrite S. }
  rewrite Sc in Hx. unfold upto in Hx. apply in_map_iff in Hx as (y & Ey & Hx). apply in_seq in Hx. lia.
Qed.

(** A packet that was reported as timed out has not been received. *)
Lemma timed_out c k w w' h id n p ce r hc : cfg_ok c -> visited c w -> link c w h -> link c w' h -> host_inv c k h ->
  w_commit w id n = Some p -> w_chans w id = Some ce -> In (LTimeout p r) (w_log w') ->
  h_chans h (e_chan (ce_cp ce)) = Some hc -> hc_order hc = Ordered -> hc_next hc <= n.
Proof.
  intros Hc V L L' Hv Hp Hce Ht Hh Ho. destruct (N.le_gt_cases (hc_next hc) n) as [|G]; [assumption|exfalso].
  pose proof (seq_pos _ _ _ _ _ Hc V Hp) as Pos. pose proof (hi_ordered _ _ _ Hv _ _ Hh Ho) as N2.
  assert (Hin : In n (received (e_chan (ce_cp ce)) (h_log h))) by (rewrite N2; apply in_down; lia).
  destruct (in_received _ _ _ Hin) as (i & Hi & Eh & En).
  pose proof (item_is c k _ _ _ _ _ _ _ Hc V L Hv Hp Hce Hi Eh En) as X.
  exact (proj1 (lk_timeout _ _ _ L' _ _ Ht) _ Hi X).
Qed.

(** ** The host *)

Lemma host_ends c k a w h h' : hact c k a w h = Some h' ->
  forall hid hc', h_chans h' hid = Some hc' -> h_chans h hid = Some hc' \/
    (exists id v, a = HTryOpen hid id v /\ h_chans h hid = None /\
       forall b, h_active h (hc_conn hc') = Some b -> exists hb, h_chans h b = Some hb /\ hc_state hb = HsClosed) \/
    exists hc, h_chans h hid = Some hc /\ hc_conn hc' = hc_conn hc /\ hc_cp hc' = hc_cp hc /\ hc_next hc <= hc_next hc' /\
      ((a = HConfirm hid /\ hc_state hc = HsTry) \/ hc_state hc' = HsClosed \/ (hc_state hc = HsOpen /\ hc_state hc' = HsOpen)).
Proof.
  intros H hid hc'. destruct a as [t|hid0 id version|hid0|hid0|hid0 n o ack]; cbn [hact] in H.
  - unbind H. injection H as <-. auto.
  - apply obind_some in H as ([] & G0 & H). apply obind_some in H as (ce & Ece & H). apply obind_some in H as ([] & G1 & H).
    apply obind_some in H as ([] & G2 & H). apply obind_some in H as (md & G3 & H). apply obind_some in H as ([] & G4 & H).
    apply obind_some in H as (acc & G5 & H). apply obind_some in H as ([] & G6 & H). injection H as <-.
    apply guard_some in G0, G4. apply may_open_ok in G4 as (_ & _ & M). cbn [put_account put_hchan h_chans].
    destruct (String.eqb_spec hid0 hid) as [->|N]; [|rewrite upd_other by exact N; auto].
    rewrite upd_same. intro X. injection X as <-. right. left. exists id, version. split; [reflexivity|].
    split; [destruct (h_chans h hid); [discriminate|reflexivity]|]. cbn [hc_conn]. intros b Hb.
    destruct (M b Hb) as (hb & y & M1 & M2 & _). eauto.
  - apply obind_some in H as (hc & Ehc & H). apply obind_some in H as ([] & G0 & H). unbind H. injection H as <-.
    apply guard_some in G0. cbn [put_active put_hchan h_chans].
    destruct (String.eqb_spec hid0 hid) as [->|N]; [|rewrite upd_other by exact N; auto].
    rewrite upd_same. intro X. injection X as <-. right. right. exists hc. split; [exact Ehc|]. cbn. repeat split; auto; [lia|].
    left. split; [reflexivity|]. destruct (hc_state hc); congruence.
  - apply obind_some in H as (hc & Ehc & H). apply obind_some in H as ([] & G0 & H). unbind H. injection H as <-.
    cbn [put_active put_hchan h_chans].
    destruct (String.eqb_spec hid0 hid) as [->|N]; [|rewrite upd_other by exact N; auto].
    rewrite upd_same. intro X. injection X as <-. right. right. exists hc. split; [exact Ehc|]. cbn. repeat split; auto. lia.
  - apply obind_some in H as (hc & Ehc & H). apply obind_some in H as ([] & G & H). apply obind_some in H as (p & _ & H).
    apply obind_some in H as ([] & _ & H). apply obind_some in H as ([] & _ & H). apply obind_some in H as ([] & G3 & H).
    apply obind_some in H as ([d ran] & _ & H). apply obind_some in H as ([] & _ & H). cbv zeta in H. injection H as <-.
    apply guard_some in G, G3. cbn [h_chans]. destruct (hc_order hc); [|auto].
    destruct (String.eqb_spec hid0 hid) as [->|N]; [|rewrite upd_other by exact N; auto].
    rewrite upd_same. intro X. injection X as <-. right. right. exists hc. split; [exact Ehc|]. cbn. repeat split; auto; [lia|].
    right. right. destruct (hc_state hc); try congruence. auto.
Qed.

Lemma host_active c k a w h h' x : hact c k a w h = Some h' ->
  h_active h' x = h_active h x \/
  exists hid hc ce, a = HConfirm hid /\ h_chans h hid = Some hc /\ hc_state hc = HsTry /\ hc_conn hc = x /\ h_active h' x = Some hid /\
    w_chans w (e_chan (hc_cp hc)) = Some ce /\ ce_state ce = COpen /\ e_chan (ce_cp ce) = hid.
Proof.
  intro H. destruct a as [t|hid0 id version|hid0|hid0|hid0 n o ack]; cbn [hact] in H.
  - unbind H. injection H as <-. auto.
  - unbind H. injection H as <-. auto.
  - apply obind_some in H as (hc & Ehc & H). apply obind_some in H as ([] & G0 & H). apply obind_some in H as (ce & Ece & H).
    apply obind_some in H as ([] & G1 & H). apply obind_some in H as ([] & G2 & H). injection H as <-.
    apply guard_some in G0, G1, G2. apply andb_true_iff in G2 as (G2 & _). apply String.eqb_eq in G2.
    cbn [put_active put_hchan h_active].
    destruct (String.eqb_spec (hc_conn hc) x) as [E|N]; [|rewrite upd_other by exact N; auto].
    right. exists hid0, hc, ce. rewrite E, upd_same. repeat split; auto; [destruct (hc_state hc)|destruct (ce_state ce)]; congruence.
  - unbind H. injection H as <-. auto.
  - apply obind_some in H as (hc & Ehc & H). apply obind_some in H as ([] & G & H). apply obind_some in H as (p & _ & H).
    apply obind_some in H as ([] & _ & H). apply obind_some in H as ([] & _ & H). apply obind_some in H as ([] & G3 & H).
    apply obind_some in H as ([d ran] & _ & H). apply obind_some in H as ([] & _ & H). cbv zeta in H. injection H as <-. auto.
Qed.

(** ** What is lost stays lost *)

Lemma forsaken_step c k s s' x : cfg_ok c -> reached c k s -> sstep c k s s' -> forsaken s x -> forsaken s' x.
Proof.
  intros Hc R S [(a & hca & cea & F1 & F2 & F3 & F4) F5]. pose proof (reached_inv c k s Hc R) as I.
  pose proof (step_inv c k s s' Hc I S) as I'. pose proof (si_w _ _ _ I) as V. destruct (reached_terms c k s Hc R) as [_ Ta].
  pose proof (si_link _ _ _ I) as L. pose proof (si_link _ _ _ I') as L'.
  destruct (Ta _ _ F1) as (hc' & Ta1 & Ta2 & Ta3). assert (hc' = hca) by congruence. subst hc'.
  assert (Pa : e_chan (ce_cp cea) = a /\ ce_state cea = COpen).
  { destruct (lk_chan _ _ _ L _ _ F2) as (id & ce & K1 & K2 & K3 & K4 & K5). rewrite K1 in F3. cbn [e_chan] in F3.
    assert (ce = cea) by congruence. subst ce. destruct (K4 Ta2) as (N & -> & _). split; [reflexivity|].
    destruct (ce_state cea); congruence. }
  destruct Pa as (Pa & Pb).
  destruct S as [act0 h w b Hh Hg Ha|act0 w h Hw Ha]; cbn [y_w y_h] in *.
  - assert (Mv : moved c (y_w s) w).
    { eapply act_moved; [exact Hc|exact V| |exact Ha]. intros id ->. destruct (si_hs _ _ _ I _ Hh) as (_ & Hl).
      destruct (act_main _ _ _ _ _ Hc V Ha) as (pre & ce & M1 & M2). destruct (no_close_confirm _ _ _ _ _ Hl L Hg) as (ce' & E1 & E2). congruence. }
    pose proof (act_trans _ _ _ _ _ Hc (visited_base _ _ Hc V) Ha) as T.
    destruct (si_hs _ _ _ I _ (si_h _ _ _ I)) as [Hv _].
    assert (Cl : forall hid hc ce ce', h_chans (y_h s) hid = Some hc -> hc_conn hc = x -> e_chan (ce_cp ce) = hid ->
       w_chans (y_w s) (e_chan (hc_cp hc)) = Some ce -> ce_state ce = COpen ->
       hc_state hc = HsTry \/ h_active (y_h s) x = Some hid ->
       w_chans w (e_chan (hc_cp hc)) = Some ce' -> ce_state ce' <> CClosed).
    { intros hid hc ce ce' E1 E2 E3 E4 E5 E6 E7 E8. destruct (F5 _ _ _ E1 E2 E4) as (_ & F6).
      destruct (F6 E3) as (_ & F7). destruct (F7 E5) as (F8 & F9).
      destruct (mv_closed _ _ _ Mv _ _ _ E4 E5 E7 E8) as [X|(X & n & p & r & Y & Z)]; [contradiction|].
      pose proof (F9 E6 X n p Y) as Lt.
      destruct (host_end c _ _ _ _ Hc V L E4 ltac:(congruence)) as (hc2 & Q1 & _ & _ & Q4). rewrite E3 in Q1.
      assert (hc2 = hc) by congruence. subst hc2.
      pose proof (timed_out c k _ _ _ _ _ _ _ _ _ Hc V L L' Hv Y E4 Z ltac:(rewrite E3; exact E1) ltac:(congruence)). lia. }
    constructor; cbn [y_w y_h].
    + destruct (chan_step _ _ _ _ _ _ T F3) as (ce' & E' & _). exists a, hca, ce'.
      repeat (split; [assumption|]). exact (Cl a hca cea ce' F2 Ta3 Pa F3 Pb (or_intror F1) E').
    + intros hid hc ce' E1 E2 E4.
      destruct (lk_chan _ _ _ L _ _ E1) as (id & ce & K1 & K2 & K3 & K4 & K5). assert (Ei : e_chan (hc_cp hc) = id) by (now rewrite K1).
      rewrite Ei in *. destruct (F5 _ _ ce E1 E2) as (G1 & G2); [congruence|]. rewrite Ei in G2.
      destruct (mv_end _ _ _ Mv _ _ E4 _ K2) as (Sm1 & Sm2 & Sm3 & Sm4). destruct (Sm3 G1) as (Sm5 & _ & Sm6).
      split; [exact Sm6|]. rewrite <- Sm5. intro E3. destruct (G2 E3) as (G3 & G4).
      assert (Cl' : hc_state hc = HsTry \/ h_active (y_h s) x = Some hid -> ce_state ce = COpen -> ce_state ce' <> CClosed).
      { intros Y Z. eapply (Cl hid hc ce ce'); try rewrite Ei; eassumption. }
      split.
      * intro Ht. apply Cl'; [now left|]. specialize (G3 Ht). destruct (ce_state ce); congruence.
      * intro So. assert (So' : ce_state ce = COpen).
        { destruct (ce_state ce) eqn:X; [congruence|reflexivity|]. rewrite (Sm4 eq_refl) in So. discriminate. }
        destruct (G4 So') as (G5 & G6). split.
        -- intro X. destruct (mv_current _ _ _ Mv _ X) as [Y|(ce0 & Y & Z)]; [contradiction|congruence].
        -- intros Y Z n p Hp. destruct (mv_commit _ _ _ Mv _ _ _ Hp) as [W|W]; [|contradiction]. rewrite <- Sm1 in Z. eauto.
  - destruct (si_ws _ _ _ I _ Hw) as (Vw & Lw).
    assert (Conf : forall hid hc, act0 = HConfirm hid -> h_chans (y_h s) hid = Some hc -> hc_conn hc = x -> hc_state hc = HsTry ->
      exists ce, w_chans (y_w s) (e_chan (hc_cp hc)) = Some ce /\ e_chan (ce_cp ce) = hid /\ ce_state ce = COpen).
    { intros hid hc -> E1 E2 E3. destruct (host_active _ _ _ _ _ _ x Ha) as [X|X].
      - cbn [hact] in Ha. rewrite E1 in Ha. cbn [obind] in Ha. rewrite E3 in Ha. cbn [guard obind] in Ha.
        apply obind_some in Ha as (ce & Ece & Ha). apply obind_some in Ha as ([] & G1 & Ha). apply obind_some in Ha as ([] & G2 & Ha).
        apply guard_some in G1, G2. apply andb_true_iff in G2 as (G2 & _). apply String.eqb_eq in G2.
        destruct (later_chan _ _ _ _ _ Hc Vw Lw Ece) as (ce' & E' & _ & _ & S3 & _). destruct S3 as (S4 & _ & S5); [destruct (ce_state ce); congruence|].
        exists ce'. split; [exact E'|]. split; [congruence|]. destruct (F5 _ _ _ E1 E2 E') as (_ & G). destruct (G ltac:(congruence)) as (G3 & _).
        specialize (G3 E3). destruct (ce_state ce'); congruence.
      - destruct X as (hid2 & hc2 & ce & X1 & X2 & X3 & X4 & X5 & X6 & X7 & X8). injection X1 as <-. assert (hc2 = hc) by congruence. subst hc2.
        destruct (later_chan _ _ _ _ _ Hc Vw Lw X6) as (ce' & E' & _ & _ & S3 & _). destruct S3 as (S4 & _ & S5); [congruence|].
        exists ce'. split; [exact E'|]. split; [congruence|]. destruct (F5 _ _ _ E1 E2 E') as (_ & G). destruct (G ltac:(congruence)) as (G3 & _).
        specialize (G3 E3). destruct (ce_state ce'); congruence. }
    destruct (si_hs _ _ _ I' h (or_introl eq_refl)) as [_ _].
    destruct (si_hs _ _ _ I' (y_h s) (or_intror (si_h _ _ _ I))) as [_ Hl]. cbn [y_h] in Hl.
    constructor; cbn [y_w y_h].
    + destruct (host_active _ _ _ _ _ _ x Ha) as [X|(hid & hc & ce & X1 & X2 & X3 & X4 & X5 & _)].
      * destruct (hl_chan _ _ Hl _ _ F2) as (hc' & E' & _ & S2 & _). exists a, hc', cea. rewrite X, <- S2. auto.
      * destruct (Conf _ _ X1 X2 X4 X3) as (ce' & C1 & C2 & C3).
        destruct (hl_chan _ _ Hl _ _ X2) as (hc' & E' & _ & S2 & _). exists hid, hc', ce'. rewrite X5, <- S2. repeat (split; [assumption || reflexivity|]). congruence.
    + intros hid hc' ce E1 E2 E3. destruct (host_ends _ _ _ _ _ _ Ha _ _ E1) as [E|[(id & v & E4 & E5 & E6)|(hc & E4 & E5 & E6 & E7 & E8)]].
      * destruct (F5 _ _ _ E E2 E3) as (G1 & G2). split; [exact G1|]. intro P. destruct (G2 P) as (G3 & G4). split; [exact G3|].
        intro So. destruct (G4 So) as (G5 & G6). split; [exact G5|]. intros Y. apply G6. destruct Y as [Y|Y]; [now left|].
        destruct (host_active _ _ _ _ _ _ x Ha) as [X|(hid2 & hc2 & ce2 & X1 & X2 & X3 & X4 & X5 & _)]; [right; congruence|].
        left. assert (hid2 = hid) by congruence. subst hid2. congruence.
      * exfalso. rewrite E2 in E6. destruct (E6 _ F1) as (hb & B1 & B2). assert (hb = hca) by congruence. subst hb.
        destruct (lk_chan _ _ _ L _ _ F2) as (id' & ce' & K1 & K2 & _ & _ & K5). rewrite K1 in F3. cbn [e_chan] in F3.
        assert (ce' = cea) by congruence. subst ce'. apply F4. exact (K5 B2).
      * rewrite E5 in E2. rewrite E6 in E3. destruct (F5 _ _ _ E4 E2 E3) as (G1 & G2). split; [exact G1|]. intro P. destruct (G2 P) as (G3 & G4).
        rewrite E6. split.
        -- intro Ht. destruct E8 as [(E8 & E9)|[E8|(E8 & E9)]]; [exact (G3 E9)|congruence..].
        -- intro So. destruct (G4 So) as (G5 & G6). split; [exact G5|]. intros Y Z n p Hp.
           enough (n < hc_next hc) by lia. refine (G6 _ Z n p Hp).
           destruct E8 as [(E8 & E9)|E8]; [now left|].
           destruct (host_active _ _ _ _ _ _ x Ha) as [X|(hid2 & hc2 & ce2 & X1 & X2 & X3 & X4 & X5 & _)].
           ++ destruct Y as [Y|Y]; [destruct E8 as [E8|(E8 & E9)]; congruence|]. right. congruence.
           ++ destruct Y as [Y|Y]; [destruct E8 as [E8|(E8 & E9)]; congruence|]. assert (hid2 = hid) by congruence. subst hid2. left. congruence.
Qed.

(** Once an account is lost in this way nobody can bring it back: whatever
    happens, every request of the contract that goes to a channel of that
    connection, and everything the host carries out there, was sent before. *)
Theorem C85_lost : forall c k s s' x, cfg_ok c -> reached c k s -> forsaken s x -> follows c k s s' ->
  forsaken s' x /\
  forall e sd m p hc, In (LSent e sd m p) (w_log (y_w s')) ->
    h_chans (y_h s') (e_chan (p_dest p)) = Some hc -> hc_conn hc = x -> In (LSent e sd m p) (w_log (y_w s)).
Proof.
  intros c k s s' x Hc R F Fo. induction Fo as [|s1 s2 Fo IH S]; [auto|]. destruct IH as (IH1 & IH2).
  pose proof (reached_follows _ _ _ _ R Fo) as R1. pose proof (reached_inv c k s1 Hc R1) as I1.
  split; [exact (forsaken_step c k s1 s2 x Hc R1 S IH1)|]. intros e sd m p hc Hs Hh Hx.
  pose proof (si_w _ _ _ I1) as V1. pose proof (si_link _ _ _ I1) as L1.
  assert (Old : In (LSent e sd m p) (w_log (y_w s1)) -> exists hc1, h_chans (y_h s1) (e_chan (p_dest p)) = Some hc1).
  { intro H. destruct (sent_dest c e sd m p Hc _ V1 H) as (ce & D1 & D2 & D3 & _).
    destruct (host_end c _ _ _ _ Hc V1 L1 D1 D2) as (hc1 & H1 & _). exists hc1. congruence. }
  destruct S as [act0 h w b Hh0 Hg Ha|act0 w h Hw Ha]; cbn [y_w y_h] in *.
  - assert (Mv : moved c (y_w s1) w).
    { eapply act_moved; [exact Hc|exact V1| |exact Ha]. intros id ->. destruct (si_hs _ _ _ I1 _ Hh0) as (_ & Hl).
      destruct (act_main _ _ _ _ _ Hc V1 Ha) as (pre & ce & M1 & M2). destruct (no_close_confirm _ _ _ _ _ Hl L1 Hg) as (ce' & E1 & E2). congruence. }
    destruct (mv_sent _ _ _ Mv _ _ _ _ Hs) as [H|(H & Hop)]; [eauto|exfalso].
    assert (Vw : visited c w) by (econstructor; eassumption).
    destruct (sent_dest c e sd m p Hc _ Vw Hs) as (ce' & D1 & D2 & D3 & D4).
    apply (current_log c _ _ Hc V1) in H as Hcur. destruct Hcur as (ch & La & Ech).
    destruct (last_opened_end c _ _ Hc V1 La) as (ce & md & E & _ & _ & _ & St & _). rewrite Ech in E.
    assert (N : ce_state ce <> CInit) by (destruct St; congruence).
    destruct (mv_end _ _ _ Mv _ _ D1 _ E) as (_ & _ & S3 & S4). destruct (S3 N) as (S5 & _ & _).
    destruct (host_end c _ _ _ _ Hc V1 L1 E N) as (hc1 & Q1 & Q2 & _). rewrite S5, <- D3 in Q1.
    assert (hc1 = hc) by congruence. subst hc1.
    destruct (fs_ends _ _ IH1 _ _ ce Hh Hx) as (_ & G); [rewrite Q2; exact E|].
    destruct G as (_ & G); [rewrite S5, <- D3; reflexivity|]. rewrite Q2 in G. cbn [e_chan] in G.
    apply (end_open c _ _ _ Hc V1 E N) in Hop. exact (proj1 (G Hop) H).
  - destruct (Old Hs) as (hc1 & H1). apply (IH2 e sd m p hc1 Hs H1).
    destruct (host_ends _ _ _ _ _ _ Ha _ _ Hh) as [E|[(id & v & _ & E5 & _)|(hc2 & E4 & E5 & _)]]; congruence.
Qed.

(** In particular nothing more is carried out than what was sent before. *)
Theorem C85_lost_runs : forall c k s s' x hid p account anys res answers hc, cfg_ok c -> reached c k s -> forsaken s x -> follows c k s s' ->
  In (Ran hid p account anys res answers) (h_log (y_h s')) -> h_chans (y_h s') hid = Some hc -> hc_conn hc = x ->
  exists e sd m, In (LSent e sd m p) (w_log (y_w s)).
Proof.
  intros c k s s' x hid p account anys res answers hc Hc R F Fo Hr Hh Hx.
  destruct (C85_lost c k s s' x Hc R F Fo) as (_ & G).
  pose proof (reached_inv c k s' Hc (reached_follows _ _ _ _ R Fo)) as I.
  destruct (lk_sent _ _ _ (si_link _ _ _ I) _ Hr) as (e & sd & m & Hs). cbn [item_pkt] in Hs.
  destruct (si_hs _ _ _ I _ (si_h _ _ _ I)) as [Hv _].
  destruct (hi_item _ _ _ Hv _ Hr) as (hc' & ack & _ & _ & D & _). cbn [item_pkt item_hid] in D.
  exists e, sd, m. apply (G e sd m p hc Hs); [rewrite D; exact Hh|exact Hx].
Qed.

(** ** The ways out *)

(** A way is left to the account of [x]: the host's active channel there is
    closed on the contract's chain; or the channel of the account the contract
    reports is open and is, or can be made, the active one; or a handshake with
    an account the contract accepts is under way; or the host has not learnt
    that a channel was opened that has been closed since; or a packet that has
    not been received can time out and so close the (ordered) active channel. *)
Inductive way (c : cfg) (s : sys) (x : string) : Prop :=
| W_free : free_on s x -> way c s x
| W_current hid hc ce :
    h_chans (y_h s) hid = Some hc -> hc_conn hc = x -> w_chans (y_w s) (e_chan (hc_cp hc)) = Some ce ->
    e_chan (ce_cp ce) = hid -> ce_state ce = COpen -> current (y_w s) (e_chan (hc_cp hc)) ->
    hc_state hc = HsTry \/ h_active (y_h s) x = Some hid -> way c s x
| W_handshake hid hc ce :
    h_chans (y_h s) hid = Some hc -> hc_conn hc = x -> w_chans (y_w s) (e_chan (hc_cp hc)) = Some ce ->
    ce_state ce = CInit -> account_address c (hc_account hc) -> way c s x
| W_late hid hc ce :
    h_chans (y_h s) hid = Some hc -> hc_conn hc = x -> w_chans (y_w s) (e_chan (hc_cp hc)) = Some ce ->
    e_chan (ce_cp ce) = hid -> ce_state ce = CClosed -> hc_state hc = HsTry -> way c s x
| W_timeout hid hc ce n p :
    h_chans (y_h s) hid = Some hc -> hc_conn hc = x -> w_chans (y_w s) (e_chan (hc_cp hc)) = Some ce ->
    e_chan (ce_cp ce) = hid -> ce_state ce = COpen -> ce_order ce = Ordered ->
    hc_state hc = HsTry \/ h_active (y_h s) x = Some hid ->
    w_commit (y_w s) (e_chan (hc_cp hc)) n = Some p -> hc_next hc <= n -> way c s x.

Lemma was_open c k s id ce : cfg_ok c -> reached c k s -> w_chans (y_w s) id = Some ce -> ce_state ce <> CInit ->
  exists w0 ce0, In w0 (y_ws s) /\ w_chans w0 id = Some ce0 /\ ce_state ce0 = COpen /\ ce_cp ce0 = ce_cp ce /\ ce_version ce0 = ce_version ce.
Proof.
  intros Hc R. revert ce. induction R as [|s1 s2 R IH S]; intros ce' E' N'; [discriminate|].
  destruct S as [a h w b Hh Hg Ha|a w h Hw Ha]; cbn [y_w y_ws] in *; [|eauto].
  pose proof (reached_inv c k s1 Hc R) as I. pose proof (si_w _ _ _ I) as V.
  pose proof (act_trans _ _ _ _ _ Hc (visited_base _ _ Hc V) Ha) as T.
  assert (Old : forall ce, w_chans (y_w s1) id = Some ce -> ce_state ce <> CInit ->
    exists w0 ce0, In w0 (w :: y_ws s1) /\ w_chans w0 id = Some ce0 /\ ce_state ce0 = COpen /\ ce_cp ce0 = ce_cp ce' /\ ce_version ce0 = ce_version ce').
  { intros ce E N. destruct (IH ce E N) as (w0 & ce0 & P1 & P2 & P3 & P4 & P5).
    destruct (chan_step _ _ _ _ _ _ T E) as (ce2 & E2 & _ & _ & S3 & _). assert (ce2 = ce') by congruence. subst ce2.
    destruct (S3 N) as (S4 & S5 & _). exists w0, ce0. split; [now right|]. repeat split; congruence. }
  destruct (ce_state ce') eqn:St; [congruence| |].
  { exists w, ce'. split; [now left|]. auto. }
  destruct (w_chans (y_w s1) id) as [ce|] eqn:E.
  2:{ exfalso. destruct T; cbn [w_chans] in E'; try congruence; try (destruct (ce_order _));
        try congruence; (match type of E' with upd _ ?i _ _ = _ => destruct (String.eqb_spec i id) as [->|Nx];
          [rewrite upd_same in E'; injection E' as <-; try discriminate St; congruence|rewrite upd_other in E' by exact Nx; congruence] end). }
  destruct (ce_state ce) eqn:Si; [|apply (Old ce eq_refl); congruence..]. exfalso.
  assert (Rec : forall s, w_store (y_w s1) = Some s -> st_channel s = Some (ChannelState (channel_of c id ce) StOpen) -> False).
  { intros st Hst Hcs. pose proof (inv_recorded _ _ (visited_inv c _ Hc V) _ Hst) as Rc. unfold inv_rec in Rc. rewrite Hcs in Rc.
    destruct Rc as (? & info & ce2 & ? & _ & _ & R1 & R2 & _ & R3 & _). cbn [cst_channel] in R3. unfold channel_of in R3. injection R3 as R3 _ _ _ _.
    rewrite <- R3 in R1. congruence. }
  destruct T; cbn [w_chans] in E'; try (assert (ce' = ce) by congruence; subst; congruence).
  all: try (match type of E' with upd _ ?i _ _ = _ => destruct (String.eqb_spec i id) as [->|Nx];
          [rewrite upd_same in E'; injection E' as <-; try discriminate St|rewrite upd_other in E' by exact Nx; congruence] end).
  - assert (ce0 = ce) by congruence. subst. eapply Rec; eassumption.
  - assert (ce0 = ce) by congruence. subst. eapply Rec; eassumption.
  - assert (Nid : id0 <> id).
    { intros ->. match goal with X : w_commit _ id _ = Some _ |- _ => destruct (held _ _ _ _ _ Hc V X) as (ce2 & K1 & K2 & _) end. congruence. }
    destruct (ce_order ce0); [rewrite upd_other in E' by exact Nid|]; congruence.
Qed.

Lemma ends_ok c k s : cfg_ok c -> reached c k s -> forall hid hc, h_chans (y_h s) hid = Some hc ->
  utf8 hid /\ utf8 (hc_version hc) /\ exists ce, w_chans (y_w s) (e_chan (hc_cp hc)) = Some ce /\
    from_json jc_metadata (hc_version hc) = Some (Metadata "ics27-1" (ce_conn ce) (hc_conn hc) (hc_account hc) Protobuf "sdk_multi_msg").
Proof.
  intros Hc R. induction R as [|s1 s2 R IH S]; intros hid hc' E'; [discriminate|].
  pose proof (reached_inv c k s1 Hc R) as I. pose proof (si_w _ _ _ I) as V.
  destruct S as [a h w b Hh Hg Ha|a w h Hw Ha]; cbn [y_w y_h] in *.
  - destruct (IH _ _ E') as (U1 & U2 & ce & E & Md). pose proof (act_trans _ _ _ _ _ Hc (visited_base _ _ Hc V) Ha) as T.
    destruct (chan_step _ _ _ _ _ _ T E) as (ce2 & E2 & _ & S2 & _). split; [exact U1|]. split; [exact U2|]. exists ce2. split; [exact E2|congruence].
  - destruct (si_ws _ _ _ I _ Hw) as (Vw & Lw).
    assert (Old : forall hc, h_chans (y_h s1) hid = Some hc -> hc_cp hc' = hc_cp hc -> hc_version hc' = hc_version hc -> hc_conn hc' = hc_conn hc ->
      hc_account hc' = hc_account hc -> utf8 hid /\ utf8 (hc_version hc') /\ exists ce, w_chans (y_w s1) (e_chan (hc_cp hc')) = Some ce /\
      from_json jc_metadata (hc_version hc') = Some (Metadata "ics27-1" (ce_conn ce) (hc_conn hc') (hc_account hc') Protobuf "sdk_multi_msg")).
    { intros hc E -> -> -> ->. exact (IH _ _ E). }
    destruct a as [t|hid0 id version|hid0|hid0|hid0 n o ack]; cbn [hact] in Ha.
    + unbind Ha. injection Ha as <-. now apply (Old hc').
    + apply obind_some in Ha as ([] & G0 & H). apply obind_some in H as (ce & Ece & H). apply obind_some in H as ([] & G1 & H).
      apply obind_some in H as ([] & G2 & H). apply obind_some in H as (md & G3 & H). apply obind_some in H as ([] & G4 & H).
      apply obind_some in H as (acc & G5 & H). apply obind_some in H as ([] & G6 & H). injection H as <-.
      apply guard_some in G0, G1. cbn [put_account put_hchan h_chans] in E'.
      destruct (String.eqb_spec hid0 hid) as [->|N]; [|rewrite upd_other in E' by exact N; now apply (Old hc')].
      rewrite upd_same in E'. injection E' as <-. apply andb_true_iff in G0 as (G0 & Uv). apply andb_true_iff in G0 as (_ & Uh).
      cbn [hc_version hc_cp e_chan hc_conn hc_account]. split; [exact Uh|]. split; [exact Uv|].
      assert (Es : ce_state ce = CInit) by (destruct (ce_state ce); congruence).
      pose proof (init_terms _ _ _ _ _ Hc Vw Ece Es G3) as Emd.
      unfold answer_version in G5. rewrite G3 in G5. cbn [obind] in G5.
      apply obind_some in G5 as (y & G7 & G5). apply obind_some in G5 as ([] & G8 & G5). injection G5 as <-.
      apply guard_some in G8. apply andb_true_iff in G8 as (G8 & G9). apply same_terms_ok in G8 as (Y1 & Y2 & Y3 & Y4 & Y5).
      destruct (later_chan _ _ _ _ _ Hc Vw Lw Ece) as (ce' & E' & _ & S2 & _). exists ce'. split; [exact E'|].
      rewrite G7. f_equal. rewrite <- S2. rewrite Emd in Y1, Y2, Y4, Y5. cbn in Y1, Y2, Y4, Y5.
      destruct y as [y1 y2 y3 y4 y5 y6]. cbn in *. congruence.
    + apply obind_some in Ha as (hc & Ehc & H). unbind H. injection H as <-. cbn [put_active put_hchan h_chans] in E'.
      destruct (String.eqb_spec hid0 hid) as [->|N]; [|rewrite upd_other in E' by exact N; now apply (Old hc')].
      rewrite upd_same in E'. injection E' as <-. now apply (Old hc).
    + apply obind_some in Ha as (hc & Ehc & H). unbind H. injection H as <-. cbn [put_active put_hchan h_chans] in E'.
      destruct (String.eqb_spec hid0 hid) as [->|N]; [|rewrite upd_other in E' by exact N; now apply (Old hc')].
      rewrite upd_same in E'. injection E' as <-. now apply (Old hc).
    + apply obind_some in Ha as (hc & Ehc & H). apply obind_some in H as ([] & G & H). apply obind_some in H as (p & _ & H).
      apply obind_some in H as ([] & _ & H). apply obind_some in H as ([] & _ & H). apply obind_some in H as ([] & G3 & H).
      apply obind_some in H as ([d ran] & _ & H). apply obind_some in H as ([] & _ & H). cbv zeta in H. injection H as <-.
      cbn [h_chans] in E'. destruct (hc_order hc); [|now apply (Old hc')].
      destruct (String.eqb_spec hid0 hid) as [->|N]; [|rewrite upd_other in E' by exact N; now apply (Old hc')].
      rewrite upd_same in E'. injection E' as <-. now apply (Old hc).
Qed.

Lemma sent_timeout c e sd m p : cfg_ok c -> forall w, visited c w -> In (LSent e sd m p) (w_log w) ->
  exists ts, p_timeout p = Timeout None (Some ts).
Proof.
  intros Hc. apply (visited_ind' c (fun w => In (LSent e sd m p) (w_log w) -> exists ts, p_timeout p = Timeout None (Some ts)));
    [exact Hc|contradiction|].
  intros w w' b V _ IH T Hi. destruct T; cbn [w_log] in Hi; try (destruct (cs_callback st); cbn [calls] in Hi);
    repeat (destruct Hi as [Hi|Hi]; [try discriminate Hi|]); try (exact (IH Hi)).
  all: injection Hi as <- <- <- <-; subst p0; cbn [p_timeout]; eauto.
Qed.

(** A timeout on an ordered channel closes it. *)
Lemma timeout_closes c w id n relayer w' b ce : cfg_ok c -> visited c w -> act c (ATimeout id n relayer) w = Some (w', b) ->
  w_chans w id = Some ce -> ce_order ce = Ordered -> exists ce', w_chans w' id = Some ce' /\ ce_state ce' = CClosed.
Proof.
  intros Hc V A E Or. assert (V' : visited c w') by (econstructor; eassumption).
  destruct (act_main c _ _ _ _ Hc V A) as (pre & ce2 & p & M1 & M2 & M3 & M4).
  destruct (held _ _ _ _ _ Hc V M2) as (ce3 & K1 & K2 & K3 & _). assert (ce3 = ce) by congruence. subst ce3.
  destruct (chan_step c _ _ _ _ _ (act_trans _ _ _ _ _ Hc (visited_base _ _ Hc V) A) E) as (ce' & E' & _ & _ & S3 & _).
  destruct (S3 K2) as (_ & _ & N'). exists ce'. split; [exact E'|].
  destruct (ce_state ce') eqn:St; [congruence| |reflexivity]. exfalso.
  apply (end_open c w' id ce' Hc V' E') in St; [|congruence]. rewrite M3, chan_open_plain in St by exact M4. cbn [chan_open] in St.
  unfold chan_ordered in St. rewrite K3 in St. cbn [e_chan] in St. rewrite String.eqb_refl, (end_opened _ _ _ _ Hc V E K2) in St.
  cbn [channel_of ch_order] in St. rewrite Or in St. discriminate.
Qed.

(** What a way out leaves alone; [t] bounds the host's clock. *)
Record kept (c : cfg) (k : hcfg) (t : N) (s s' : sys) : Prop := {
  kp_follows : follows c k s s';
  kp_owner : forall oo, owner_reported (y_w s) oo -> owner_reported (y_w s') oo;
  kp_state : forall st, state_reported (y_w s) st -> exists st', state_reported (y_w s') st' /\ cs_callback st' = cs_callback st;
  kp_seq : forall id, w_nextseq (y_w s') id = w_nextseq (y_w s) id;
  kp_unused : forall id, w_chans (y_w s) id = None -> w_chans (y_w s') id = None;
  kp_hunused : forall hid, h_chans (y_h s) hid = None -> h_chans (y_h s') hid = None;
  kp_accounts : forall x, h_accounts (y_h s') x = h_accounts (y_h s) x;
  kp_clock : h_clock (y_h s) <= t -> h_clock (y_h s') <= t
}.

Lemma kept_refl c k t s : kept c k t s s.
Proof. constructor; eauto. constructor. Qed.
Lemma kept_trans c k t s1 s2 s3 : kept c k t s1 s2 -> kept c k t s2 s3 -> kept c k t s1 s3.
Proof.
  intros [A1 A2 A3 A4 A5 A6 A7 A8] [B1 B2 B3 B4 B5 B6 B7 B8]. constructor; auto.
  - eapply follows_trans; eassumption.
  - intros st H. destruct (A3 st H) as (st' & H1 & H2). destruct (B3 st' H1) as (st2 & H3 & H4). exists st2. split; congruence.
  - intros. rewrite B4. apply A4.
  - intros. rewrite B7. apply A7.
Qed.

(** The host's clock moves on, or the host learns that a channel was opened. *)
Lemma kept_host c k t s a w h : In w (y_ws s) -> hact c k a w (y_h s) = Some h ->
  match a with HClock t' => t' <= t | HConfirm _ => True | _ => False end ->
  kept c k t s (Sys (y_w s) (y_ws s) h (h :: y_hs s)).
Proof.
  intros Hw Ha Hk. destruct a as [t'|hid id version|hid|hid|hid n o ack]; try contradiction; pose proof Ha as Hb; cbn [hact] in Ha.
  - unbind Ha. injection Ha as <-. constructor; cbn [y_w y_h h_chans h_accounts h_clock]; eauto.
    eapply follows_step; [constructor|]. eapply S_host; eassumption.
  - apply obind_some in Ha as (hc & Ehc & H). unbind H. injection H as <-.
    constructor; cbn [y_w y_h put_active put_hchan h_chans h_accounts h_clock]; eauto.
    + eapply follows_step; [constructor|]. eapply S_host; eassumption.
    + intros hid' E. rewrite upd_other; [exact E|congruence].
Qed.

(** A step of the contract's chain that a relayer causes. *)
Lemma kept_contract c k t s a h w b pre i : cfg_ok c -> reached c k s -> w_log (y_w s) <> [] ->
  In h (y_hs s) -> genuine c a (y_w s) h -> act c a (y_w s) = Some (w, b) ->
  w_log w = pre ++ i :: w_log (y_w s) -> Forall plain pre ->
  match i with LChanOpen _ | LTimeout _ _ => True | _ => False end ->
  kept c k t s (Sys w (w :: y_ws s) (y_h s) (y_hs s)).
Proof.
  intros Hc R Hl Hh Hg Ha El Fp Hi. pose proof (reached_inv c k s Hc R) as I. pose proof (si_w _ _ _ I) as V.
  assert (V' : visited c w) by (econstructor; eassumption).
  assert (P : owner_of (w_log w) = owner_of (w_log (y_w s)) /\ nominee_of (w_log w) = nominee_of (w_log (y_w s)) /\
    callback_of (w_log w) = callback_of (w_log (y_w s)) /\ (forall id, requested (w_log w) id = requested (w_log (y_w s)) id) /\
    (forall id, sends (w_log w) id = sends (w_log (y_w s)) id)).
  { rewrite El. clear - Fp Hi. induction Fp as [|j pre Hj _ IH]; cbn [app].
    - destruct i; try contradiction; repeat split; reflexivity.
    - destruct j; try contradiction; exact IH. }
  destruct P as (P1 & P2 & P3 & P4 & P5).
  assert (Hl' : w_log w <> []) by (rewrite El; destruct pre; discriminate).
  constructor; cbn [y_w y_h]; auto.
  - eapply follows_step; [constructor|]. eapply S_controller; eassumption.
  - intros oo (tx & Q1 & Q2). destruct (ask_ownership_text c _ Hc V Hl) as (Q3 & Q4). destruct (ask_ownership_text c _ Hc V' Hl') as (Q5 & Q6).
    rewrite P1, P2 in Q5, Q6. exists tx. split; [|exact Q2]. congruence.
  - intros st H. destruct (state_reported_log c _ _ Hc V H) as (_ & ->). eexists. split; [exact (reports c w Hc V' Hl')|]. cbn [cs_callback]. exact P3.
  - intro id. rewrite (il_seq _ (visited_log c _ Hc V') id), (il_seq _ (visited_log c _ Hc V) id), P5. reflexivity.
  - intros id E. apply (unused_requested c _ id Hc V'). rewrite P4. now apply (unused_requested c _ id Hc V).
Qed.

(** The account the contract reports is on the host's active channel, or that is closed. *)
Definition within_reach (s : sys) (x : string) : Prop :=
  free_on s x \/
  exists hid hc, h_active (y_h s) x = Some hid /\ h_chans (y_h s) hid = Some hc /\ current (y_w s) (e_chan (hc_cp hc)).

Lemma confirm_ok c k t s hid hc ce : cfg_ok c -> reached c k s -> h_chans (y_h s) hid = Some hc -> hc_state hc = HsTry ->
  w_chans (y_w s) (e_chan (hc_cp hc)) = Some ce -> e_chan (ce_cp ce) = hid -> ce_state ce <> CInit ->
  exists s', kept c k t s s' /\ y_w s' = y_w s /\ h_active (y_h s') (hc_conn hc) = Some hid /\
    h_chans (y_h s') hid = Some (with_state HsOpen hc).
Proof.
  intros Hc R Hh Ht E P N. pose proof (reached_inv c k s Hc R) as I. pose proof (si_w _ _ _ I) as V.
  destruct (was_open c k s _ _ Hc R E N) as (w0 & ce0 & W1 & W2 & W3 & W4 & W5).
  destruct (host_end c _ _ _ _ Hc V (si_link _ _ _ I) E N) as (hc2 & Q1 & _ & Q3 & _). rewrite P in Q1.
  assert (hc2 = hc) by congruence. subst hc2.
  set (h1 := put_active (hc_conn hc) hid (put_hchan hid (with_state HsOpen hc) (y_h s))).
  assert (A : hact c k (HConfirm hid) w0 (y_h s) = Some h1).
  { cbn [hact]. rewrite Hh. cbn [obind]. rewrite Ht. cbn [guard obind]. rewrite W2. cbn [obind]. rewrite W3. cbn [guard obind].
    rewrite W4, W5, P, Q3, !String.eqb_refl. reflexivity. }
  exists (Sys (y_w s) (y_ws s) h1 (h1 :: y_hs s)). split; [exact (kept_host c k t s _ w0 h1 W1 A Logic.I)|].
  split; [reflexivity|]. cbn [y_h h1 put_active put_hchan h_active h_chans]. split; apply upd_same.
Qed.

Lemma exit_closed c k t s x hid hc ce : cfg_ok c -> reached c k s -> h_chans (y_h s) hid = Some hc -> hc_conn hc = x ->
  w_chans (y_w s) (e_chan (hc_cp hc)) = Some ce -> e_chan (ce_cp ce) = hid -> ce_state ce = CClosed ->
  hc_state hc = HsTry \/ h_active (y_h s) x = Some hid ->
  exists s', kept c k t s s' /\ within_reach s' x.
Proof.
  intros Hc R Hh Hx E P St [Ht|Ha].
  - destruct (confirm_ok c k t s hid hc ce Hc R Hh Ht E P ltac:(congruence)) as (s' & K & Ew & A1 & A2).
    exists s'. split; [exact K|]. left. intros a hc' X Y. rewrite Hx in A1. assert (a = hid) by congruence. subst a.
    rewrite A2 in Y. injection Y as <-. exists ce. rewrite Ew. auto.
  - exists s. split; [apply kept_refl|]. left. intros a hc' X Y. assert (a = hid) by congruence. subst a.
    assert (hc' = hc) by congruence. subst hc'. eauto.
Qed.

Lemma exit_current c k t s x hid hc ce : cfg_ok c -> reached c k s -> h_chans (y_h s) hid = Some hc -> hc_conn hc = x ->
  w_chans (y_w s) (e_chan (hc_cp hc)) = Some ce -> e_chan (ce_cp ce) = hid -> ce_state ce = COpen ->
  current (y_w s) (e_chan (hc_cp hc)) -> hc_state hc = HsTry \/ h_active (y_h s) x = Some hid ->
  exists s', kept c k t s s' /\ within_reach s' x.
Proof.
  intros Hc R Hh Hx E P St Cu [Ht|Ha].
  - destruct (confirm_ok c k t s hid hc ce Hc R Hh Ht E P ltac:(congruence)) as (s' & K & Ew & A1 & A2).
    exists s'. split; [exact K|]. right. exists hid, (with_state HsOpen hc). rewrite Hx in A1. rewrite Ew. auto.
  - exists s. split; [apply kept_refl|]. right. eauto.
Qed.

(** Whichever way is left, it leads back within reach, without the owner doing
    anything and with everything else as it was. *)
Lemma exits c k t s x : cfg_ok c -> reached c k s -> w_log (y_w s) <> [] -> way c s x -> h_clock (y_h s) <= t ->
  (forall id n p ts, w_commit (y_w s) id n = Some p -> p_timeout p = Timeout None (Some ts) -> ts <= t) ->
  exists s', kept c k t s s' /\ within_reach s' x.
Proof.
  intros Hc R Hl W Hk Hts. pose proof (reached_inv c k s Hc R) as I. pose proof (si_w _ _ _ I) as V.
  destruct W as [F|hid hc ce Hh Hx E P St Cu W|hid hc ce Hh Hx E St Ac|hid hc ce Hh Hx E P St Ht|hid hc ce n p Hh Hx E P St Or W Hp Hn].
  - exists s. split; [apply kept_refl|now left].
  - eapply exit_current; eassumption.
  - destruct (lk_chan _ _ _ (si_link _ _ _ I) _ _ Hh) as (id & ce' & K1 & K2 & K3 & K4 & _).
    assert (Ei : e_chan (hc_cp hc) = id) by (now rewrite K1). rewrite Ei in E. assert (ce' = ce) by congruence. subst ce'.
    assert (Ht : hc_state hc = HsTry) by (destruct (hc_state hc) eqn:X; [reflexivity|destruct K4; congruence..]).
    destruct (ends_ok c k s Hc R _ _ Hh) as (U1 & U2 & ce' & E' & Md). rewrite Ei in E'. assert (ce' = ce) by congruence. subst ce'.
    pose proof (ic_chan _ _ (inv_chans _ _ (visited_inv c _ Hc V)) id) as C. rewrite E, St in C.
    destruct C as ((o & C1 & C2 & C3 & C4 & C5 & C6) & C7 & C8 & C9 & C10 & C11).
    destruct (act_open_ack c (y_w s) id hid (hc_version hc) o _ Hc V U1 U2 C1 C11 Md) as
      (w' & b & i & ch & A & Ech & El & _ & Cb & ce' & E1 & E2 & E3).
    { cbn. repeat split; try apply Ac. exact C3. }
    assert (Fp : Forall plain i) by (destruct Cb as (_ & Cb); destruct (callback_of (w_log (y_w s))); subst i; repeat constructor).
    assert (Hg : genuine c (AOpenAck id hid (hc_version hc)) (y_w s) (y_h s)).
    { exists ce, hc. repeat split; auto. }
    pose proof (kept_contract c k t s _ _ _ _ _ _ Hc R Hl (si_h _ _ _ I) Hg A El Fp Logic.I) as K.
    set (s1 := Sys w' (w' :: y_ws s) (y_h s) (y_hs s)) in K.
    pose proof (reached_follows _ _ _ _ R (kp_follows _ _ _ _ _ K)) as R1.
    pose proof (si_w _ _ _ (reached_inv c k s1 Hc R1)) as V1. cbn [s1 y_w] in V1.
    destruct (exit_current c k t s1 x hid hc ce' Hc R1 Hh Hx) as (s' & K' & G); cbn [s1 y_w y_h]; try rewrite Ei; auto.
    + rewrite Ech in E3. unfold channel_of in E3. injection E3 as X _ _ _. rewrite X. reflexivity.
    + apply (current_log c w' id Hc V1). exists ch. rewrite El, last_plain by exact Fp. rewrite Ech. split; reflexivity.
    + exists s'. split; [eapply kept_trans; eassumption|exact G].
  - eapply exit_closed; eauto.
  - destruct (held _ _ _ _ _ Hc V Hp) as (ce2 & _ & _ & _ & _ & _ & e & sd & m & Hs).
    destruct (sent_timeout c e sd m p Hc _ V Hs) as (ts & Ets). pose proof (Hts _ _ _ _ Hp Ets) as Lt.
    set (t1 := N.max (h_clock (y_h s)) ts).
    set (h1 := Host t1 (h_chans (y_h s)) (h_receipt (y_h s)) (h_ack (y_h s)) (h_log (y_h s)) (h_active (y_h s)) (h_accounts (y_h s))).
    assert (A1 : hact c k (HClock t1) (y_w s) (y_h s) = Some h1).
    { cbn [hact]. assert (X : (h_clock (y_h s) <=? t1) = true) by lia. rewrite X. reflexivity. }
    pose proof (kept_host c k t s _ _ h1 (si_here _ _ _ I) A1 ltac:(cbn beta iota; lia)) as K1.
    set (s1 := Sys (y_w s) (y_ws s) h1 (h1 :: y_hs s)) in K1.
    pose proof (reached_follows _ _ _ _ R (kp_follows _ _ _ _ _ K1)) as R1.
    set (id := e_chan (hc_cp hc)) in *.
    destruct (C54_timeout_accepted c (y_w s) id n "relayer" p Hc V eq_refl Hp) as (w2 & b & A2).
    destruct (act_main c _ _ _ _ Hc V A2) as (pre & ce3 & p2 & _ & Hp2 & El2 & Fp).
    assert (Hg : genuine c (ATimeout id n "relayer") (y_w s1) h1).
    { exists ce, p. split; [exact E|]. split; [exact Hp|]. rewrite Or. split.
      - exists hc. rewrite P. auto.
      - left. unfold elapsed. rewrite Ets. cbn [to_timestamp h1 h_clock]. lia. }
    pose proof (kept_contract c k t s1 _ _ _ _ _ _ Hc R1 Hl (or_introl eq_refl) Hg A2 El2 Fp Logic.I) as K2.
    set (s2 := Sys w2 (w2 :: y_ws s1) (y_h s1) (y_hs s1)) in K2.
    pose proof (reached_follows _ _ _ _ R1 (kp_follows _ _ _ _ _ K2)) as R2.
    destruct (timeout_closes c _ _ _ _ _ _ _ Hc V A2 E Or) as (ce4 & E4 & S4).
    destruct (chan_step c _ _ _ _ _ (act_trans _ _ _ _ _ Hc (visited_base _ _ Hc V) A2) E) as (ce5 & E5 & _ & _ & S5 & _).
    assert (ce5 = ce4) by congruence. subst ce5. destruct S5 as (S5 & _); [congruence|].
    destruct (exit_closed c k t s2 x hid hc ce4 Hc R2 Hh Hx E4) as (s' & K' & G); [congruence|exact S4|exact W|].
    exists s'. split; [|exact G]. eapply kept_trans; [exact K1|]. eapply kept_trans; eassumption.
Qed.

(** If a way is left, the owner can use it: relayers do what the way needs, and
    then any supported request without raw messages can be carried out by the
    host's account, over a new channel, with the result reported to the
    callback contract.  Only the size of the packet is limited, and nothing may
    still be waiting that takes longer to time out than the request itself.
    [C82_never_stuck_partial] is the case in which the first or the second way
    is left already. *)
Theorem C85_regained : forall c k s st oo owner o id hid account h tm raw ms qs memo t legacy resps answers,
  cfg_ok c -> hcfg_ok k -> reached c k s ->
  state_reported (y_w s) st -> owner_reported (y_w s) oo -> ow_owner oo = Some owner ->
  utf8_options o -> unwrap_or (oo_cp_port o) "icahost" = "icahost" -> slen (open_init_bytes (c_self c) o) < u32_lim ->
  peer k (oo_connection o) = Some (oo_cp_connection o) ->
  way c s (oo_cp_connection o) ->
  (forall id, w_nextseq (y_w s) id < u64_lim) ->
  (forall id n p ts, w_commit (y_w s) id n = Some p -> p_timeout p = Timeout None (Some ts) -> ts < tm + unwrap_or t 600 * 10 ^ 9) ->
  account_on s (oo_cp_connection o) account ->
  w_chans (y_w s) id = None -> utf8 id -> slen id <= 64 ->
  h_chans (y_h s) hid = None -> utf8 hid -> account_address c account ->
  h < u64_lim -> tm < u64_lim -> from_json jc_execute_msg raw = Some (XSendCosmosMsgs ms qs memo t) ->
  Forall supported ms -> Forall (fun m => match m with MStargate _ _ => False | _ => True end) ms -> Forall qsupported qs ->
  tm + unwrap_or t 600 * 10 ^ 9 < u64_lim -> h_clock (y_h s) < tm + unwrap_or t 600 * 10 ^ 9 ->
  length resps = length ms ->
  match qs, answers with
  | [], None => True
  | _ :: _, Some (h, bs) => length bs = length qs /\ h < u64_lim
  | _, _ => False
  end ->
  sizes_fit legacy resps answers = true ->
  exists s1 st1 st2 r data, follows c k s s1 /\
    state_reported (y_w s1) (ContractState (Some (IcaInfo account id Protobuf)) (cs_callback st)) /\
    w_store (y_w s1) = Some st1 /\
    execute (c_api c) st1 (Env h tm (c_self c)) owner (XSendCosmosMsgs ms qs memo t) = Ok (st2, r) /\ sends_data r data /\
    (slen data < u32_lim -> exists s' p anys, follows c k s1 s' /\
       In (LSent (Env h tm (c_self c)) owner (XSendCosmosMsgs ms qs memo t) p) (w_log (y_w s')) /\
       In (Ran hid p account anys (result_bytes legacy resps answers) answers) (h_log (y_h s')) /\
       packet_spec account ms qs anys /\
       forall addr, cs_callback st = Some addr -> exists msg relayer qr, In (LCall addr msg) (w_log (y_w s')) /\
         from_json jc_receiver msg = Some (CbAck (AckResult (result_bytes legacy resps answers)) p relayer qr) /\
         match answers with
         | Some (h, bs) => exists r, qr = Some r /\ result_spec qs h bs r
         | None => True
         end).
Proof.
  intros c k s st oo owner o id hid account h tm raw ms qs memo t legacy resps answers Hc Hk R Rs Ro Hown Uo Po Zo Px Hw Hsq Hts Bx Hid Uid Zid
    Hhid Uhid Ha Hh Htm Hm Sm Ns Sq Hto Hclk Hl Hans Sz.
  set (lim := tm + unwrap_or t 600 * 10 ^ 9) in *.
  pose proof (si_w _ _ _ (reached_inv c k s Hc R)) as V. destruct (state_reported_log _ _ _ Hc V Rs) as (Hne & _).
  destruct (exits c k (lim - 1) s _ Hc R Hne Hw) as (s0 & K & G); [lia| |].
  { intros id0 n p ts X Y. pose proof (Hts _ _ _ _ X Y). lia. }
  destruct (kp_state _ _ _ _ _ K _ Rs) as (st0 & Rs0 & Ecb). pose proof (kp_owner _ _ _ _ _ K _ Ro) as Ro0.
  pose proof (reached_follows _ _ _ _ R (kp_follows _ _ _ _ _ K)) as R0. pose proof (kp_clock _ _ _ _ _ K ltac:(lia)) as Ck.
  destruct (C82_never_stuck_partial c k s0 st0 oo owner o id hid account h tm raw ms qs memo t legacy resps answers Hc Hk R0 Rs0 Ro0 Hown Uo Po Zo Px)
    as (s1 & st1 & st2 & r & data & F1 & Q); try assumption.
  - intros a hc X Y. destruct G as [G|(hid' & hc' & G1 & G2 & (st' & info & G3 & G4 & G5))]; [left; exact (G _ _ X Y)|right].
    assert (a = hid') by congruence. subst a. assert (hc' = hc) by congruence. subst hc'.
    pose proof (si_w _ _ _ (reached_inv c k s0 Hc R0)) as V0.
    destruct (state_reported_log _ _ _ Hc V0 G3) as (_ & E1). destruct (state_reported_log _ _ _ Hc V0 Rs0) as (_ & E2).
    exists info. split; [congruence|]. split; [exact G5|]. rewrite (kp_seq _ _ _ _ _ K). apply Hsq.
  - intros a X. apply Bx. rewrite <- (kp_accounts _ _ _ _ _ K). exact X.
  - exact (kp_unused _ _ _ _ _ K _ Hid).
  - exact (kp_hunused _ _ _ _ _ K _ Hhid).
  - fold lim. lia.
  - exists s1, st1, st2, r, data. rewrite Ecb in Q. split; [exact (follows_trans _ _ _ _ _ (kp_follows _ _ _ _ _ K) F1)|exact Q].
Qed.

(** The two descriptions fit together: with an account the contract accepts,
    and with the channel of the account it reports not open beside another
    active one, an account is out of reach exactly where no way is left. *)
Theorem C85_either : forall c k s x, cfg_ok c -> reached c k s ->
  (forall account, h_accounts (y_h s) x = Some account -> account_address c account) ->
  (forall hid hc ce, h_chans (y_h s) hid = Some hc -> hc_conn hc = x -> w_chans (y_w s) (e_chan (hc_cp hc)) = Some ce ->
     ce_state ce = COpen -> current (y_w s) (e_chan (hc_cp hc)) -> hc_state hc = HsTry \/ h_active (y_h s) x = Some hid) ->
  (forsaken s x <-> ~ way c s x).
Proof.
  intros c k s x Hc R Hacc Hcur. pose proof (reached_inv c k s Hc R) as I. pose proof (si_w _ _ _ I) as V.
  destruct (reached_terms c k s Hc R) as [Tc Ta]. split.
  - intros [(a & hca & cea & F1 & F2 & F3 & F4) F5] W.
    destruct W as [F|hid hc ce Hh Hx E P St Cu W|hid hc ce Hh Hx E St Ac|hid hc ce Hh Hx E P St Ht|hid hc ce n p Hh Hx E P St Or W Hp Hn].
    + destruct (F _ _ F1 F2) as (ce & E1 & E2). congruence.
    + destruct (F5 _ _ _ Hh Hx E) as (_ & G). destruct (G P) as (_ & G1). exact (proj1 (G1 St) Cu).
    + destruct (F5 _ _ _ Hh Hx E) as (G & _). contradiction.
    + destruct (F5 _ _ _ Hh Hx E) as (_ & G). destruct (G P) as (G1 & _). exact (G1 Ht St).
    + destruct (F5 _ _ _ Hh Hx E) as (_ & G). destruct (G P) as (_ & G1). pose proof (proj2 (G1 St) W Or n p Hp). lia.
  - intro W. constructor.
    + destruct (h_active (y_h s) x) as [a|] eqn:Ea.
      2:{ elim W. apply W_free. intros a hc X. congruence. }
      destruct (Ta _ _ Ea) as (hc & A1 & A2 & A3). destruct (lk_chan _ _ _ (si_link _ _ _ I) _ _ A1) as (id & ce & K1 & K2 & _).
      exists a, hc, ce. rewrite K1. cbn [e_chan]. repeat (split; [auto|]). intro St. apply W, W_free. intros a' hc' X Y.
      assert (a' = a) by congruence. subst a'. assert (hc' = hc) by congruence. subst hc'. exists ce. rewrite K1. auto.
    + intros hid hc ce Hh Hx E. split.
      { intro St. apply W. eapply W_handshake; try eassumption. apply Hacc. rewrite <- Hx. exact (proj2 (Tc _ _ Hh)). }
      intro P. split; [intros Ht St; apply W; eapply W_late; eassumption|]. intro St. split.
      * intro Cu. apply W. eapply W_current; try eassumption. eapply Hcur; eassumption.
      * intros Wt Or n p Hp. destruct (N.lt_ge_cases n (hc_next hc)) as [|G]; [assumption|]. exfalso. apply W. eapply W_timeout; eassumption.
Qed.

(** The account of [C82_never_stuck_refuted], and the same two handshakes with a
    packet waiting on the first channel, which is then the way back. *)
Definition waiting0 : list (action + haction) :=
  [on_contract (inst (Some Ordered) (Some "cb"));
   on_contract (exec "owner" (XCreateChannel None) "channel-1");
   inr (HTryOpen "channel-7" "channel-0" (host_version "cosmos1acc"));
   inr (HTryOpen "channel-8" "channel-1" (host_version "cosmos1acc"));
   on_contract (open_ack "channel-0" "channel-7" "cosmos1acc");
   on_contract (exec "owner" (send0 [bank0] [query0]) "");
   on_contract (open_ack "channel-1" "channel-8" "cosmos1acc");
   inr (HConfirm "channel-8");
   inr (HConfirm "channel-7");
   on_contract (exec "owner" XCloseChannel "");
   inr (HCloseConfirm "channel-8")].

Lemma not_current c w st info id : cfg_ok c -> visited c w -> state_reported w st -> cs_ica st = Some info -> ii_channel info <> id -> ~ current w id.
Proof.
  intros Hc V R E N (st' & info' & R' & E' & N'). destruct (state_reported_log _ _ _ Hc V R) as (_ & ->).
  destruct (state_reported_log _ _ _ Hc V R') as (_ & ->). cbn [cs_ica] in *. congruence.
Qed.

Lemma lost0_forsaken : forsaken lost0 "connection-1".
Proof.
  constructor.
  - eexists "channel-7", _, _. split; [vm_compute; reflexivity|]. split; [vm_compute; reflexivity|].
    split; [vm_compute; reflexivity|discriminate].
  - intros hid hc ce Hh _ E.
    destruct (String.eqb_spec hid "channel-7") as [->|N7]; [|destruct (String.eqb_spec hid "channel-8") as [->|N8]].
    + assert (X : h_chans (y_h lost0) "channel-7" = Some (HChan HsOpen Ordered (Endpoint (port cfg0) "channel-0") (host_version "cosmos1acc") "cosmos1acc" 1 "connection-1")) by (vm_compute; reflexivity).
      rewrite X in Hh. injection Hh as <-. cbn [hc_cp e_chan] in E |- *.
      assert (Y : option_map ce_state (w_chans (y_w lost0) "channel-0") = Some COpen) by (vm_compute; reflexivity).
      rewrite E in Y. injection Y as Y. rewrite Y. split; [discriminate|]. intros _. split; [discriminate|]. intros _. split.
      * eapply (not_current cfg0); [exact cfg0_ok|exact (si_w _ _ _ (reached_inv cfg0 k0 _ cfg0_ok lost0_reached))|apply state_reported_by; vm_compute; reflexivity| vm_compute; reflexivity| vm_compute; discriminate].
      * intros _ _ n p Hp. exfalso.
        destruct (held _ _ _ _ _ cfg0_ok (si_w _ _ _ (reached_inv cfg0 k0 _ cfg0_ok lost0_reached)) Hp) as (ce' & _ & _ & S & _ & _ & e & sd & m & Hs).
        apply lost0_sent in Hs. rewrite S in Hs. discriminate.
    + assert (X : option_map hc_cp (h_chans (y_h lost0) "channel-8") = Some (Endpoint (port cfg0) "channel-1") /\
        option_map hc_state (h_chans (y_h lost0) "channel-8") = Some HsClosed) by (split; vm_compute; reflexivity).
      rewrite Hh in X. destruct X as (X & X'). injection X as X. injection X' as X'. rewrite X in E |- *. cbn [e_chan] in E |- *.
      assert (Y : option_map ce_state (w_chans (y_w lost0) "channel-1") = Some CClosed) by (vm_compute; reflexivity).
      rewrite E in Y. injection Y as Y. rewrite Y, X'. split; [discriminate|]. intros _. split; discriminate.
    + exfalso. assert (X : h_chans (y_h lost0) hid = None); [|congruence]. unfold lost0.
      apply srun_chans; [|reflexivity]. intros id v Hi. unfold two0, on_contract in Hi.
      repeat (destruct Hi as [Hi|Hi]; [try discriminate Hi; injection Hi; intros; subst; congruence|]). exact Hi.
Qed.
Example C85_lost_case : exists x, reached cfg0 k0 lost0 /\ forsaken lost0 x /\
  (exists hid p account anys res answers, In (Ran hid p account anys res answers) (h_log (y_h lost0))).
Proof.
  exists "connection-1". split; [exact lost0_reached|]. split; [exact lost0_forsaken|].
  eexists _, _, _, _, _, _. vm_compute. left. reflexivity.
Qed.

Example C85_regained_case : exists s st, reached cfg0 k0 s /\ state_reported (y_w s) st /\
  owner_reported (y_w s) (Ownership (Some "owner") None None) /\
  way cfg0 s "connection-1" /\ ~ free_on s "connection-1" /\
  (forall id, w_nextseq (y_w s) id < u64_lim) /\
  (forall a hc, h_active (y_h s) "connection-1" = Some a -> h_chans (y_h s) a = Some hc -> ~ current (y_w s) (e_chan (hc_cp hc))).
Proof.
  set (s := sys0 waiting0). assert (R : reached cfg0 k0 s) by apply sys0_reached.
  exists s, (ContractState (Some (IcaInfo "cosmos1acc" "channel-1" Protobuf)) (Some "cb")). split; [exact R|].
  assert (Rs : state_reported (y_w s) (ContractState (Some (IcaInfo "cosmos1acc" "channel-1" Protobuf)) (Some "cb")))
    by (apply state_reported_by; vm_compute; reflexivity).
  split; [exact Rs|]. split; [apply owner_reported_by; vm_compute; reflexivity|].
  assert (X : h_chans (y_h s) "channel-7" = Some (HChan HsOpen Ordered (Endpoint (port cfg0) "channel-0") (host_version "cosmos1acc") "cosmos1acc" 1 "connection-1")) by (vm_compute; reflexivity).
  assert (A : h_active (y_h s) "connection-1" = Some "channel-7") by (vm_compute; reflexivity).
  split.
  { eapply (W_timeout _ _ _ "channel-7" _ _ 1); [exact X|reflexivity| vm_compute; reflexivity|reflexivity|reflexivity|reflexivity|right; exact A|
      vm_compute; reflexivity|cbn [hc_next]; lia]. }
  split.
  { intro F. destruct (F _ _ A X) as (ce & E & St). cbn [hc_cp e_chan] in E.
    assert (Y : option_map ce_state (w_chans (y_w s) "channel-0") = Some COpen) by (vm_compute; reflexivity). rewrite E in Y. injection Y as Y. congruence. }
  split.
  { pose proof (visited_log cfg0 _ cfg0_ok (si_w _ _ _ (reached_inv cfg0 k0 _ cfg0_ok R))) as Lg.
    intro id. rewrite (il_seq _ Lg id). assert (Sl : forall l, sends l id <= N.of_nat (List.length l)).
    { induction l as [|i l IH]; [cbn; lia|]. cbn [List.length]. destruct i; cbn [sends]; try lia. destruct (String.eqb _ _); lia. }
    specialize (Sl (w_log (y_w s))). assert (Le : List.length (w_log (y_w s)) = 12%nat) by (vm_compute; reflexivity).
    rewrite Le in Sl. unfold u64_lim. lia. }
  intros a hc E1 E2. assert (a = "channel-7") by congruence. subst a. rewrite X in E2. injection E2 as <-. cbn [hc_cp e_chan].
  eapply (not_current cfg0); [exact cfg0_ok|exact (si_w _ _ _ (reached_inv cfg0 k0 _ cfg0_ok R))|exact Rs|reflexivity|discriminate].
Qed.

Print Assumptions C85_lost.
Print Assumptions C85_lost_runs.
Print Assumptions C85_regained.
Print Assumptions C85_either.
