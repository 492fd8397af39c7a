(** * HostInv: invariants of the two chains. *)

From Verif Require Import Base Utf8 Proto Json JsonCodec Types JsonTypes Store Contract HostSpec AnswerSpec Chain ChainSpec
  JsonSound HostFacts PacketFacts Trans Inv HistorySpec History HistFacts PropChannel PropPacket PropFlow Host.
From Coq Require Import ZifyBool ZifyN.
Local Open Scope string_scope.
Local Open Scope list_scope.
Local Open Scope N_scope.

(** ** Channel ends of the controller chain *)

Definition same_end (x y : chan_end) : Prop :=
  ce_order x = ce_order y /\ ce_conn x = ce_conn y /\
  (ce_state x <> CInit -> ce_cp x = ce_cp y /\ ce_version x = ce_version y /\ ce_state y <> CInit) /\
  (ce_state x = CClosed -> ce_state y = CClosed).

Lemma same_end_refl x : same_end x x.
Proof. repeat split; auto. Qed.
Lemma same_end_trans x y z : same_end x y -> same_end y z -> same_end x z.
Proof.
  intros (A1 & A2 & A3 & A4) (B1 & B2 & B3 & B4). split; [congruence|]. split; [congruence|]. split.
  - intro H. destruct (A3 H) as (? & ? & H'). destruct (B3 H') as (? & ? & ?). repeat split; congruence.
  - auto.
Qed.
Lemma same_end_closed x : same_end x (closed_end x).
Proof. repeat split; try discriminate; auto. Qed.

Lemma chan_step c w w' b id ce : trans c w w' b -> w_chans w id = Some ce ->
  exists ce', w_chans w' id = Some ce' /\ same_end ce ce'.
Proof.
  intros T E. destruct T; cbn [w_chans];
    try (exists ce; split; [exact E|apply same_end_refl]).
  all: try (match goal with H : fresh_id _ ?i |- _ =>
    assert (i <> id) by (intros ->; destruct H as (H & _); congruence);
    exists ce; rewrite upd_other by assumption; split; [exact E|apply same_end_refl] end).
  all: try (match goal with |- context [upd _ ?i _ _] =>
    destruct (String.eqb_spec i id) as [->|N];
      [rewrite upd_same; eexists; split; [reflexivity|]|
       exists ce; rewrite upd_other by assumption; split; [exact E|apply same_end_refl]] end).
  - assert (ce0 = ce) by congruence. subst. apply same_end_closed.
  - assert (ce0 = ce) by congruence. subst ce0. subst ce'. repeat split; try congruence.
  - assert (ce0 = ce) by congruence. subst. apply same_end_closed.
  - destruct (ce_order ce0); [|exists ce; split; [exact E|apply same_end_refl]].
    destruct (String.eqb_spec id0 id) as [->|N].
    + rewrite upd_same. eexists. split; [reflexivity|]. assert (ce0 = ce) by congruence. subst. apply same_end_closed.
    + exists ce. rewrite upd_other by assumption. split; [exact E|apply same_end_refl].
Qed.

Lemma later_chan c w w' id ce : cfg_ok c -> visited c w -> later c w w' -> w_chans w id = Some ce ->
  exists ce', w_chans w' id = Some ce' /\ same_end ce ce'.
Proof.
  intros Hc V L. revert ce. induction L as [|w1 a w2 b L IH H]; intros ce E.
  - exists ce. split; [exact E|apply same_end_refl].
  - destruct (IH _ E) as (ce1 & E1 & S1). pose proof (later_visited _ _ _ V L) as V1.
    destruct (chan_step c w1 w2 b id ce1) as (ce2 & E2 & S2);
      [eapply act_trans; [exact Hc|eapply visited_base; eassumption|exact H]|exact E1|].
    exists ce2. split; [exact E2|]. eapply same_end_trans; eassumption.
Qed.

(** A packet held by the chain. *)
Lemma held c w id n p : cfg_ok c -> visited c w -> w_commit w id n = Some p ->
  exists ce, w_chans w id = Some ce /\ ce_state ce <> CInit /\ p_src p = Endpoint (port c) id /\
    p_dest p = ce_cp ce /\ p_seq p = n /\ exists e sd m, In (LSent e sd m p) (w_log w).
Proof.
  intros Hc V H. pose proof (visited_inv _ _ Hc V) as I.
  rewrite (ip_commit _ (inv_pkts _ _ I)) in H.
  destruct (ic_pkt _ _ (inv_chans _ _ I) _ _ _ H) as (ce & H1 & H2 & H3 & H4).
  destruct (unresolved_at _ _ _ _ H) as [_ H5]. destruct (unresolved_in _ _ _ _ H) as (e & sd & m & H6).
  exists ce. repeat split; eauto.
Qed.

Lemma end_port c w id ce : cfg_ok c -> visited c w -> w_chans w id = Some ce -> e_port (ce_cp ce) = "icahost".
Proof.
  intros Hc V H. pose proof (ic_chan _ _ (inv_chans _ _ (visited_inv _ _ Hc V)) id) as I. rewrite H in I.
  destruct I as ((o & _ & _ & _ & I & _) & _). exact I.
Qed.

(** ** The host alone *)

(** Sequences received on a channel, newest first. *)
Fixpoint received (hid : string) (l : list hitem) : list N :=
  match l with
  | [] => []
  | i :: r => if String.eqb (item_hid i) hid then p_seq (item_pkt i) :: received hid r else received hid r
  end.
Fixpoint down (k : nat) : list N := match k with O => [] | S k => N.of_nat (S k) :: down k end.

Lemma received_in hid l i : In i l -> item_hid i = hid -> In (p_seq (item_pkt i)) (received hid l).
Proof.
  induction l as [|j l IH]; [contradiction|]. intros [->|H] E; cbn [received].
  - rewrite E, String.eqb_refl. now left.
  - destruct (String.eqb _ _); [right|]; auto.
Qed.
Lemma in_received hid l n : In n (received hid l) -> exists i, In i l /\ item_hid i = hid /\ p_seq (item_pkt i) = n.
Proof.
  induction l as [|j l IH]; [contradiction|]. cbn [received]. destruct (String.eqb_spec (item_hid j) hid).
  - intros [<-|H]; [exists j; cbn; auto|]. destruct (IH H) as (i & ? & ?). exists i. cbn. auto.
  - intro H. destruct (IH H) as (i & ? & ?). exists i. cbn. auto.
Qed.
Lemma received_none hid l : (forall i, In i l -> item_hid i <> hid) -> received hid l = [].
Proof.
  induction l as [|j l IH]; [reflexivity|]. intro H. cbn [received].
  destruct (String.eqb_spec (item_hid j) hid) as [E|]; [exfalso; apply (H j); [now left|exact E]|].
  apply IH. intros i Hi. apply H. now right.
Qed.
Lemma in_down k n : In n (down k) <-> 1 <= n <= N.of_nat k.
Proof.
  induction k as [|k IH]; cbn [down In]; [lia|]. rewrite IH. lia.
Qed.

Definition ran_ok (k : hcfg) (i : hitem) : Prop :=
  match i with
  | Ran _ p account anys res answers =>
      (exists memo, host_packet (p_data p) = Some (anys, memo)) /\
      Forall (fun x => signed_by k account x = true) anys /\
      answers_fit anys answers = true /\
      exists legacy resps, res = result_bytes legacy resps answers /\ sizes_fit legacy resps answers = true /\
        List.length anys = (List.length resps + if answers then 1 else 0)%nat
  | Failed _ _ _ => True
  end.

Record host_inv (c : cfg) (k : hcfg) (h : host) : Prop := {
  hi_item : forall i, In i (h_log h) ->
    exists hc ack, h_chans h (item_hid i) = Some hc /\ hc_state hc <> HsTry /\
      e_chan (p_dest (item_pkt i)) = item_hid i /\ p_src (item_pkt i) = hc_cp hc /\
      h_ack h (item_hid i) (p_seq (item_pkt i)) = Some ack /\
      from_json jc_ack ack = Some (item_ack i) /\ ran_ok k i /\
      match i with Ran _ _ account _ _ _ => account = hc_account hc | _ => True end;
  hi_ack : forall hid n ack, h_ack h hid n = Some ack -> In n (received hid (h_log h));
  hi_next : forall hid hc, h_chans h hid = Some hc -> 1 <= hc_next hc;
  hi_ordered : forall hid hc, h_chans h hid = Some hc -> hc_order hc = Ordered ->
    received hid (h_log h) = down (N.to_nat (hc_next hc) - 1);
  hi_receipt : forall hid hc, h_chans h hid = Some hc -> hc_order hc = Unordered ->
    forall n, h_receipt h hid n = true <-> In n (received hid (h_log h));
  hi_nodup : forall hid, NoDup (received hid (h_log h));
  hi_chan : forall hid hc, h_chans h hid = Some hc ->
    exists id md, hc_cp hc = Endpoint (port c) id /\ from_json jc_metadata (hc_version hc) = Some md /\
      md_address md = hc_account hc;
  hi_none : forall hid, h_chans h hid = None -> forall n, h_receipt h hid n = false
}.

(** What may change on the host. *)
Definition same_hchan (x y : hchan) : Prop :=
  hc_order x = hc_order y /\ hc_cp x = hc_cp y /\ hc_version x = hc_version y /\ hc_account x = hc_account y /\
  hc_next x <= hc_next y /\ (hc_state x <> HsTry -> hc_state y <> HsTry) /\
  (hc_state x = HsClosed -> hc_state y = HsClosed).
Lemma same_hchan_refl x : same_hchan x x.
Proof. repeat split; auto. lia. Qed.
Lemma same_hchan_trans x y z : same_hchan x y -> same_hchan y z -> same_hchan x z.
Proof.
  intros (A1 & A2 & A3 & A4 & A5 & A6 & A7) (B1 & B2 & B3 & B4 & B5 & B6 & B7).
  repeat split; try congruence; auto. lia.
Qed.

Record hlater (h h' : host) : Prop := {
  hl_clock : h_clock h <= h_clock h';
  hl_chan : forall hid hc, h_chans h hid = Some hc -> exists hc', h_chans h' hid = Some hc' /\ same_hchan hc hc';
  hl_ack : forall hid n ack, h_ack h hid n = Some ack -> h_ack h' hid n = Some ack;
  hl_log : exists new, h_log h' = new ++ h_log h /\
    Forall (fun i => elapsed (p_timeout (item_pkt i)) (h_clock h) = false /\
                     forall hc, h_chans h (item_hid i) = Some hc -> hc_state hc <> HsClosed) new
}.

Lemma elapsed_mono t a b : a <= b -> elapsed t b = false -> elapsed t a = false.
Proof. unfold elapsed. destruct (to_timestamp t); [lia|auto]. Qed.

Lemma hlater_refl h : hlater h h.
Proof.
  constructor; auto; [lia| |exists []; auto]. intros hid hc E. exists hc. split; [exact E|apply same_hchan_refl].
Qed.
Lemma hlater_trans x y z : hlater x y -> hlater y z -> hlater x z.
Proof.
  intros [A1 A2 A3 (n1 & E1 & F1)] [B1 B2 B3 (n2 & E2 & F2)]. constructor; auto; [lia| |].
  - intros hid hc E. destruct (A2 _ _ E) as (hc1 & E' & S1). destruct (B2 _ _ E') as (hc2 & E'' & S2).
    exists hc2. split; [exact E''|]. eapply same_hchan_trans; eassumption.
  - exists (n2 ++ n1). rewrite E2, E1, app_assoc. split; [reflexivity|]. apply Forall_app. split; [|exact F1].
    eapply Forall_impl; [|exact F2]. cbn beta. intros i (T1 & T2). split; [eapply elapsed_mono; eassumption|].
    intros hc E Hx. destruct (A2 _ _ E) as (hc1 & E' & S1). apply (T2 _ E'). now apply S1.
Qed.

Lemma obind_none {A B} (x : option A) (f : A -> option B) y : obind x f = Some y -> exists a, x = Some a /\ f a = Some y.
Proof. destruct x; [eauto|discriminate]. Qed.

Lemma says_ok ack d : says ack d = true -> from_json jc_ack ack = Some d.
Proof.
  unfold says. destruct (from_json jc_ack ack) as [[x|x]|]; destruct d as [y|y]; try discriminate;
    intro H; apply String.eqb_eq in H; now subst.
Qed.

(** The item a delivered packet adds. *)
Lemma deliver_ok k hid p account o d ran : deliver k account (p_data p) o = Some (d, ran) ->
  let i := match o, ran with
           | Runs legacy resps answers, Some anys => Ran hid p account anys (result_bytes legacy resps answers) answers
           | Fails err, _ => Failed hid p err
           | _, _ => Failed hid p ""
           end in
  item_hid i = hid /\ item_pkt i = p /\ item_ack i = d /\ ran_ok k i /\
  match i with Ran _ _ a _ _ _ => a = account | _ => True end.
Proof.
  intros H. destruct o as [legacy resps answers|err]; cbn [deliver] in H.
  - apply obind_some in H as ([anys memo] & H1 & H).
    apply obind_some in H as ([] & H2 & H). apply obind_some in H as ([] & H3 & H).
    apply obind_some in H as ([] & H4 & H). apply obind_some in H as ([] & H5 & H). injection H as <- <-.
    apply guard_some in H2, H3, H4, H5. cbn. repeat split; eauto.
    + apply Forall_forall. now apply forallb_forall.
    + exists legacy, resps. repeat split; [exact H5|]. now apply Nat.eqb_eq in H4.
  - injection H as <- <-. cbn. auto.
Qed.

Ltac unbind H := repeat match type of H with
  | obind _ _ = Some _ => apply obind_some in H; let x := fresh "x" in let G := fresh "G" in destruct H as [x [G H]];
      try (apply guard_some in G; clear x)
  | (let '(_, _) := ?p in _) = Some _ => destruct p
  | match ?p with (_, _) => _ end = Some _ => is_var p; destruct p
  end.

Lemma hact_next c k a w h h' : cfg_ok c -> visited c w -> host_inv c k h -> hact c k a w h = Some h' ->
  host_inv c k h' /\ hlater h h'.
Proof.
  intros Hc V I H. destruct a as [t|hid id version|hid|hid|hid n o ack]; cbn [hact] in H.
  - unbind H. injection H as <-. split.
    + destruct I. constructor; assumption.
    + constructor; cbn [h_clock h_chans h_ack h_log]; auto; [lia| |exists []; auto].
      intros hid hc E. exists hc. split; [exact E|apply same_hchan_refl].
  - unbind H. injection H as <-.
    assert (Hn : h_chans h hid = None). { destruct (h_chans h hid); [discriminate|reflexivity]. }
    assert (Hr : forall i, In i (h_log h) -> item_hid i <> hid).
    { intros i Hi E. destruct (hi_item _ _ _ I i Hi) as (hc & ? & E' & _). congruence. }
    unfold answer_version in G5. unbind G5. injection G5 as <-. destruct I as [I1 I2 I3 I4 I5 I6 I7 I8]. split.
    + constructor; cbn [put_hchan put_active put_account h_clock h_chans h_ack h_log h_receipt]; auto.
      * intros i Hi. destruct (I1 i Hi) as (hc & y & E & R). exists hc, y.
        rewrite upd_other by (intro Z; symmetry in Z; now apply Hr in Z). auto.
      * intros hid' hc. destruct (String.eqb_spec hid hid') as [->|N].
        -- rewrite upd_same. intro E. injection E as <-. cbn. lia.
        -- rewrite upd_other by exact N. eauto.
      * intros hid' hc. destruct (String.eqb_spec hid hid') as [<-|N].
        -- rewrite upd_same. intros E _. injection E as <-. cbn. now apply received_none.
        -- rewrite upd_other by exact N. eauto.
      * intros hid' hc. destruct (String.eqb_spec hid hid') as [<-|N].
        -- rewrite upd_same. intros _ _ n. rewrite (I8 hid Hn n). rewrite received_none by exact Hr. split; [discriminate|contradiction].
        -- rewrite upd_other by exact N. eauto.
      * intros hid' hc. destruct (String.eqb_spec hid hid') as [<-|N].
        -- rewrite upd_same. intro E. injection E as <-. cbn. eauto.
        -- rewrite upd_other by exact N. eauto.
      * intros hid' E. apply I8. destruct (String.eqb_spec hid hid') as [<-|N]; [exact Hn|].
        now rewrite upd_other in E by exact N.
    + constructor; cbn [put_hchan put_active put_account h_clock h_chans h_ack h_log]; auto; [lia| |exists []; auto].
      intros hid' hc E. exists hc. split; [|apply same_hchan_refl]. rewrite upd_other; [exact E|congruence].
  - unbind H. injection H as <-. destruct (hc_state x) eqn:Es; try discriminate G0. rename x into hc, G into Ehc.
    assert (Sm : same_hchan hc (with_state HsOpen hc)).
    { repeat split; try discriminate; cbn; [lia|congruence]. }
    destruct I as [I1 I2 I3 I4 I5 I6 I7 I8]. split.
    + constructor; cbn [put_hchan put_active put_account h_clock h_chans h_ack h_log h_receipt]; auto.
      * intros i Hi. destruct (I1 i Hi) as (hc' & y & E & R1 & R). destruct (String.eqb_spec hid (item_hid i)) as [->|N].
        -- exfalso. congruence.
        -- exists hc', y. rewrite upd_other by exact N. auto.
      * intros hid' hc'. destruct (String.eqb_spec hid hid') as [<-|N];
          [rewrite upd_same; intro E; injection E as <-; exact (I3 _ _ Ehc)|rewrite upd_other by exact N; eauto].
      * intros hid' hc'. destruct (String.eqb_spec hid hid') as [<-|N];
          [rewrite upd_same; intro E; injection E as <-; exact (I4 _ _ Ehc)|rewrite upd_other by exact N; eauto].
      * intros hid' hc'. destruct (String.eqb_spec hid hid') as [<-|N];
          [rewrite upd_same; intro E; injection E as <-; exact (I5 _ _ Ehc)|rewrite upd_other by exact N; eauto].
      * intros hid' hc'. destruct (String.eqb_spec hid hid') as [<-|N];
          [rewrite upd_same; intro E; injection E as <-; exact (I7 _ _ Ehc)|rewrite upd_other by exact N; eauto].
      * intros hid' E. apply I8. destruct (String.eqb_spec hid hid') as [<-|N]; [now rewrite upd_same in E|].
        now rewrite upd_other in E by exact N.
    + constructor; cbn [put_hchan put_active put_account h_clock h_chans h_ack h_log]; auto; [lia| |exists []; auto].
      intros hid' hc' E. destruct (String.eqb_spec hid hid') as [<-|N].
      * rewrite upd_same. eexists. split; [reflexivity|]. assert (hc' = hc) by congruence. subst. exact Sm.
      * exists hc'. rewrite upd_other by exact N. split; [exact E|apply same_hchan_refl].
  - unbind H. injection H as <-. rename x into hc, G into Ehc.
    assert (Sm : same_hchan hc (with_state HsClosed hc)).
    { repeat split; try discriminate; cbn; lia. }
    destruct I as [I1 I2 I3 I4 I5 I6 I7 I8]. split.
    + constructor; cbn [put_hchan put_active put_account h_clock h_chans h_ack h_log h_receipt]; auto.
      * intros i Hi. destruct (I1 i Hi) as (hc' & y & E & R1 & R). destruct (String.eqb_spec hid (item_hid i)) as [->|N].
        -- assert (hc' = hc) by congruence. subst. exists (with_state HsClosed hc), y. rewrite upd_same. split; [reflexivity|].
           split; [discriminate|]. exact R.
        -- exists hc', y. rewrite upd_other by exact N. auto.
      * intros hid' hc'. destruct (String.eqb_spec hid hid') as [<-|N];
          [rewrite upd_same; intro E; injection E as <-; exact (I3 _ _ Ehc)|rewrite upd_other by exact N; eauto].
      * intros hid' hc'. destruct (String.eqb_spec hid hid') as [<-|N];
          [rewrite upd_same; intro E; injection E as <-; exact (I4 _ _ Ehc)|rewrite upd_other by exact N; eauto].
      * intros hid' hc'. destruct (String.eqb_spec hid hid') as [<-|N];
          [rewrite upd_same; intro E; injection E as <-; exact (I5 _ _ Ehc)|rewrite upd_other by exact N; eauto].
      * intros hid' hc'. destruct (String.eqb_spec hid hid') as [<-|N];
          [rewrite upd_same; intro E; injection E as <-; exact (I7 _ _ Ehc)|rewrite upd_other by exact N; eauto].
      * intros hid' E. apply I8. destruct (String.eqb_spec hid hid') as [<-|N]; [now rewrite upd_same in E|].
        now rewrite upd_other in E by exact N.
    + constructor; cbn [put_hchan put_active put_account h_clock h_chans h_ack h_log]; auto; [lia| |exists []; auto].
      intros hid' hc' E. destruct (String.eqb_spec hid hid') as [<-|N].
      * rewrite upd_same. eexists. split; [reflexivity|]. assert (hc' = hc) by congruence. subst. exact Sm.
      * exists hc'. rewrite upd_other by exact N. split; [exact E|apply same_hchan_refl].
  - apply obind_some in H as (hc & Ehc & H). apply obind_some in H as ([] & G0 & H). apply guard_some in G0.
    apply obind_some in H as (p & Ep & H). apply obind_some in H as ([] & G1 & H). apply guard_some in G1.
    apply obind_some in H as ([] & G2 & H). apply guard_some in G2.
    apply obind_some in H as ([] & G3 & H). apply guard_some in G3.
    apply obind_some in H as ([d ran] & Ed & H).
    apply obind_some in H as ([] & G4 & H). apply guard_some in G4. apply says_ok in G4.
    destruct (held c w _ _ _ Hc V Ep) as (ce & _ & _ & Hsrc & _ & Hseq & _).
    apply String.eqb_eq in G1. apply negb_true_iff in G2.
    pose proof (deliver_ok k hid p (hc_account hc) o d ran Ed) as D. cbv zeta in D, H.
    set (i := match o, ran with
        | Runs legacy resps answers, Some anys => Ran hid p (hc_account hc) anys (result_bytes legacy resps answers) answers
        | Fails err, _ => Failed hid p err | _, _ => Failed hid p "" end) in *. clearbody i.
    destruct D as (D1 & D2 & D3 & D4 & D5). injection H as <-.
    assert (Eo : hc_state hc = HsOpen) by (destruct (hc_state hc); congruence).
    destruct I as [I1 I2 I3 I4 I5 I6 I7 I8].
    assert (Hcp : p_src p = hc_cp hc).
    { destruct (I7 _ _ Ehc) as (id & md & E & _). rewrite E in Hsrc |- *. exact Hsrc. }
    set (chans' := match hc_order hc with Ordered => _ | Unordered => h_chans h end).
    assert (Ech : forall hid', hid' <> hid -> chans' hid' = h_chans h hid').
    { intros. unfold chans'. destruct (hc_order hc); [apply upd_other; congruence|reflexivity]. }
    assert (Ech' : exists hc', chans' hid = Some hc' /\ same_hchan hc hc' /\ hc_state hc' = HsOpen /\
      hc_next hc' = match hc_order hc with Ordered => n + 1 | Unordered => hc_next hc end).
    { unfold chans'. destruct (hc_order hc) eqn:Er; [rewrite upd_same; eexists|exists hc].
      - split; [reflexivity|]. apply N.eqb_eq in G3. repeat split; cbn; try congruence. lia.
      - repeat split; auto. lia. }
    clearbody chans'. destruct Ech' as (hc' & E' & Sm & So & Sn).
    assert (Hnew : ~ In n (received hid (h_log h))).
    { intro Hin. destruct (hc_order hc) eqn:Er.
      - rewrite (I4 _ _ Ehc Er) in Hin. apply in_down in Hin. pose proof (I3 _ _ Ehc). lia.
      - apply (I5 _ _ Ehc Er) in Hin. rewrite Hin in G3. discriminate. }
    assert (Rec : forall hid', received hid' (i :: h_log h) =
              if String.eqb hid hid' then n :: received hid' (h_log h) else received hid' (h_log h)).
    { intro hid'. cbn [received]. rewrite D1, D2, Hseq. reflexivity. }
    split.
    + constructor; cbn [h_clock h_chans h_ack h_log h_receipt].
      * intros j Hj. destruct Hj as [<-|Hj].
        -- rewrite D1, D2. exists hc', ack. split; [exact E'|]. split; [congruence|]. split; [exact G1|].
           split; [destruct Sm as (_ & <- & _); exact Hcp|]. rewrite Hseq.
           split; [unfold upd2; now rewrite String.eqb_refl, N.eqb_refl|]. split; [congruence|]. split; [exact D4|].
           destruct i; [|exact I]. destruct Sm as (_ & _ & _ & <- & _). exact D5.
        -- destruct (I1 j Hj) as (hcj & y & J1 & J2 & J3 & J4 & J5 & J6).
           destruct (String.eqb_spec hid (item_hid j)) as [Ej|Nj].
           ++ exists hc', y. rewrite <- Ej in *. assert (hcj = hc) by congruence. subst hcj.
              split; [exact E'|]. split; [congruence|]. split; [congruence|].
              split; [destruct Sm as (_ & <- & _); exact J4|]. split.
              ** unfold upd2. destruct (N.eqb_spec n (p_seq (item_pkt j))) as [->|]; [|now rewrite andb_false_r].
                 exfalso. apply Hnew. rewrite Ej. now apply received_in.
              ** destruct j; [|exact J6]. destruct Sm as (_ & _ & _ & <- & _). exact J6.
           ++ exists hcj, y. rewrite Ech by congruence. split; [exact J1|]. split; [exact J2|]. split; [exact J3|].
              split; [exact J4|]. split; [|exact J6]. unfold upd2. apply String.eqb_neq in Nj. now rewrite Nj.
      * intros hid' n' ack'. rewrite Rec. unfold upd2. destruct (String.eqb hid hid'); [|cbn [andb]; apply I2].
        cbn [andb]. destruct (N.eqb_spec n n') as [->|]; [now left|]. intro E. right. eapply I2; eassumption.
      * intros hid' hc0 E. destruct (String.eqb_spec hid' hid) as [->|N]; [|rewrite Ech in E by exact N; eauto].
        assert (hc0 = hc') by congruence. subst. rewrite Sn. pose proof (I3 _ _ Ehc). destruct (hc_order hc); lia.
      * intros hid' hc0 E Er. rewrite Rec. destruct (String.eqb_spec hid hid') as [<-|N].
        -- assert (hc0 = hc') by congruence. subst hc0. destruct Sm as (Sm & _). rewrite <- Sm in Er. rewrite Er in *.
           rewrite (I4 _ _ Ehc Er), Sn. apply N.eqb_eq in G3. subst n. pose proof (I3 _ _ Ehc).
           replace (N.to_nat (hc_next hc + 1) - 1)%nat with (S (N.to_nat (hc_next hc) - 1)) by lia. cbn [down]. f_equal. lia.
        -- rewrite Ech in E by congruence. eauto.
      * intros hid' hc0 E Er n'. rewrite Rec. destruct (String.eqb_spec hid hid') as [<-|N].
        -- assert (hc0 = hc') by congruence. subst hc0. destruct Sm as (Sm & _). rewrite <- Sm in Er. rewrite Er in *.
           unfold upd2. rewrite String.eqb_refl. cbn [andb In]. destruct (N.eqb_spec n n') as [->|].
           ++ split; [now left|reflexivity].
           ++ rewrite (I5 _ _ Ehc Er). split; [auto|intros [?|?]; [contradiction|assumption]].
        -- rewrite Ech in E by congruence. destruct (hc_order hc); [eauto|].
           unfold upd2. apply String.eqb_neq in N. rewrite N. cbn [andb]. eauto.
      * intro hid'. rewrite Rec. destruct (String.eqb_spec hid hid') as [<-|]; [|apply I6]. constructor; auto.
      * intros hid' hc0 E. destruct (String.eqb_spec hid' hid) as [->|N]; [|rewrite Ech in E by exact N; eauto].
        assert (hc0 = hc') by congruence. subst. destruct Sm as (_ & <- & <- & <- & _). eauto.
      * intros hid' E n'. destruct (String.eqb_spec hid' hid) as [->|N]; [congruence|]. rewrite Ech in E by exact N.
        destruct (hc_order hc); [eauto|]. unfold upd2. destruct (String.eqb_spec hid hid'); [congruence|]. cbn [andb]. eauto.
    + constructor; cbn [h_clock h_chans h_ack h_log].
      * lia.
      * intros hid' hc0 E. destruct (String.eqb_spec hid' hid) as [->|N].
        -- exists hc'. split; [exact E'|]. assert (hc0 = hc) by congruence. now subst.
        -- exists hc0. rewrite Ech by exact N. split; [exact E|apply same_hchan_refl].
      * intros hid' n' ack' E. unfold upd2. destruct (String.eqb_spec hid hid') as [<-|]; [|exact E].
        destruct (N.eqb_spec n n') as [<-|]; [|exact E]. exfalso. apply Hnew. eapply I2; eassumption.
      * exists [i]. split; [reflexivity|]. constructor; [|constructor]. rewrite D1, D2. split; [exact G2|]. intros. congruence.
Qed.

(** ** What each action of the controller chain adds to its log *)

Definition plain (i : logitem) : Prop := match i with LEvent _ | LCall _ _ => True | _ => False end.

Lemma note_events_plain l : forall w, exists pre, w_log (note_events l w) = pre ++ w_log w /\ Forall plain pre.
Proof.
  induction l as [|ev l IH]; intro w; [exists []; auto|]. cbn [note_events].
  destruct (IH (note (LEvent ev) w)) as (pre & E & F). exists (pre ++ [LEvent ev]). split.
  - rewrite E. cbn. now rewrite <- app_assoc.
  - apply Forall_app. split; [exact F|]. repeat constructor.
Qed.
Lemma dispatch_call_plain r w w' b : dispatch_call r w = Some (w', b) ->
  exists pre, w_log w' = pre ++ w_log w /\ Forall plain pre.
Proof.
  unfold dispatch_call. intro H. destruct (note_events_plain (r_events r) w) as (pre & E & F).
  set (w0 := note_events (r_events r) w) in *. clearbody w0.
  destruct (r_msgs r) as [|sm [|]]; [injection H as <- _; eauto| |discriminate].
  destruct (sm_msg sm) as [ | | | | | |[ ? ? [|] | | | | | ]| ]; try discriminate.
  destruct (sm_reply sm); [discriminate|]. injection H as <- _.
  eexists (_ :: pre). split; [cbn; rewrite E; reflexivity|]. constructor; [exact I|exact F].
Qed.

(** What concerns only this chain. *)
Definition local (i : logitem) : Prop :=
  match i with LChanOpen _ | LAck _ _ _ | LTimeout _ _ => False | _ => True end.

Lemma act_main c a w w' b : cfg_ok c -> visited c w -> act c a w = Some (w', b) ->
  exists pre, match a with
  | AOpenAck id cp v => exists ce, w_chans w id = Some ce /\
      w_log w' = pre ++ LChanOpen (channel_of c id (open_end ce cp v)) :: w_log w /\ Forall plain pre
  | ACloseConfirm id => exists ce, w_chans w id = Some ce /\ ce_state ce <> CClosed
  | AAck id n ack relayer => exists ce p, w_chans w id = Some ce /\ w_commit w id n = Some p /\
      w_log w' = pre ++ LAck p ack relayer :: w_log w /\ Forall plain pre
  | ATimeout id n relayer => exists ce p, w_chans w id = Some ce /\ w_commit w id n = Some p /\
      w_log w' = pre ++ LTimeout p relayer :: w_log w /\ Forall plain pre
  | _ => user_block c (w_log w) pre /\ w_log w' = pre ++ w_log w
  end.
Proof.
  intros Hc V H.
  assert (U : call_item c a <> [] -> exists pre, user_block c (w_log w) pre /\ w_log w' = pre ++ w_log w).
  { intro N. destruct (act_block_call c w a w' b Hc V H) as (pre & F & B & E).
    exists (pre ++ call_item c a). split; [|exact E]. destruct B as [B|B]; [exact B|exfalso].
    assert (Hq : Forall quiet (pre ++ call_item c a)).
    { destruct B; repeat match goal with X : callback _ _ _ |- _ => destruct X as [_ ->] end;
        try destruct (callback_of (w_log w)); cbn [app]; repeat constructor. }
    apply Forall_app in Hq as [_ Hq]. destruct a; cbn [call_item] in *; try congruence.
    - destruct (from_json jc_instantiate_msg raw); [|congruence]. inversion Hq as [|? ? Q _]. exact Q.
    - destruct (from_json jc_execute_msg raw); [|congruence]. inversion Hq as [|? ? Q _]. exact Q.
    - inversion Hq as [|? ? Q _]. exact Q. }
  assert (Hb := visited_base c w Hc V).
  destruct a.
  - apply U. pose proof H as H'. cbn [act] in H'. apply obind_some in H' as (? & _ & H').
    apply obind_some in H' as (m & Em & _). cbn [call_item]. rewrite Em. discriminate.
  - apply U. pose proof H as H'. cbn [act] in H'. apply obind_some in H' as (? & _ & H').
    apply obind_some in H' as (? & _ & H'). apply obind_some in H' as (m & Em & _). cbn [call_item]. rewrite Em. discriminate.
  - apply U. discriminate.
  - exfalso. cbn [act] in H. apply obind_some in H as (? & H & _). unfold core_open in H.
    apply obind_some in H as (? & _ & H). apply obind_some in H as (? & _ & H).
    apply obind_some in H as (s & Hs & H). apply obind_some in H as (? & HO & _). apply ok_of_some in HO.
    cbn [ibc_channel_open] in HO. unfold on_open_init in HO.
    destruct Hb as [_ Hb]. destruct (Hb s Hs) as (Hf & _). rewrite Hf in HO. discriminate.
  - exfalso. cbn [act] in H. apply obind_some in H as (s & Hs & H). discriminate.
  - cbn [act] in H. unbind H. apply dispatch_call_plain in H as (pre & E & F). exists pre, x. auto.
  - exfalso. cbn [act] in H. apply obind_some in H as (ce & Hce & H). apply obind_some in H as (s & Hs & H). discriminate.
  - exfalso. cbn [act] in H. apply obind_some in H as (w1 & H & _).
    destruct (w_store w) as [s|] eqn:Hs.
    + assert (Hf := proj1 (core_close_inv c _ w w1 s Hs H)).
      destruct Hb as [_ Hb]. destruct (Hb s Hs) as (_ & Hf' & _). congruence.
    + unfold core_close_init in H. apply obind_some in H as (? & _ & H). rewrite Hs in H. discriminate.
  - cbn [act] in H. unbind H. exists [], x. split; [exact G|]. destruct (ce_state x); congruence.
  - cbn [act] in H. unbind H. apply dispatch_call_plain in H as (pre & E & F). exists pre, x, x0.
    split; [exact G0|]. split; [exact G2|]. split; [|exact F]. rewrite E. destruct (ce_order x); reflexivity.
  - cbn [act] in H. unbind H. apply dispatch_call_plain in H as (pre & E & F). exists pre, x, x0.
    split; [exact G0|]. split; [exact G1|]. split; [|exact F]. rewrite E. destruct (ce_order x); reflexivity.
  - exfalso. cbn [act] in H. apply obind_some in H as (s & Hs & H). discriminate.
Qed.

Lemma opened_plain pre l id : Forall plain pre -> opened (pre ++ l) id = opened l id.
Proof. induction 1 as [|x pre Hx _ IH]; [reflexivity|]. cbn [app opened]. destruct x; try contradiction; exact IH. Qed.
Lemma opened_user c l new id : user_block c l new -> opened (new ++ l) id = opened l id.
Proof. intro B. destruct B; reflexivity. Qed.
Lemma user_local c l new : user_block c l new -> Forall local new.
Proof. intro B. destruct B; repeat constructor. Qed.

Lemma opened_end c w id ch : cfg_ok c -> visited c w -> opened (w_log w) id = Some ch ->
  exists ce, w_chans w id = Some ce /\ ce_state ce <> CInit /\ ch = channel_of c id ce.
Proof.
  intros Hc V H. pose proof (ic_chan _ _ (inv_chans _ _ (visited_inv _ _ Hc V)) id) as I.
  destruct (w_chans w id) as [ce|]; [|destruct I; congruence]. exists ce. split; [reflexivity|].
  destruct I as (_ & _ & _ & _ & _ & I). destruct (ce_state ce); [congruence| |]; split; try discriminate; destruct I; congruence.
Qed.
Lemma end_opened c w id ce : cfg_ok c -> visited c w -> w_chans w id = Some ce -> ce_state ce <> CInit ->
  opened (w_log w) id = Some (channel_of c id ce).
Proof.
  intros Hc V H N. pose proof (ic_chan _ _ (inv_chans _ _ (visited_inv _ _ Hc V)) id) as I. rewrite H in I.
  destruct I as (_ & _ & _ & _ & _ & I). destruct (ce_state ce); [congruence| |]; apply I.
Qed.

(** ** Both chains *)

Record link (c : cfg) (w : world) (h : host) : Prop := {
  lk_chan : forall hid hc, h_chans h hid = Some hc ->
    exists id ce, hc_cp hc = Endpoint (port c) id /\ w_chans w id = Some ce /\ ce_order ce = hc_order hc /\
      (hc_state hc <> HsTry -> ce_state ce <> CInit /\ ce_cp ce = Endpoint "icahost" hid /\
                               ce_version ce = hc_version hc) /\
      (hc_state hc = HsClosed -> ce_state ce = CClosed);
  lk_open : forall id ch, opened (w_log w) id = Some ch ->
    exists hc, h_chans h (e_chan (ch_counterparty ch)) = Some hc /\ hc_cp hc = Endpoint (port c) id /\
      hc_version hc = ch_version ch /\ hc_order hc = ch_order ch;
  lk_sent : forall i, In i (h_log h) -> exists e sd m, In (LSent e sd m (item_pkt i)) (w_log w);
  lk_ack : forall p ack relayer, In (LAck p ack relayer) (w_log w) ->
    exists i, In i (h_log h) /\ item_pkt i = p /\ from_json jc_ack ack = Some (item_ack i);
  lk_timeout : forall p relayer, In (LTimeout p relayer) (w_log w) ->
    (forall i, In i (h_log h) -> item_pkt i <> p) /\
    (elapsed (p_timeout p) (h_clock h) = true \/
     exists hc, h_chans h (e_chan (p_dest p)) = Some hc /\ hc_state hc = HsClosed);
  lk_closed : forall l1 id l2, w_log w = l1 ++ LChanClosed id :: l2 ->
    exists e sd l3, l2 = LExecuted e sd XCloseChannel :: l3
}.

Record sys_inv (c : cfg) (k : hcfg) (s : sys) : Prop := {
  si_w : visited c (y_w s);
  si_ws : forall w, In w (y_ws s) -> visited c w /\ later c w (y_w s);
  si_here : In (y_w s) (y_ws s);
  si_h : In (y_h s) (y_hs s);
  si_hs : forall h, In h (y_hs s) -> host_inv c k h /\ hlater h (y_h s);
  si_link : link c (y_w s) (y_h s)
}.

Lemma init_inv c k : sys_inv c k init_sys.
Proof.
  constructor; cbn [init_sys y_w y_ws y_h y_hs].
  - constructor.
  - intros w [<-|[]]. split; constructor.
  - now left.
  - now left.
  - intros h [<-|[]]. split; [|apply hlater_refl].
    constructor; cbn; try discriminate; try contradiction; auto. intro. constructor.
  - constructor; cbn; try discriminate; try contradiction. intros [|] ? ?; discriminate.
Qed.

Lemma sent_dest c e sd m p : cfg_ok c -> forall w, visited c w -> In (LSent e sd m p) (w_log w) ->
  exists ce, w_chans w (e_chan (p_src p)) = Some ce /\ ce_state ce <> CInit /\ p_dest p = ce_cp ce /\
    p_src p = Endpoint (port c) (e_chan (p_src p)).
Proof.
  intros Hc. apply (visited_ind' c (fun w => In (LSent e sd m p) (w_log w) ->
    exists ce, w_chans w (e_chan (p_src p)) = Some ce /\ ce_state ce <> CInit /\ p_dest p = ce_cp ce /\
    p_src p = Endpoint (port c) (e_chan (p_src p)))); [exact Hc|contradiction|].
  intros w w' b V _ IH T Hi.
  assert (Old : In (LSent e sd m p) (w_log w) -> exists ce, w_chans w' (e_chan (p_src p)) = Some ce /\
     ce_state ce <> CInit /\ p_dest p = ce_cp ce /\ p_src p = Endpoint (port c) (e_chan (p_src p))).
  { intro H. destruct (IH H) as (ce & E & N & D & S). destruct (chan_step _ _ _ _ _ _ T E) as (ce' & E' & Sm).
    destruct Sm as (_ & _ & Sm & _). destruct (Sm N) as (S1 & _ & S3). exists ce'. repeat split; congruence. }
  destruct T; cbn [w_log] in Hi; try (destruct (cs_callback st); cbn [calls] in Hi);
    repeat (destruct Hi as [Hi|Hi]; [try discriminate Hi|]); try (apply Old; exact Hi).
  all: injection Hi as <- <- <- <-; exists ce; subst p0; cbn [w_chans p_src p_dest e_chan]; repeat split; auto; congruence.
Qed.

Lemma sent_same c w e sd m p e' sd' m' p' : cfg_ok c -> visited c w ->
  In (LSent e sd m p) (w_log w) -> In (LSent e' sd' m' p') (w_log w) ->
  e_chan (p_src p) = e_chan (p_src p') -> p_seq p = p_seq p' -> LSent e sd m p = LSent e' sd' m' p'.
Proof.
  intros Hc V H H' E1 E2. destruct (C45_resolved_once c w (e_chan (p_src p)) (p_seq p) Hc V) as (_ & _ & C).
  eapply (count_one _ _ _ _ C H H'); cbn [commits]; apply at_pkt_spec; auto.
Qed.

Lemma link_controller c w h w' b new : link c w h -> trans c w w' b -> w_log w' = new ++ w_log w ->
  (forall id ch, opened (w_log w') id = Some ch -> opened (w_log w) id = Some ch \/
     exists hc, h_chans h (e_chan (ch_counterparty ch)) = Some hc /\ hc_cp hc = Endpoint (port c) id /\
       hc_version hc = ch_version ch /\ hc_order hc = ch_order ch) ->
  (forall p ack relayer, In (LAck p ack relayer) new ->
     exists i, In i (h_log h) /\ item_pkt i = p /\ from_json jc_ack ack = Some (item_ack i)) ->
  (forall p relayer, In (LTimeout p relayer) new ->
    (forall i, In i (h_log h) -> item_pkt i <> p) /\
    (elapsed (p_timeout p) (h_clock h) = true \/
     exists hc, h_chans h (e_chan (p_dest p)) = Some hc /\ hc_state hc = HsClosed)) ->
  (forall n1 id n2, new = n1 ++ LChanClosed id :: n2 -> exists e sd n3, n2 = LExecuted e sd XCloseChannel :: n3) ->
  link c w' h.
Proof.
  intros [L1 L2 L3 L4 L5 L6] T El H2 H4 H5 H6. constructor.
  - intros hid hc E. destruct (L1 _ _ E) as (id & ce & E1 & E2 & E3 & E4 & E5).
    destruct (chan_step _ _ _ _ _ _ T E2) as (ce' & E' & Sm1 & Sm2 & Sm3 & Sm4).
    exists id, ce'. split; [exact E1|]. split; [exact E'|]. split; [congruence|]. split; [|auto].
    intro N. destruct (E4 N) as (N1 & N2 & N3). destruct (Sm3 N1) as (S1 & S2 & S3). repeat split; congruence.
  - intros id ch Ho. destruct (H2 _ _ Ho) as [Ho'|Ho']; auto.
  - intros i Hi. destruct (L3 i Hi) as (e & sd & m & H). exists e, sd, m. rewrite El. apply in_or_app. now right.
  - intros p ack relayer. rewrite El. intro Hi. apply in_app_or in Hi as [Hi|Hi]; eauto.
  - intros p relayer. rewrite El. intro Hi. apply in_app_or in Hi as [Hi|Hi]; eauto.
  - intros l1 id l2 E. rewrite El in E. destruct (app_split _ _ _ _ _ E) as [(n2 & En & ->)|(l3 & E' & ->)].
    + destruct (H6 _ _ _ En) as (e & sd & n3 & ->). cbn [app]. eauto.
    + eauto.
Qed.

Lemma plain_not (pre : list logitem) x y l :
  Forall plain pre -> (~ plain x) -> In x (pre ++ y :: l) -> x = y \/ In x l.
Proof.
  intros F N H. apply in_app_or in H as [H|[H|H]]; auto. rewrite Forall_forall in F. destruct (N (F _ H)).
Qed.

(** The counterparty's end closes only after this one. *)
Lemma no_close_confirm c w h0 h id : hlater h0 h -> link c w h -> genuine c (ACloseConfirm id) w h0 ->
  exists ce, w_chans w id = Some ce /\ ce_state ce = CClosed.
Proof.
  intros L Il (ce & hc & G1 & G2 & G3 & G4 & G5). exists ce. split; [exact G1|].
  destruct (hl_chan _ _ L _ _ G2) as (hc' & H1 & S1 & S2 & S3 & S4 & S5 & S6 & S7).
  destruct (lk_chan _ _ _ Il _ _ H1) as (id' & ce' & E1 & E2 & E3 & E4 & E5).
  assert (id' = id) by congruence. subst id'. assert (ce' = ce) by congruence. subst ce'. auto.
Qed.

(** The host's end of a channel with packets. *)
Lemma host_end c w h id ce : cfg_ok c -> visited c w -> link c w h -> w_chans w id = Some ce -> ce_state ce <> CInit ->
  exists hc, h_chans h (e_chan (ce_cp ce)) = Some hc /\ hc_cp hc = Endpoint (port c) id /\
    hc_version hc = ce_version ce /\ hc_order hc = ce_order ce.
Proof. intros Hc V Il E N. exact (lk_open _ _ _ Il id _ (end_opened _ _ _ _ Hc V E N)). Qed.

(** An item with the sequence of a held packet is about that packet. *)
Lemma item_is c k w h id n p ce i : cfg_ok c -> visited c w -> link c w h -> host_inv c k h ->
  w_commit w id n = Some p -> w_chans w id = Some ce ->
  In i (h_log h) -> item_hid i = e_chan (ce_cp ce) -> p_seq (item_pkt i) = n -> item_pkt i = p.
Proof.
  intros Hc V Il Ih Hp Hce Hi Hid Hn.
  destruct (held _ _ _ _ _ Hc V Hp) as (ce2 & K1 & K2 & K3 & K4 & K5 & e' & sd' & m' & K6).
  assert (ce2 = ce) by congruence. subst ce2.
  destruct (host_end _ _ _ _ _ Hc V Il Hce K2) as (hc & E1 & E2 & _).
  destruct (hi_item _ _ _ Ih i Hi) as (hc' & y & J1 & J2 & J3 & J4 & _).
  rewrite Hid in J1. assert (hc' = hc) by congruence. subst hc'.
  destruct (lk_sent _ _ _ Il i Hi) as (e & sd & m & Hs).
  assert (E : LSent e sd m (item_pkt i) = LSent e' sd' m' p).
  { eapply sent_same; try eassumption; [rewrite J4, E2, K3; reflexivity|congruence]. }
  now injection E.
Qed.

Lemma hact_sent c k a w w' h h' i new : cfg_ok c -> visited c w -> later c w w' -> hact c k a w h = Some h' ->
  h_log h' = new ++ h_log h -> In i new -> exists e sd m, In (LSent e sd m (item_pkt i)) (w_log w').
Proof.
  intros Hc V L H El Hi. destruct a as [t|hid id version|hid|hid|hid n o ack]; cbn [hact] in H.
  1-4: unbind H; injection H as <-; cbn [put_hchan put_active put_account h_log] in El; change (h_log h) with ([] ++ h_log h) in El at 1;
    apply app_inv_tail in El; subst; contradiction.
  apply obind_some in H as (hc & Ehc & H). apply obind_some in H as ([] & _ & H).
  apply obind_some in H as (p & Ep & H). apply obind_some in H as ([] & _ & H).
  apply obind_some in H as ([] & _ & H). apply obind_some in H as ([] & _ & H).
  apply obind_some in H as ([d ran] & Ed & H). apply obind_some in H as ([] & _ & H).
  pose proof (deliver_ok k hid p (hc_account hc) o d ran Ed) as (_ & D & _). cbv zeta in H.
  injection H as <-. cbn [h_log] in El.
  match type of El with ?j :: _ = _ => change (j :: h_log h) with ([j] ++ h_log h) in El end.
  apply app_inv_tail in El. subst new. destruct Hi as [<-|[]]. rewrite D.
  destruct (held _ _ _ _ _ Hc V Ep) as (ce & _ & _ & _ & _ & _ & e & sd & m & K).
  exists e, sd, m. destruct (later_log _ _ _ Hc V L) as (new & ->). apply in_or_app. now right.
Qed.

Lemma hact_link c k a w w' h h' : cfg_ok c -> visited c w -> later c w w' -> hact c k a w h = Some h' ->
  let P h := forall hid hc, h_chans h hid = Some hc ->
    exists id ce, hc_cp hc = Endpoint (port c) id /\ w_chans w' id = Some ce /\ ce_order ce = hc_order hc /\
      (hc_state hc <> HsTry -> ce_state ce <> CInit /\ ce_cp ce = Endpoint "icahost" hid /\
                               ce_version ce = hc_version hc) /\
      (hc_state hc = HsClosed -> ce_state ce = CClosed) in
  P h -> P h'.
Proof.
  intros Hc V L H P L1. unfold P in *. clear P.
  destruct a as [t|hid id version|hid|hid|hid n o ack]; cbn [hact] in H.
  - unbind H. injection H as <-. exact L1.
  - apply obind_some in H as ([] & _ & H). apply obind_some in H as (ce & Ece & H). apply obind_some in H as ([] & _ & H).
    apply obind_some in H as ([] & _ & H). apply obind_some in H as (md & _ & H). apply obind_some in H as ([] & _ & H).
    apply obind_some in H as (acc & _ & H). apply obind_some in H as ([] & _ & H). injection H as <-.
    intros hid' hc. cbn [put_hchan put_active put_account h_chans]. destruct (String.eqb_spec hid hid') as [<-|N]; [|rewrite upd_other by exact N; apply L1].
    rewrite upd_same. intro E. injection E as <-. cbn [hc_cp hc_order hc_state hc_version].
    destruct (later_chan _ _ _ _ _ Hc V L Ece) as (ce' & E' & S1 & _). exists id, ce'.
    repeat split; try congruence.
  - apply obind_some in H as (hc & Ehc & H). apply obind_some in H as ([] & G0 & H).
    apply obind_some in H as (ce & Ece & H). apply obind_some in H as ([] & G1 & H). apply obind_some in H as ([] & G2 & H).
    apply guard_some in G0, G1, G2. injection H as <-.
    intros hid' hc0. cbn [put_hchan put_active put_account h_chans]. destruct (String.eqb_spec hid hid') as [<-|N]; [|rewrite upd_other by exact N; apply L1].
    rewrite upd_same. intro E. injection E as <-. destruct (L1 _ _ Ehc) as (id & ce1 & E1 & E2 & E3 & _).
    rewrite E1 in Ece. cbn [e_chan] in Ece. destruct (later_chan _ _ _ _ _ Hc V L Ece) as (ce' & E' & S1 & S2 & S3 & S4).
    assert (ce' = ce1) by congruence. subst ce1.
    exists id, ce'. cbn [with_state hc_cp hc_order hc_state hc_version].
    assert (Eo : ce_state ce = COpen) by (destruct (ce_state ce); congruence). destruct S3 as (S5 & S6 & S7); [congruence|].
    apply andb_prop in G2 as [G2 G3]. apply String.eqb_eq in G2, G3.
    pose proof (end_port _ _ _ _ Hc V Ece) as Hp.
    repeat split; try congruence. rewrite <- S5. destruct (ce_cp ce) as [x y]. cbn in *. congruence.
  - apply obind_some in H as (hc & Ehc & H). apply obind_some in H as ([] & G0 & H).
    apply obind_some in H as (ce & Ece & H). apply obind_some in H as ([] & G1 & H). apply obind_some in H as ([] & G2 & H).
    apply guard_some in G0, G1, G2. injection H as <-.
    intros hid' hc0. cbn [put_hchan put_active put_account h_chans]. destruct (String.eqb_spec hid hid') as [<-|N]; [|rewrite upd_other by exact N; apply L1].
    rewrite upd_same. intro E. injection E as <-. destruct (L1 _ _ Ehc) as (id & ce1 & E1 & E2 & E3 & _).
    rewrite E1 in Ece. cbn [e_chan] in Ece. destruct (later_chan _ _ _ _ _ Hc V L Ece) as (ce' & E' & S1 & S2 & S3 & S4).
    assert (ce' = ce1) by congruence. subst ce1.
    exists id, ce'. cbn [with_state hc_cp hc_order hc_state hc_version].
    assert (Eo : ce_state ce = CClosed) by (destruct (ce_state ce); congruence). destruct S3 as (S5 & S6 & S7); [congruence|].
    apply andb_prop in G2 as [G2 G3]. apply String.eqb_eq in G2, G3.
    pose proof (end_port _ _ _ _ Hc V Ece) as Hp.
    repeat split; try congruence; [|intros _; now apply S4]. rewrite <- S5. destruct (ce_cp ce) as [x y]. cbn in *. congruence.
  - apply obind_some in H as (hc & Ehc & H). apply obind_some in H as ([] & G0 & H).
    apply obind_some in H as (p & Ep & H). apply obind_some in H as ([] & _ & H).
    apply obind_some in H as ([] & _ & H). apply obind_some in H as ([] & _ & H).
    apply obind_some in H as ([d ran] & Ed & H). apply obind_some in H as ([] & _ & H). cbv zeta in H.
    apply guard_some in G0. injection H as <-.
    intros hid' hc0. cbn [h_chans]. destruct (hc_order hc) eqn:Eo; [|apply L1].
    destruct (String.eqb_spec hid hid') as [<-|N]; [|rewrite upd_other by exact N; apply L1].
    rewrite upd_same. intro E. injection E as <-. destruct (L1 _ _ Ehc) as (id & ce1 & E1 & E2 & E3 & E4 & E5).
    assert (Es : hc_state hc = HsOpen) by (destruct (hc_state hc); congruence).
    exists id, ce1. cbn [hc_cp hc_order hc_state hc_version]. destruct E4 as (E6 & E7 & E8); [congruence|].
    repeat split; congruence.
Qed.

Lemma step_inv c k s s' : cfg_ok c -> sys_inv c k s -> sstep c k s s' -> sys_inv c k s'.
Proof.
  intros Hc I S. destruct I as [Iw Iws Ihere Ih Ihs Il]. destruct S as [a h w b Hh Hg Ha|a w h Hw Ha].
  - assert (V : visited c w) by (eapply visited_act; eassumption).
    destruct (act_main _ _ _ _ _ Hc Iw Ha) as (pre & M).
    pose proof (act_trans _ _ _ _ _ Hc (visited_base _ _ Hc Iw) Ha) as T.
    destruct (Ihs _ Hh) as (Ihi & Ihl). destruct (Ihs _ Ih) as (Yi & _).
    constructor; cbn [y_w y_ws y_h y_hs]; auto; [| |].
    + intros w0 [<-|H0]; [split; [exact V|constructor]|]. destruct (Iws _ H0) as (V0 & L0).
      split; [exact V0|]. eapply later_act; eassumption.
    + now left.
    + assert (U : user_block c (w_log (y_w s)) pre -> w_log w = pre ++ w_log (y_w s) -> link c w (y_h s)).
      { intros M1 M2. pose proof (user_local _ _ _ M1) as F. rewrite Forall_forall in F.
        eapply link_controller; [exact Il|exact T|exact M2| | | |].
        - intros id ch Ho. rewrite M2, (opened_user _ _ _ _ M1) in Ho. now left.
        - intros p ack relayer Hi. destruct (F _ Hi).
        - intros p relayer Hi. destruct (F _ Hi).
        - intros n1 id n2 E. destruct M1; split_item E; try discriminate E; subst. injection E as <-. eauto. }
      destruct a; try (destruct M as (M1 & M2); exact (U M1 M2)).
      * destruct M as (ce & M1 & M2 & M3).
        destruct Hg as (ce1 & hc & G1 & G2 & G3 & G4 & G5 & G6). assert (ce1 = ce) by congruence. subst ce1.
        destruct (hl_chan _ _ Ihl _ _ G2) as (hc' & H1 & S1 & S2 & S3 & S4 & _).
        eapply (link_controller _ _ _ _ _ (pre ++ [LChanOpen (channel_of c id (open_end ce cp_chan cp_version))]));
          [exact Il|exact T|rewrite M2, <- app_assoc; reflexivity| | | |].
        -- intros id' ch Ho. rewrite M2, opened_plain in Ho by exact M3. cbn [opened] in Ho.
           destruct (on_chan id' (channel_of c id (open_end ce cp_chan cp_version))) eqn:Eo; [|now left].
           injection Ho as <-. apply on_chan_spec in Eo. cbn in Eo. subst id'. right. exists hc'.
           cbn [channel_of ch_counterparty ch_version ch_order open_end ce_cp ce_version ce_order e_chan].
           repeat split; congruence.
        -- intros p ack relayer Hi. apply in_app_or in Hi as [Hi|[Hi|[]]]; [|discriminate].
           rewrite Forall_forall in M3. destruct (M3 _ Hi).
        -- intros p relayer Hi. apply in_app_or in Hi as [Hi|[Hi|[]]]; [|discriminate].
           rewrite Forall_forall in M3. destruct (M3 _ Hi).
        -- intros n1 id' n2 E. assert (Hi : In (LChanClosed id') (pre ++ [LChanOpen (channel_of c id (open_end ce cp_chan cp_version))])).
           { rewrite E. apply in_or_app. right. now left. }
           apply in_app_or in Hi as [Hi|[Hi|[]]]; [|discriminate]. rewrite Forall_forall in M3. destruct (M3 _ Hi).
      * exfalso. destruct M as (ce & M1 & M2). destruct (no_close_confirm _ _ _ _ _ Ihl Il Hg) as (ce' & E1 & E2). congruence.
      * destruct M as (ce & p & M1 & M2 & M3 & M4). destruct Hg as (ce1 & G1 & G2). assert (ce1 = ce) by congruence. subst ce1.
        eapply (link_controller _ _ _ _ _ (pre ++ [LAck p ack relayer]));
          [exact Il|exact T|rewrite M3, <- app_assoc; reflexivity| | | |].
        -- intros id' ch Ho. left. now rewrite M3, opened_plain in Ho by exact M4.
        -- intros p' ack' relayer' Hi. apply in_app_or in Hi as [Hi|[Hi|[]]];
             [rewrite Forall_forall in M4; destruct (M4 _ Hi)|]. injection Hi as <- <- <-.
           apply (hl_ack _ _ Ihl) in G2. pose proof (hi_ack _ _ _ Yi _ _ _ G2) as Hr.
           destruct (in_received _ _ _ Hr) as (i & Hi & Hid & Hs).
           destruct (hi_item _ _ _ Yi i Hi) as (hc & y & J1 & J2 & J3 & J4 & J5 & J6 & J7).
           exists i. split; [exact Hi|]. rewrite Hid, Hs in J5. assert (y = ack) by congruence. subst y. split; [|exact J6].
           exact (item_is c k (y_w s) (y_h s) id seq p ce i Hc Iw Il Yi M2 M1 Hi Hid Hs).
        -- intros p' relayer' Hi. apply in_app_or in Hi as [Hi|[Hi|[]]]; [|discriminate].
           rewrite Forall_forall in M4. destruct (M4 _ Hi).
        -- intros n1 id' n2 E. assert (Hi : In (LChanClosed id') (pre ++ [LAck p ack relayer])).
           { rewrite E. apply in_or_app. right. now left. }
           apply in_app_or in Hi as [Hi|[Hi|[]]]; [|discriminate]. rewrite Forall_forall in M4. destruct (M4 _ Hi).
      * destruct M as (ce & p & M1 & M2 & M3 & M4).
        destruct Hg as (ce1 & p1 & G1 & G2 & G3 & G4). assert (ce1 = ce) by congruence. subst ce1.
        assert (p1 = p) by congruence. subst p1.
        destruct (held _ _ _ _ _ Hc Iw M2) as (ce2 & K1 & K2 & K3 & K4 & K5 & _).
        assert (ce2 = ce) by congruence. subst ce2.
        eapply (link_controller _ _ _ _ _ (pre ++ [LTimeout p relayer]));
          [exact Il|exact T|rewrite M3, <- app_assoc; reflexivity| | | |].
        -- intros id' ch Ho. left. now rewrite M3, opened_plain in Ho by exact M4.
        -- intros p' ack' relayer' Hi. apply in_app_or in Hi as [Hi|[Hi|[]]]; [|discriminate].
           rewrite Forall_forall in M4. destruct (M4 _ Hi).
        -- intros p' relayer' Hi. apply in_app_or in Hi as [Hi|[Hi|[]]];
             [rewrite Forall_forall in M4; destruct (M4 _ Hi)|]. injection Hi as <- <-. split.
           ++ intros i Hi Ei. destruct (hl_log _ _ Ihl) as (new & El & F). rewrite El in Hi.
              destruct (hi_item _ _ _ Yi i) as (hc & y & J1 & J2 & J3 & J4 & _); [rewrite El; exact Hi|].
              rewrite Ei, K4 in J3.
              apply in_app_or in Hi as [Hi|Hi].
              ** rewrite Forall_forall in F. destruct (F _ Hi) as (F1 & F2). rewrite Ei in F1.
                 destruct G4 as [G4|(hc' & G4 & G5 & _)]; [congruence|]. apply (F2 hc'); congruence.
              ** pose proof (received_in (item_hid i) _ _ Hi eq_refl) as Hr. rewrite Ei, K5 in Hr.
                 destruct (hi_item _ _ _ Ihi i Hi) as (hc0 & y0 & Z1 & _).
                 destruct (hl_chan _ _ Ihl _ _ Z1) as (hc1 & Z2 & Z3 & _).
                 destruct (host_end _ _ _ _ _ Hc Iw Il M1 K2) as (hc2 & X1 & X2 & X3 & X4).
                 rewrite J3 in X1. assert (hc2 = hc1) by congruence. subst hc2.
                 destruct (ce_order ce) eqn:Eo.
                 --- destruct G3 as (hc3 & G3 & G5). rewrite J3 in G3. assert (hc3 = hc0) by congruence. subst hc3.
                     rewrite (hi_ordered _ _ _ Ihi _ _ Z1) in Hr by congruence. apply in_down in Hr.
                     pose proof (hi_next _ _ _ Ihi _ _ Z1). lia.
                 --- apply (hi_receipt _ _ _ Ihi _ _ Z1) in Hr; congruence.
           ++ destruct G4 as [G4|(hc & G4 & G5 & _)].
              ** left. destruct (elapsed (p_timeout p) (h_clock (y_h s))) eqn:Ee; [reflexivity|].
                 apply (elapsed_mono _ _ _ (hl_clock _ _ Ihl)) in Ee. congruence.
              ** right. destruct (hl_chan _ _ Ihl _ _ G4) as (hc' & H1 & S1 & S2 & S3 & S4 & S5 & S6 & S7).
                 exists hc'. rewrite K4. auto.
        -- intros n1 id' n2 E. assert (Hi : In (LChanClosed id') (pre ++ [LTimeout p relayer])).
           { rewrite E. apply in_or_app. right. now left. }
           apply in_app_or in Hi as [Hi|[Hi|[]]]; [|discriminate]. rewrite Forall_forall in M4. destruct (M4 _ Hi).
  - destruct (Iws _ Hw) as (Vw & Lw). destruct (Ihs _ Ih) as (Yi & _).
    destruct (hact_next _ _ _ _ _ _ Hc Vw Yi Ha) as (Ihi & Ihl).
    constructor; cbn [y_w y_ws y_h y_hs]; auto; [now left| |].
    + intros h0 [<-|H0]; [split; [exact Ihi|apply hlater_refl]|]. destruct (Ihs _ H0) as (? & ?).
      split; [assumption|]. eapply hlater_trans; eassumption.
    + destruct Il as [L1 L2 L3 L4 L5 L6].
      destruct (hl_log _ _ Ihl) as (new & El & F).
      assert (Hsent : forall i, In i new -> exists e sd m, In (LSent e sd m (item_pkt i)) (w_log (y_w s))).
      { intros i Hi. exact (hact_sent _ _ _ _ _ _ _ i new Hc Vw Lw Ha El Hi). }
      constructor.
      * exact (hact_link _ _ _ _ _ _ _ Hc Vw Lw Ha L1).
      * intros id ch Ho. destruct (L2 _ _ Ho) as (hc & E1 & E2 & E3 & E4).
        destruct (hl_chan _ _ Ihl _ _ E1) as (hc' & H1 & S1 & S2 & S3 & S4 & _). exists hc'. repeat split; congruence.
      * intros i. rewrite El. intro Hi. apply in_app_or in Hi as [Hi|Hi]; auto.
      * intros p ack relayer Hi. destruct (L4 _ _ _ Hi) as (i & Hi' & R). exists i. split; [|exact R].
        rewrite El. apply in_or_app. now right.
      * intros p relayer Hi. destruct (L5 _ _ Hi) as (N & O). split.
        -- intros i. rewrite El. intros Hi' Ei. apply in_app_or in Hi' as [Hi'|Hi']; [|now apply (N i)].
           rewrite Forall_forall in F. destruct (F _ Hi') as (F1 & F2). rewrite Ei in F1.
           destruct O as [O|(hc & O1 & O2)]; [congruence|]. apply (F2 hc); [|exact O2].
           destruct (hi_item _ _ _ Ihi i) as (hc1 & y & J1 & J2 & J3 & J4 & _); [rewrite El; apply in_or_app; now left|].
           rewrite Ei in J3. congruence.
        -- destruct O as [O|(hc & O1 & O2)].
           ++ left. destruct (elapsed (p_timeout p) (h_clock h)) eqn:Ee; [reflexivity|].
              apply (elapsed_mono _ _ _ (hl_clock _ _ Ihl)) in Ee. congruence.
           ++ right. destruct (hl_chan _ _ Ihl _ _ O1) as (hc' & H1 & S1 & S2 & S3 & S4 & S5 & S6 & S7). eauto.
      * exact L6.
Qed.

Lemma follows_inv c k s s' : cfg_ok c -> sys_inv c k s -> follows c k s s' -> sys_inv c k s'.
Proof. intros Hc I. induction 1; [exact I|]. eapply step_inv; eassumption. Qed.
Theorem reached_inv c k s : cfg_ok c -> reached c k s -> sys_inv c k s.
Proof. intros Hc. apply follows_inv; [exact Hc|apply init_inv]. Qed.

(** ** Connections, accounts and active channels of the host *)

(** The metadata of every channel of the host: as the contract offered it, for
    two connected connections, with the account the host has for its end. *)
Record terms (k : hcfg) (h : host) : Prop := {
  tm_chan : forall hid hc, h_chans h hid = Some hc ->
    (exists conn, peer k conn = Some (hc_conn hc) /\
       from_json jc_metadata (hc_version hc) =
         Some (Metadata "ics27-1" conn (hc_conn hc) (hc_account hc) Protobuf "sdk_multi_msg")) /\
    h_accounts h (hc_conn hc) = Some (hc_account hc);
  tm_active : forall x a, h_active h x = Some a ->
    exists hc, h_chans h a = Some hc /\ hc_state hc <> HsTry /\ hc_conn hc = x
}.

Lemma same_terms_ok x y : same_terms x y = true <->
  md_version x = md_version y /\ md_controller x = md_controller y /\ md_host x = md_host y /\
  md_tx_type x = md_tx_type y /\ md_encoding x = md_encoding y.
Proof.
  unfold same_terms. rewrite !andb_true_iff, !String.eqb_eq. split.
  - intros ((((? & ?) & ?) & ?) & ?). repeat split; auto. destruct (md_encoding x), (md_encoding y); congruence.
  - intros (? & ? & ? & ? & ->). repeat split; auto. now destruct (md_encoding y).
Qed.

Lemma may_open_ok k h conn x : may_open k h conn x = true <->
  md_controller x = conn /\ peer k conn = Some (md_host x) /\
  forall a, h_active h (md_host x) = Some a -> exists hc y, h_chans h a = Some hc /\ hc_state hc = HsClosed /\
    from_json jc_metadata (hc_version hc) = Some y /\ same_terms x y = true.
Proof.
  unfold may_open. rewrite !andb_true_iff, String.eqb_eq. split.
  - intros ((-> & H1) & H2). destruct (peer k conn) as [y|]; [|discriminate]. apply String.eqb_eq in H1. subst y.
    split; [reflexivity|]. split; [reflexivity|]. intros a Ha. rewrite Ha in H2.
    destruct (h_chans h a) as [hc|]; [|discriminate]. apply andb_true_iff in H2 as (H2 & H3).
    destruct (from_json jc_metadata (hc_version hc)) as [y|] eqn:E; [|discriminate]. exists hc, y.
    destruct (hc_state hc); try discriminate. auto.
  - intros (-> & H1 & H2). rewrite H1, String.eqb_refl. repeat split.
    destruct (h_active h (md_host x)) as [a|]; [|reflexivity]. destruct (H2 a eq_refl) as (hc & y & E1 & E2 & E3 & E4).
    rewrite E1, E2, E3. exact E4.
Qed.

(** A channel end in its initial state, as the contract asked for it. *)
Lemma init_terms c w id ce x : cfg_ok c -> visited c w -> w_chans w id = Some ce -> ce_state ce = CInit ->
  from_json jc_metadata (ce_version ce) = Some x ->
  x = Metadata "ics27-1" (ce_conn ce) (md_host x) "" Protobuf "sdk_multi_msg".
Proof.
  intros Hc V E St Hx. pose proof (ic_chan _ _ (inv_chans _ _ (visited_inv c w Hc V)) id) as C. rewrite E in C.
  destruct C as ((o & _ & _ & C3 & _ & C5 & C6) & _). specialize (C6 St). rewrite C3. rewrite C6 in Hx.
  cbn [init_end ce_version] in Hx.
  rewrite metadata_roundtrip in Hx by (apply fresh_jval; apply C5). injection Hx as <-. reflexivity.
Qed.

Lemma hact_terms c k a w h h' : cfg_ok c -> visited c w -> terms k h -> hact c k a w h = Some h' -> terms k h'.
Proof.
  intros Hc V [T1 T2] H. destruct a as [t|hid id version|hid|hid|hid n o ack]; cbn [hact] in H.
  - unbind H. injection H as <-. constructor; assumption.
  - apply obind_some in H as ([] & G0 & H). apply obind_some in H as (ce & Ece & H). apply obind_some in H as ([] & G1 & H).
    apply obind_some in H as ([] & G2 & H). apply obind_some in H as (md & G3 & H). apply obind_some in H as ([] & G4 & H).
    apply obind_some in H as (acc & G5 & H). apply obind_some in H as ([] & G6 & H). injection H as <-.
    apply guard_some in G0, G1, G2, G4, G6. apply may_open_ok in G4 as (M1 & M2 & M3).
    assert (Hn : h_chans h hid = None). { destruct (h_chans h hid); [discriminate|reflexivity]. }
    assert (Es : ce_state ce = CInit) by (destruct (ce_state ce); congruence).
    pose proof (init_terms _ _ _ _ _ Hc V Ece Es G3) as Emd.
    unfold answer_version in G5. rewrite G3 in G5. cbn [obind] in G5.
    apply obind_some in G5 as (y & G7 & G5). apply obind_some in G5 as ([] & G8 & G5). injection G5 as <-.
    apply guard_some in G8. apply andb_true_iff in G8 as (G8 & G9).
    apply same_terms_ok in G8 as (Y1 & Y2 & Y3 & Y4 & Y5).
    constructor; cbn [put_account put_hchan h_chans h_active h_accounts].
    + intros hid' hc. destruct (String.eqb_spec hid hid') as [<-|N].
      * rewrite upd_same. intro E. injection E as <-. cbn [hc_conn hc_version hc_account]. split; [|apply upd_same].
        exists (ce_conn ce). split; [exact M2|]. rewrite G7. f_equal. rewrite Emd in Y1, Y4, Y5. cbn in Y1, Y4, Y5.
        destruct y as [y1 y2 y3 y4 y5 y6]. cbn in *. congruence.
      * rewrite upd_other by exact N. intro E. destruct (T1 _ _ E) as (P1 & P2). split; [exact P1|].
        unfold upd. destruct (String.eqb_spec (md_host md) (hc_conn hc)) as [Ex|]; [|exact P2].
        rewrite <- Ex in P2. rewrite P2 in G6. apply String.eqb_eq in G6. now rewrite G6.
    + intros x a E. destruct (T2 _ _ E) as (hc & P1 & P2). exists hc. split; [|exact P2]. rewrite upd_other; [exact P1|congruence].
  - apply obind_some in H as (hc & Ehc & H). apply obind_some in H as ([] & G0 & H).
    apply obind_some in H as (ce & Ece & H). apply obind_some in H as ([] & G1 & H). apply obind_some in H as ([] & G2 & H).
    injection H as <-. constructor; cbn [put_active put_hchan h_chans h_active h_accounts].
    + intros hid' hc'. destruct (String.eqb_spec hid hid') as [<-|N]; [|rewrite upd_other by exact N; apply T1].
      rewrite upd_same. intro E. injection E as <-. exact (T1 _ _ Ehc).
    + intros x a. unfold upd at 1. destruct (String.eqb_spec (hc_conn hc) x) as [<-|N].
      * intro E. injection E as <-. exists (with_state HsOpen hc). rewrite upd_same. repeat split. discriminate.
      * intro E. destruct (T2 _ _ E) as (hc' & P1 & P2 & P3). exists hc'. split; [|auto].
        rewrite upd_other; [exact P1|]. congruence.
  - apply obind_some in H as (hc & Ehc & H). apply obind_some in H as ([] & G0 & H).
    apply obind_some in H as (ce & Ece & H). apply obind_some in H as ([] & G1 & H). apply obind_some in H as ([] & G2 & H).
    injection H as <-. constructor; cbn [put_active put_hchan h_chans h_active h_accounts].
    + intros hid' hc'. destruct (String.eqb_spec hid hid') as [<-|N]; [|rewrite upd_other by exact N; apply T1].
      rewrite upd_same. intro E. injection E as <-. exact (T1 _ _ Ehc).
    + intros x a E. destruct (T2 _ _ E) as (hc' & P1 & P2 & P3). destruct (String.eqb_spec hid a) as [<-|N].
      * exists (with_state HsClosed hc). rewrite upd_same. assert (hc' = hc) by congruence. subst. repeat split. discriminate.
      * exists hc'. rewrite upd_other by exact N. auto.
  - apply obind_some in H as (hc & Ehc & H). apply obind_some in H as ([] & G0 & H). apply guard_some in G0.
    apply obind_some in H as (p & Ep & H). apply obind_some in H as ([] & _ & H).
    apply obind_some in H as ([] & _ & H). apply obind_some in H as ([] & _ & H).
    apply obind_some in H as ([d ran] & Ed & H). apply obind_some in H as ([] & _ & H). cbv zeta in H. injection H as <-.
    constructor; cbn [h_chans h_active h_accounts]; destruct (hc_order hc) eqn:Eo; try assumption.
    + intros hid' hc'. destruct (String.eqb_spec hid hid') as [<-|N]; [|rewrite upd_other by exact N; apply T1].
      rewrite upd_same. intro E. injection E as <-. exact (T1 _ _ Ehc).
    + intros x a E. destruct (T2 _ _ E) as (hc' & P1 & P2 & P3). destruct (String.eqb_spec hid a) as [<-|N].
      * eexists. rewrite upd_same. split; [reflexivity|]. assert (hc' = hc) by congruence. subst. repeat split. discriminate.
      * exists hc'. rewrite upd_other by exact N. auto.
Qed.

Lemma reached_terms c k s : cfg_ok c -> reached c k s -> terms k (y_h s).
Proof.
  intros Hc R. induction R as [|s1 s2 R IH S].
  - constructor; cbn; discriminate.
  - pose proof (reached_inv c k s1 Hc R) as I. destruct S as [a h w b Hh Hg Ha|a w h Hw Ha]; [exact IH|].
    destruct (si_ws _ _ _ I _ Hw) as (V & _). cbn [y_h]. eapply hact_terms; eassumption.
Qed.
