(** * HostReach: facts about reached systems, and computed ones. *)

From Verif Require Import Base Utf8 Proto Json JsonCodec Types JsonTypes Store Contract HostSpec AnswerSpec Chain ChainSpec
  Trans Inv HistorySpec History HistFacts Queries PropChannel PropPacket PropFlow PropAnswer Host HostInv Witness.
From Coq Require Import ZifyBool ZifyN.
Local Open Scope string_scope.
Local Open Scope list_scope.
Local Open Scope N_scope.

(** ** Facts about systems *)

Lemma follows_later c k s s' : cfg_ok c -> sys_inv c k s -> follows c k s s' ->
  later c (y_w s) (y_w s') /\ hlater (y_h s) (y_h s').
Proof.
  intros Hc I F. induction F as [|s1 s2 F [IH1 IH2] St]; [split; [constructor|apply hlater_refl]|].
  pose proof (follows_inv c k s s1 Hc I F) as I1. destruct St as [a h w b Hh G A|a w h Hw A]; cbn [y_w y_h].
  - split; [eapply later_act; eassumption|exact IH2].
  - split; [exact IH1|]. destruct (si_ws _ _ _ I1 _ Hw) as [Vw _]. destruct (si_hs _ _ _ I1 _ (si_h _ _ _ I1)) as [Hi _].
    eapply hlater_trans; [exact IH2|]. eapply hact_next; eassumption.
Qed.

Lemma follows_trans c k s1 s2 s3 : follows c k s1 s2 -> follows c k s2 s3 -> follows c k s1 s3.
Proof. intros H. induction 1; [exact H|]. eapply follows_step; eassumption. Qed.

Lemma reached_follows c k s s' : reached c k s -> follows c k s s' -> reached c k s'.
Proof. apply follows_trans. Qed.

Lemma log_grows c k s s' x : cfg_ok c -> sys_inv c k s -> follows c k s s' ->
  In x (w_log (y_w s)) -> In x (w_log (y_w s')).
Proof.
  intros Hc I F Hx. destruct (follows_later _ _ _ _ Hc I F) as [L _].
  destruct (later_log c _ _ Hc (si_w _ _ _ I) L) as [new ->]. apply in_or_app. now right.
Qed.
Lemma host_log_grows c k s s' x : cfg_ok c -> sys_inv c k s -> follows c k s s' ->
  In x (h_log (y_h s)) -> In x (h_log (y_h s')).
Proof.
  intros Hc I F Hx. destruct (follows_later _ _ _ _ Hc I F) as [_ L].
  destruct (hl_log _ _ L) as (new & -> & _). apply in_or_app. now right.
Qed.

Lemma opened_app c l1 l2 id ch : hist c (l1 ++ l2) -> opened l2 id = Some ch -> opened (l1 ++ l2) id = Some ch.
Proof.
  intros H. assert (A : always (fun x r => match x with
    | LChanOpen ch => opened r (e_chan (ch_endpoint ch)) = None | _ => True end) (l1 ++ l2)).
  { revert H. apply hist_always. intros l n1 x n2 _ B. destruct x; try exact I.
    destruct B as [B|B]; [apply user_local in B; rewrite Forall_forall in B; exfalso; eapply (B (LChanOpen ch0)), in_or_app; right; now left|].
    remember (n1 ++ LChanOpen ch0 :: n2) as new eqn:E. destruct B;
      repeat match goal with X : callback _ _ _ |- _ => apply callback_quiet in X as [->|(? & ? & ->)] end;
      cbn [app] in E; repeat (destruct n1 as [|? n1]; [injection E; intros; subst; try discriminate; cbn [app]|cbn [app] in E; injection E; clear E; intros E ?]);
      try (match goal with X : ch_endpoint ?c1 = _ |- context [ch_endpoint ?c1] => rewrite X; cbn [e_chan]; assumption end);
      try discriminate; try (now destruct n1). }
  clear H. induction l1 as [|x l1 IH]; [auto|]. destruct A as [A1 A2]. intro H. specialize (IH A2 H).
  destruct x; cbn [app opened]; auto. destruct (on_chan id ch0) eqn:E; [|exact IH].
  unfold on_chan in E. apply String.eqb_eq in E. subst id. congruence.
Qed.

(** What a sent packet is. *)
Lemma sent_item c w e sender m p : cfg_ok c -> visited c w -> In (LSent e sender m p) (w_log w) ->
  exists l1 l2 ms qs memo t ch md anys,
    m = XSendCosmosMsgs ms qs memo t /\
    w_log w = l1 ++ LSent e sender m p :: LExecuted e sender m :: l2 /\
    owner_of l2 = Some sender /\ hist c l2 /\
    opened (w_log w) (e_chan (p_src p)) = Some ch /\ p_src p = ch_endpoint ch /\ p_dest p = ch_counterparty ch /\
    from_json jc_metadata (ch_version ch) = Some md /\
    p_timeout p = Timeout None (Some (env_time e + unwrap_or t 600 * 10 ^ 9)) /\
    host_packet (p_data p) = Some (anys, unwrap_or memo "") /\ packet_spec (md_address md) ms qs anys.
Proof.
  intros Hc V Hi. apply in_split in Hi as (l1 & l2 & E). pose proof (visited_hist c w Hc V) as H.
  destruct (hist_item c _ _ _ _ H E) as (l0 & n1 & n2 & H0 & B & ->).
  destruct B as [B|B].
  - remember (n1 ++ LSent e sender m p :: n2) as new eqn:En. destruct B;
      try (destruct n1 as [|? [|? [|]]]; discriminate En).
    destruct n1 as [|x n1]; [|destruct n1 as [|? [|]]; cbn in En; discriminate En].
    cbn [app] in En. injection En as <- <- <- <- <-.
    exists l1, l0, ms, qs, memo, t, ch, md, anys. cbn [app] in E.
    assert (Ho : opened (w_log w) (e_chan (p_src p0)) = Some ch).
    { rewrite E in H |- *. match goal with X : p_src p0 = _ |- _ => rewrite X end. 
      replace (l1 ++ LSent e0 sender0 (XSendCosmosMsgs ms qs memo t) p0 :: LExecuted e0 sender0 (XSendCosmosMsgs ms qs memo t) :: l0)
        with ((l1 ++ [LSent e0 sender0 (XSendCosmosMsgs ms qs memo t) p0; LExecuted e0 sender0 (XSendCosmosMsgs ms qs memo t)]) ++ l0)
        in * by (rewrite <- app_assoc; reflexivity).
      eapply opened_app; [exact H|]. now apply last_opened_opened. }
    repeat (split; [first [assumption|reflexivity]|]). assumption.
  - exfalso. remember (n1 ++ LSent e sender m p :: n2) as new eqn:En. destruct B;
      repeat match goal with X : callback _ _ _ |- _ => apply callback_quiet in X as [->|(? & ? & ->)] end;
      destruct n1 as [|? [|? [|? [|]]]]; discriminate En.
Qed.

(** What a callback is about. *)
Lemma call_item c w l1 addr msg l2 cb : cfg_ok c -> visited c w -> w_log w = l1 ++ LCall addr msg :: l2 ->
  from_json jc_receiver msg = Some cb ->
  match cb with
  | CbOpenAck ch acc _ => exists md, opened (w_log w) (e_chan (ch_endpoint ch)) = Some ch /\
      from_json jc_metadata (ch_version ch) = Some md /\ md_address md = acc
  | CbAck d p relayer _ => exists ack, In (LAck p ack relayer) (w_log w) /\ from_json jc_ack ack = Some d
  | CbTimeout p relayer => In (LTimeout p relayer) (w_log w)
  end.
Proof.
  intros Hc V E Hm. pose proof (visited_hist c w Hc V) as H.
  destruct (hist_item c _ _ _ _ H E) as (l0 & n1 & n2 & H0 & B & ->).
  destruct B as [B|B].
  { exfalso. remember (n1 ++ LCall addr msg :: n2) as new eqn:En. destruct B;
      destruct n1 as [|? [|? [|]]]; discriminate En. }
  assert (W : forall x, In x n2 -> In x (w_log w)).
  { intros x Hx. rewrite E. apply in_or_app. right. right. apply in_or_app. now left. }
  assert (Q : forall mm r, jval jc_receiver mm ->
    (match callback_of l0 with Some a => [LCall a (to_json jc_receiver mm)] | None => [] end) ++ r = n1 ++ LCall addr msg :: n2 ->
    forallb (fun x => match x with LCall _ _ => false | _ => true end) r = true ->
    cb = mm /\ n2 = r).
  { intros mm r J Q F. rewrite forallb_forall in F.
    assert (NI : forall n, r = n ++ LCall addr msg :: n2 -> False).
    { intros n ->. enough (false = true) by discriminate. apply (F (LCall addr msg)), in_or_app. right. now left. }
    destruct (callback_of l0) as [a|]; cbn [app] in Q; [|exfalso; eauto].
    destruct n1 as [|y n1]; cbn [app] in Q; [|injection Q as _ Q; exfalso; eauto].
    injection Q as _ <- <-. rewrite json_roundtrip in Hm by first [exact jc_receiver_ok|exact J]. split; [congruence|reflexivity]. }
  remember (n1 ++ LCall addr msg :: n2) as new eqn:En.
  destruct B; try match goal with X : callback _ _ _ |- _ => destruct X as [J ->] end;
    try (exfalso; destruct n1 as [|? [|]]; discriminate En);
    (destruct (Q _ _ J eq_refl eq_refl) as [-> ->]).
  - exists md. split; [|split; [assumption|reflexivity]]. rewrite E in H |- *.
    replace (l1 ++ LCall addr msg :: [LChanOpen ch] ++ l0) with ((l1 ++ [LCall addr msg]) ++ LChanOpen ch :: l0) in *
      by (rewrite <- app_assoc; reflexivity).
    eapply opened_app; [exact H|]. cbn [opened]. unfold on_chan. now rewrite String.eqb_refl.
  - exists ack. split; [|assumption]. apply W. right. now left.
  - apply W. now left.
Qed.

(** ** A computed system, for the concrete cases *)

Definition endpoint_eqb (a b : endpoint) : bool := String.eqb (e_port a) (e_port b) && String.eqb (e_chan a) (e_chan b).
Definition hstate_eqb (a b : hstate) : bool :=
  match a, b with HsTry, HsTry | HsOpen, HsOpen | HsClosed, HsClosed => true | _, _ => false end.
Definition provable (c : cfg) (a : action) (w : world) (h : host) : bool :=
  match a with
  | AOpenAck id cp version =>
      match w_chans w id, h_chans h cp with
      | Some ce, Some hc => hstate_eqb (hc_state hc) HsTry && order_eqb (hc_order hc) (ce_order ce) &&
          endpoint_eqb (hc_cp hc) (Endpoint (port c) id) && String.eqb (hc_version hc) version
      | _, _ => false
      end
  | ACloseConfirm _ => false
  | AAck id n ack _ =>
      match w_chans w id with
      | Some ce => match h_ack h (e_chan (ce_cp ce)) n with Some x => String.eqb x ack | None => false end
      | None => false
      end
  | ATimeout id n _ =>
      match w_chans w id, w_commit w id n with
      | Some ce, Some p =>
          match ce_order ce with
          | Unordered => negb (h_receipt h (e_chan (ce_cp ce)) n)
          | Ordered => match h_chans h (e_chan (ce_cp ce)) with Some hc => hc_next hc <=? n | None => false end
          end && elapsed (p_timeout p) (h_clock h)
      | _, _ => false
      end
  | _ => true
  end.
Lemma provable_ok c a w h : provable c a w h = true -> genuine c a w h.
Proof.
  destruct a as [ | | | | |id cp_chan version| | |id|id n ack relayer|id n relayer| ]; cbn [provable genuine]; auto; try discriminate.
  - destruct (w_chans w id) as [ce|]; [|discriminate]. destruct (h_chans h cp_chan) as [hc|]; [|discriminate].
    intro H. apply andb_prop in H as [H H4]. apply andb_prop in H as [H H3]. apply andb_prop in H as [H1 H2].
    exists ce, hc. repeat split.
    + now destruct (hc_state hc).
    + now destruct (hc_order hc), (ce_order ce).
    + unfold endpoint_eqb in H3. apply andb_prop in H3 as [H3 H5]. apply String.eqb_eq in H3, H5.
      destruct (hc_cp hc) as [x y]. cbn in H3, H5. now subst.
    + now apply String.eqb_eq in H4.
  - destruct (w_chans w id) as [ce|]; [|discriminate]. destruct (h_ack h (e_chan (ce_cp ce)) n) eqn:E; [|discriminate].
    intro H. apply String.eqb_eq in H. subst. eauto.
  - destruct (w_chans w id) as [ce|]; [|discriminate]. destruct (w_commit w id n) as [p|]; [|discriminate].
    intro H. apply andb_prop in H as [H1 H2]. exists ce, p. do 2 (split; [reflexivity|]). split; [|now left].
    destruct (ce_order ce).
    + destruct (h_chans h (e_chan (ce_cp ce))) as [hc|]; [|discriminate]. exists hc. split; [reflexivity|]. now apply N.leb_le.
    + now destruct (h_receipt h (e_chan (ce_cp ce)) n).
Qed.

(** Actions of either chain, each proved against the other chain's present state. *)
Definition srun1 (c : cfg) (k : hcfg) (x : action + haction) (s : sys) : sys :=
  match x with
  | inl a => if provable c a (y_w s) (y_h s)
             then match act c a (y_w s) with Some (w, _) => Sys w (w :: y_ws s) (y_h s) (y_hs s) | None => s end
             else s
  | inr a => match hact c k a (y_w s) (y_h s) with Some h => Sys (y_w s) (y_ws s) h (h :: y_hs s) | None => s end
  end.
Fixpoint srun (c : cfg) (k : hcfg) (l : list (action + haction)) (s : sys) : sys :=
  match l with [] => s | x :: r => srun c k r (srun1 c k x s) end.
Lemma srun1_follows c k x s : In (y_w s) (y_ws s) /\ In (y_h s) (y_hs s) ->
  follows c k s (srun1 c k x s) /\ In (y_w (srun1 c k x s)) (y_ws (srun1 c k x s)) /\
  In (y_h (srun1 c k x s)) (y_hs (srun1 c k x s)).
Proof.
  intros [H1 H2]. destruct x as [a|a]; cbn [srun1].
  - destruct (provable c a (y_w s) (y_h s)) eqn:P; [|split; [constructor|auto]].
    destruct (act c a (y_w s)) as [[w b]|] eqn:A; [|split; [constructor|auto]].
    cbn [y_w y_ws y_h y_hs]. split; [|split; [left; reflexivity|exact H2]]. eapply follows_step; [constructor|]. eapply S_controller; [exact H2|apply provable_ok; exact P|exact A].
  - destruct (hact c k a (y_w s) (y_h s)) as [h|] eqn:A; [|split; [constructor|auto]].
    cbn [y_w y_ws y_h y_hs]. split; [|split; [exact H1|left; reflexivity]]. eapply follows_step; [constructor|]. eapply S_host; [exact H1|exact A].
Qed.
Lemma srun_follows c k l : forall s, In (y_w s) (y_ws s) /\ In (y_h s) (y_hs s) ->
  follows c k s (srun c k l s).
Proof.
  induction l as [|x l IH]; intros s H; [constructor|]. cbn [srun].
  destruct (srun1_follows c k x s H) as [F G]. eapply follows_trans; [exact F|]. now apply IH.
Qed.
Lemma srun_app c k l l' : forall s, srun c k (l ++ l') s = srun c k l' (srun c k l s).
Proof. induction l as [|x l IH]; intro s; [reflexivity|]. apply IH. Qed.
Lemma srun_here c k l : forall s, In (y_w s) (y_ws s) /\ In (y_h s) (y_hs s) ->
  In (y_w (srun c k l s)) (y_ws (srun c k l s)) /\ In (y_h (srun c k l s)) (y_hs (srun c k l s)).
Proof. induction l as [|x l IH]; intros s H; [exact H|]. apply IH. apply (srun1_follows c k x s H). Qed.
Lemma srun_reached c k l : reached c k (srun c k l init_sys).
Proof. apply srun_follows. split; now left. Qed.

Definition k0 : hcfg := HCfg (fun u b => option_map host_signer (host_decode u b))
  (fun x => if String.eqb x "connection-0" then Some "connection-1" else None).
Lemma k0_ok : hcfg_ok k0.
Proof.
  split.
  - intros u b m H. cbn. now rewrite H.
  - intros a b x. cbn. destruct (String.eqb_spec a "connection-0"), (String.eqb_spec b "connection-0"); congruence.
Qed.

Definition on_contract (t : tx) : action + haction := inl (let (a, _) := t in a).
Definition resp0 : string * string := ("/cosmos.bank.v1beta1.MsgSendResponse", "").
(** The bank's answer to [query0]: 5 uatom. *)
Definition answer0 : string := pb_encode [m_ 1 h_coin] [[VMsg [ts "uatom"; ts "5"]]].
Definition result0 : string := result_bytes [] [resp0] (Some (42, [answer0])).
Definition ack_of (d : ack_data) : string := to_json jc_ack d.

(** The handshake; a request with one message and one query; its execution and acknowledgement. *)
Definition opened0 (o : order) : list (action + haction) :=
  [on_contract (inst (Some o) (Some "cb"));
   inr (HTryOpen "channel-7" "channel-0" (host_version "cosmos1acc"));
   on_contract (open_ack "channel-0" "channel-7" "cosmos1acc");
   inr (HConfirm "channel-7")].
Definition asked0 (o : order) := opened0 o ++ [on_contract (exec "owner" (send0 [bank0] [query0]) "")].
Definition done0 (o : order) := asked0 o ++
  [inr (HRecv "channel-7" 1 (Runs [] [resp0] (Some (42, [answer0]))) (ack_of (AckResult result0)))].
Definition told0 (o : order) := done0 o ++ [inl (AAck "channel-0" 1 (ack_of (AckResult result0)) "relayer")].
Definition sys0 (l : list (action + haction)) : sys := srun cfg0 k0 l init_sys.
Lemma sys0_reached l : reached cfg0 k0 (sys0 l).
Proof. apply srun_reached. Qed.

