(** * PropReason: property C88, why the contract refuses a relayed event. *)

From Verif Require Import Base Text Utf8 Json JsonCodec Types JsonTypes Store Metadata Proto ProtoFacts ProtoSound CosmosMsg QueryMsg PacketData Ownable
  Contract HostSpec Chain ChainSpec Trans Inv HistorySpec History Queries AnswerSpec AnswerFacts Schemas Enabled Witness
  PropOwner PropChannel PropAnswer PropRefusal.
From Coq Require Import ZifyBool ZifyN.
Local Open Scope string_scope.
Local Open Scope list_scope.
Local Open Scope N_scope.

(** ** Specification *)

(** What is wrong with the host's version [v] of a channel over [conn]. *)
Definition wrong_version (c : cfg) (conn v : string) (x : cerr) : Prop :=
  let in_metadata (P : metadata -> Prop) := exists md, from_json jc_metadata v = Some md /\ P md in
  match x with
  | EUnknownDataType t => from_json jc_metadata v = None /\ t = "cannot unmarshal ICS-27 interchain accounts metadata"
  | EInvalidVersion expected actual => in_metadata (fun md => md_version md <> "ics27-1" /\ expected = "ics27-1" /\ actual = md_version md)
  | EInvalidConnection => in_metadata (fun md => md_controller md <> conn)
  | EUnsupportedPacketEncoding t => in_metadata (fun md => md_encoding md <> Protobuf /\ t = """proto3json""")
  | EUnsupportedTxType t => in_metadata (fun md => md_tx_type md <> "sdk_multi_msg" /\ t = md_tx_type md)
  | EInvalidIcaAddress => in_metadata (fun md => ~ account_address c (md_address md))
  | _ => False
  end.

(** Why the closing of [ch] is refused. *)
Inductive close_refusal (w : world) (ch : channel) : cerr -> Prop :=
| K_none : ask w get_channel = None -> close_refusal w ch EStd
| K_other ch' status : channel_reported w ch' status -> ch' <> ch -> close_refusal w ch EInvalidChannelInContractState
| K_closed : channel_reported w ch StClosed -> close_refusal w ch (EInvalidChannelStatus "STATE_OPEN" "STATE_CLOSED").

(** Why an acknowledgement of a packet sent with the queries [qs] is refused. *)
Inductive ack_refusal (qs : list query_request) (ack : string) : cerr -> Prop :=
| K_no_ack : from_json jc_ack ack = None -> ack_refusal qs ack EStd
| K_no_data res : from_json jc_ack ack = Some (AckResult res) -> qs <> [] ->
    pb_decode h_tx_msg_data res = None -> ack_refusal qs ack EProstDecode
| K_no_response res legacy : from_json jc_ack ack = Some (AckResult res) -> qs <> [] ->
    pb_decode h_tx_msg_data res = Some [legacy; []] -> ack_refusal qs ack EStd
| K_no_answer res legacy l url value : from_json jc_ack ack = Some (AckResult res) -> qs <> [] ->
    pb_decode h_tx_msg_data res = Some [legacy; l ++ [VMsg [url; [VStr value]]]] ->
    pb_decode h_query_safe_response value = None -> ack_refusal qs ack EProstDecode.

(** ** C88 *)

Lemma reports c w s : cfg_ok c -> visited c w -> w_store w = Some s ->
  (exists st, st_state s = Some st) /\ flag (st_allow_open s) = false /\ flag (st_allow_close s) = false /\
  match st_channel s with
  | None => ask w get_channel = None
  | Some cs => channel_reported w (cst_channel cs) (cst_status cs) /\ (cst_status cs = StOpen \/ cst_status cs = StClosed)
  end.
Proof.
  intros Hc V Hs.
  assert (Hl : w_log w <> []). { intro E. apply (store_log c w Hc V) in E. congruence. }
  split; [exact (state_some c w s Hc V Hs)|]. destruct (visited_base c w Hc V) as [_ B]. destruct (B s Hs) as (B1 & B2 & _).
  split; [exact B1|]. split; [exact B2|].
  pose proof (il_rec _ (visited_log c w Hc V) _ Hs) as RR. pose proof (ask_channel c w Hc V Hl) as Q.
  rewrite RR. unfold recorded_state in *. destruct (recorded (w_log w)) as [[ch b]|]; cbn [option_map]; [|exact Q].
  cbn [cst_channel cst_status]. split; [exact Q|]. destruct b; auto.
Qed.

(** Nobody else's opening or closing is ever considered: the error is always
    the same, whatever the channel. Steps of the other side's handshake and
    packets for the contract abort. *)
Theorem C88_never : forall c w s ch v p relayer, cfg_ok c -> visited c w -> w_store w = Some s ->
  ibc_channel_open (c_api c) s (MOpenInit ch) = Err EChannelOpenInitNotAllowed /\
  ibc_channel_close s (MCloseInit ch) = Err EChannelCloseInitNotAllowed /\
  ibc_channel_open (c_api c) s (MOpenTry ch v) = Panic /\
  ibc_channel_connect (c_api c) s (MOpenConfirm ch) = Panic /\
  ibc_packet_receive s p relayer = Panic.
Proof.
  intros c w s ch v p relayer Hc V Hs. destruct (reports c w s Hc V Hs) as (_ & B1 & B2 & _).
  cbn [ibc_channel_open ibc_channel_close]. unfold on_open_init, on_close_init. rewrite B1, B2. repeat split.
Qed.

Lemma address_wrong c x : validate_ica_address (c_api c) x <> Ok tt -> ~ account_address c x.
Proof.
  intros H (_ & L & l & E & F). apply H. unfold validate_ica_address. rewrite E.
  assert (E1 : (128 <? slen x) = false) by (apply N.ltb_ge; exact L). rewrite E1. cbn [orb].
  assert (E2 : forallb (is_alnum (c_api c)) l = true).
  { apply forallb_forall. rewrite Forall_forall in F. intros y Hy. specialize (F y Hy). revert F.
    unfold alphanumeric, is_alnum, between. destruct (y <? 128) eqn:L1; intro F; [lia|].
    destruct F as [F|[F|[F|[_ F]]]]; [lia|lia|lia|exact F]. }
  now rewrite E2.
Qed.

(** The end of the handshake: the error names something that is wrong with the
    host's version. *)
Theorem C88_open_ack : forall c w s ch v, cfg_ok c -> visited c w -> w_store w = Some s ->
  match ibc_channel_connect (c_api c) s (MOpenAck ch v) with
  | Ok _ => e_port (ch_endpoint ch) <> "icahost" /\ forall x, ~ wrong_version c (ch_connection ch) v x
  | Err EInvalidControllerPort => e_port (ch_endpoint ch) = "icahost"
  | Err x => wrong_version c (ch_connection ch) v x
  | Panic => False
  end.
Proof.
  intros c w s ch v Hc V Hs. destruct (reports c w s Hc V Hs) as ((st & S) & _).
  pose proof (C09_open_ack_any_store c s ch v) as [A _]. revert A.
  cbn [ibc_channel_connect]. unfold on_open_ack. rewrite S. cbn [load of_option bindo].
  destruct (String.eqb_spec (e_port (ch_endpoint ch)) HOST_PORT_ID) as [Ep|Ep]; [intros _; exact Ep|].
  unfold metadata_from_string. destruct (from_json jc_metadata v) as [md|] eqn:Ev; cbn [of_option bindo]; [|intros _; split; [exact Ev|reflexivity]].
  intro A.
  unfold validate_metadata in *.
  destruct (String.eqb_spec (md_version md) ICA_VERSION) as [E1|E1]; cbn [negb bindo] in *; [|exists md; split; [exact Ev|split; [exact E1|auto]]].
  destruct (String.eqb_spec (md_controller md) (ch_connection ch)) as [E2|E2]; cbn [negb bindo] in *; [|exists md; split; [exact Ev|exact E2]].
  destruct (md_encoding md) eqn:E3; cbn [negb bindo] in *; try (exists md; split; [exact Ev|rewrite E3; split; [discriminate|reflexivity]]).
  destruct (sempty (md_address md)) eqn:E4; cbn [negb bindo] in *.
  - destruct (String.eqb_spec (md_tx_type md) SDK_MULTI_MSG) as [E5|E5]; cbn [negb bindo] in *; exists md; (split; [exact Ev|]).
    + destruct (md_address md); [|discriminate]. intros (N & _). now apply N.
    + split; [exact E5|reflexivity].
  - pose proof (address_wrong c (md_address md)) as W. revert A W.
    assert (Eo : validate_ica_address (c_api c) (md_address md) = Ok tt \/ validate_ica_address (c_api c) (md_address md) = Err EInvalidIcaAddress)
      by (unfold validate_ica_address; destruct (_ || _); auto).
    destruct Eo as [Eo|Eo]; rewrite Eo; cbn [bindo].
    + destruct (String.eqb_spec (md_tx_type md) SDK_MULTI_MSG) as [E5|E5]; cbn [negb bindo]; intros A _;
        [|exists md; split; [exact Ev|split; [exact E5|reflexivity]]].
      assert (Ag : agreed_version c (ch_connection ch) md).
      { destruct A as [A _]. destruct A as (_ & _ & md' & M & Ag); [destruct (cs_callback st); eauto|]. now injection M as <-. }
      assert (G : forall x, ~ wrong_version c (ch_connection ch) v x).
      { destruct Ag as (A1 & A2 & A3 & A4 & A5). intros x Hx. unfold wrong_version in Hx.
        destruct x; first [exact Hx | destruct Hx as [Hx _]; rewrite Ev in Hx; discriminate Hx |
          destruct Hx as (md' & M & Hx); rewrite Ev in M; injection M as <-; (exact (Hx A5) || congruence || (destruct Hx as [Hx _]; apply Hx; assumption) || (destruct Hx as [Hx _]; congruence))]. }
      destruct (cs_callback st); split; [exact Ep|exact G|exact Ep|exact G].
    + intros _ W. exists md. split; [exact Ev|]. apply W. discriminate.
Qed.

(** Closing by the other side. *)
Theorem C88_close_confirm : forall c w s ch, cfg_ok c -> visited c w -> w_store w = Some s ->
  ibc_channel_close s (MCloseConfirm ch) <> Panic /\
  forall x, ibc_channel_close s (MCloseConfirm ch) = Err x <-> close_refusal w ch x.
Proof.
  intros c w s ch Hc V Hs. destruct (reports c w s Hc V Hs) as (_ & _ & _ & R).
  cbn [ibc_channel_close]. unfold on_close_confirm, close_recorded.
  assert (U : forall ch1 s1 ch2 s2, channel_reported w ch1 s1 -> channel_reported w ch2 s2 -> ch1 = ch2 /\ s1 = s2).
  { intros ch1 s1 ch2 s2 (t1 & A1 & D1) (t2 & A2 & D2). rewrite A1 in A2. injection A2 as <-.
    rewrite D1 in D2. now injection D2. }
  assert (N : forall ch1 s1, channel_reported w ch1 s1 -> ask w get_channel = None -> False).
  { intros ch1 s1 (t1 & A1 & _) E. congruence. }
  destruct (st_channel s) as [[ch0 status]|]; cbn [load of_option bindo cst_channel cst_status] in *.
  - destruct R as [R Rs]. destruct (channel_eqb ch0 ch) eqn:Ec; cbn [negb].
    + apply channel_eqb_spec in Ec as ->. unfold is_open. cbn [cst_status].
      destruct Rs as [-> | ->]; cbn [negb]; (split; [discriminate|]); intro x; (split; [intro E|intros [E|ch' st' E Ne|E]]);
        try discriminate E; try (exfalso; exact (N _ _ R E)); try (exfalso; exact (Ne (proj1 (U _ _ _ _ E R))));
        try (pose proof (proj2 (U _ _ _ _ R E)); discriminate).
      * injection E as <-. exact (K_closed w ch R).
      * reflexivity.
    + assert (Ne : ch0 <> ch) by (intro E; apply channel_eqb_spec in E; congruence).
      split; [discriminate|]. intro x. split; [intro E|intros [E|ch' st' E Ne'|E]].
      * injection E as <-. exact (K_other w ch _ _ R Ne).
      * exfalso; exact (N _ _ R E).
      * reflexivity.
      * exfalso; exact (Ne (proj1 (U _ _ _ _ R E))).
  - split; [discriminate|]. intro x. split; [intro E|intros [E|ch' st' E Ne'|E]].
    + injection E as <-. exact (K_none w ch R).
    + reflexivity.
    + exfalso; exact (N _ _ E R).
    + exfalso; exact (N _ _ E R).
Qed.

(** A timeout. *)
Theorem C88_timeout : forall c w s p relayer, cfg_ok c -> visited c w -> w_store w = Some s ->
  ibc_packet_timeout s p relayer <> Panic /\
  forall x, ibc_packet_timeout s p relayer = Err x <-> x = EStd /\ ask w get_channel = None.
Proof.
  intros c w s p relayer Hc V Hs. destruct (reports c w s Hc V Hs) as ((st & S) & _ & _ & R).
  unfold ibc_packet_timeout. destruct (st_channel s) as [cs|]; cbn [load of_option bindo].
  - cbv zeta. unfold timeout_callback.
    assert (E : st_state (if is_ordered cs then set_channel (Some (close_cs cs)) s else s) = Some st)
      by (destruct (is_ordered cs); exact S).
    rewrite E. cbn [load of_option bindo]. destruct R as [(t & A & _) _].
    split; [destruct (cs_callback st); discriminate|]. intro x. split; [destruct (cs_callback st); discriminate|].
    intros [_ E']. congruence.
  - split; [discriminate|]. intro x. split; [intro E; injection E as <-; auto|]. intros [-> _]. reflexivity.
Qed.

Lemma last_snoc {A} (l : list A) a : last_opt (l ++ [a]) = Some a.
Proof. rewrite last_opt_rev, rev_app_distr. reflexivity. Qed.

Lemma nil_or_last {A} (l : list A) : l = [] \/ exists l' a, l = l' ++ [a].
Proof. destruct l as [|a l]; [now left|right]. destruct (@exists_last _ (a :: l)) as (l' & b & E); [discriminate|eauto]. Qed.

(** Reading the answers fails for the reasons above. *)
Lemma decode_why qs ack res : from_json jc_ack ack = Some (AckResult res) -> qs <> [] ->
  decode_resp_last (AckResult res) <> Panic /\
  forall x, decode_resp_last (AckResult res) = Err x <-> ack_refusal qs ack x.
Proof.
  intros Ea Hq. unfold decode_resp_last, to_tx_msg_data, pb_dec.
  destruct (pb_decode d_tx_msg_data res) as [m|] eqn:E; cbn [of_option bindo].
  2:{ split; [discriminate|]. intro x. split.
      - intro H. injection H as <-. exact (K_no_data qs ack res Ea Hq E).
      - intros [E0|res' E0 _ E1|res' l E0 _ E1|res' l r u v E0 _ E1 _]; rewrite Ea in E0; try discriminate E0;
          injection E0 as <-; [reflexivity| |]; change h_tx_msg_data with d_tx_msg_data in E1; congruence. }
  pose proof (pb_decode_ok _ _ _ E) as O. unfold d_tx_msg_data in O.
  apply ok_cons in O as (l0 & ? & -> & _ & O). apply ok_cons in O as (l & ? & -> & Hl & O).
  apply ok_nil in O. subst. apply ok_msgs in Hl as (anys & -> & Hl).
  rewrite (msgs_slot _ 1 anys) by reflexivity. rewrite last_opt_map.
  destruct (nil_or_last anys) as [-> |(anys' & a & ->)].
  - split; [discriminate|]. intro x. split.
    + intro H. injection H as <-. exact (K_no_response qs ack res l0 Ea Hq E).
    + intros [E0|res' E0 _ E1|res' l E0 _ E1|res' l r u v E0 _ E1 _]; rewrite Ea in E0; try discriminate E0;
        injection E0 as <-; change h_tx_msg_data with d_tx_msg_data in E1; rewrite E in E1; [discriminate|reflexivity|].
      injection E1 as _ E1. destruct r; discriminate.
  - rewrite last_snoc. cbn [option_map of_option bindo a_value].
    apply Forall_app in Hl as [_ Hl]. inversion Hl as [|? ? Ha _]; subst. unfold d_any, fstr, fbytes in Ha. shape.
    unfold decode_mqs_response, get_str, slot. cbn [nth]. unfold pb_dec. rewrite map_app in E. cbn [map] in E.
    destruct (pb_decode d_msg_module_query_safe_response _) as [m|] eqn:E2; cbn [of_option bindo].
    + split; [discriminate|]. intro y. split; [discriminate|].
      intros [E0|res' E0 _ E1|res' l E0 _ E1|res' l r u v E0 _ E1 E3]; rewrite Ea in E0; try discriminate E0;
        injection E0 as <-; change h_tx_msg_data with d_tx_msg_data in E1; rewrite E in E1; [discriminate| |].
      * injection E1 as _ E1. destruct (map VMsg anys'); discriminate.
      * injection E1 as _ E1. apply app_inj_tail in E1 as [_ E1]. injection E1 as _ <-.
        change h_query_safe_response with d_msg_module_query_safe_response in E3. congruence.
    + split; [discriminate|]. intro y. split.
      * intro H'. injection H' as <-. exact (K_no_answer qs ack res l0 _ _ _ Ea Hq E E2).
      * intros [E0|res' E0 _ E1|res' l E0 _ E1|res' l r u v E0 _ E1 E3]; rewrite Ea in E0; try discriminate E0;
          injection E0 as <-; change h_tx_msg_data with d_tx_msg_data in E1; rewrite E in E1; [discriminate| |reflexivity].
        injection E1 as _ E1. destruct (map VMsg anys'); discriminate.
Qed.

(** An acknowledgement of an outstanding packet. *)
Theorem C88_ack : forall c w s id n ack relayer e sender ms qs memo t p,
  cfg_ok c -> visited c w -> w_store w = Some s ->
  In (LSent e sender (XSendCosmosMsgs ms qs memo t) p) (w_log w) -> w_commit w id n = Some p ->
  ibc_packet_ack (c_api c) s ack p relayer <> Panic /\
  forall x, ibc_packet_ack (c_api c) s ack p relayer = Err x <-> ack_refusal qs ack x.
Proof.
  intros c w s id n ack relayer e sender ms qs memo t p Hc V Hs Hi Hp.
  destruct (reports c w s Hc V Hs) as ((st & S) & _).
  pose proof Hp as Hu. rewrite (ip_commit _ (inv_pkts _ _ (visited_inv c w Hc V))) in Hu.
  destruct (unresolved_at _ _ _ _ Hu) as [U1 U2].
  pose proof (ip_pending _ (inv_pkts _ _ (visited_inv c w Hc V)) _ Hs (e_chan (p_src p)) (p_seq p)) as Pn.
  rewrite <- U1, <- U2 in Hu.
  destruct (sent_queries _ _ _ _ _ _ _ _ _ _ (visited_hist c w Hc V) Hi Hu) as [_ Eq]. rewrite Eq in Pn. clear Eq Hu.
  unfold ibc_packet_ack. destruct (from_json jc_ack ack) as [d|] eqn:Ea; cbn [of_option bindo].
  2:{ split; [discriminate|]. intro x. split; [intro E; injection E as <-; exact (K_no_ack qs ack Ea)|].
      intros [E0|res' E0 _ E1|res' l E0 _ E1|res' l r u v E0 _ E1 E3]; [reflexivity|congruence|congruence|congruence]. }
  destruct d as [res|err].
  - unfold ack_success. rewrite Pn. destruct qs as [|q qs]; cbn [paths_of option_map otranspose bindo].
    + cbn [set_pending st_state]. rewrite S. cbn [load of_option bindo]. split; [discriminate|]. intro x. split; [discriminate|].
      intros [E0|res' E0 H E1|res' l E0 H E1|res' l r u v E0 H E1 E3]; [congruence|destruct (H eq_refl)..].
    + destruct (decode_why (q :: qs) ack res Ea ltac:(discriminate)) as [D1 D2].
      destruct (decode_resp_last (AckResult res)) as [r|y|]; cbn [bindo otranspose].
      * cbn [set_pending st_state]. rewrite S. cbn [load of_option bindo]. split; [discriminate|]. intro x. split; [discriminate|].
        intro H. apply D2 in H. discriminate.
      * split; [discriminate|]. intro x. rewrite <- (D2 x). split; intro H; injection H as <-; reflexivity.
      * congruence.
  - unfold ack_error. rewrite S. cbn [load of_option bindo]. split; [discriminate|]. intro x. split; [discriminate|].
    intros [E0|res' E0 H E1|res' l E0 H E1|res' l r u v E0 H E1 E3]; congruence.
Qed.

(** A case for each reason: a packet with a query is outstanding on an open
    channel. *)
Definition md88 (enc : tx_encoding) (addr : string) : metadata :=
  Metadata "ics27-1" "connection-0" "connection-1" addr enc "sdk_multi_msg".
Definition v88 (md : metadata) : string := to_json jc_metadata md.
Definition ch88 : channel :=
  match st_channel (match w_store w26 with Some s => s | None => empty_store end) with
  | Some cs => cst_channel cs
  | None => Channel (Endpoint "" "") (Endpoint "" "") Ordered "" ""
  end.
Example C88_case :
  (exists s, visited cfg0 w26 /\ w_store w26 = Some s) /\ w_commit w26 "channel-0" 1 = Some p26 /\
  In (LSent (Env 11 2000 "controller") "owner" (send0 [bank0] [query0]) p26) (w_log w26) /\
  channel_reported w26 ch88 StOpen /\
  close_refusal w26 (Channel (Endpoint "wasm.controller" "channel-9") (Endpoint "icahost" "channel-7") Unordered "" "connection-0")
    EInvalidChannelInContractState /\
  ack_refusal [query0] "" EStd /\
  ack_refusal [query0] (to_json jc_ack (AckResult "")) EStd /\
  ack_refusal [query0] (to_json jc_ack (AckResult "x")) EProstDecode /\
  ack_refusal [query0] (to_json jc_ack (AckResult (pb_encode h_tx_msg_data [[]; [VMsg [[VStr ""]; [VStr "x"]]]]))) EProstDecode /\
  wrong_version cfg0 "connection-0" "" (EUnknownDataType "cannot unmarshal ICS-27 interchain accounts metadata") /\
  wrong_version cfg0 "connection-2" (v88 (md88 Protobuf "cosmos1acc")) EInvalidConnection /\
  wrong_version cfg0 "connection-0" (v88 (md88 Proto3Json "cosmos1acc")) (EUnsupportedPacketEncoding """proto3json""") /\
  wrong_version cfg0 "connection-0" (v88 (md88 Protobuf "")) EInvalidIcaAddress.
Proof.
  split; [eexists; split; [apply world_visited| vm_compute; reflexivity]|]. split; [vm_compute; reflexivity|].
  split; [vm_compute; left; reflexivity|].
  assert (R : channel_reported w26 ch88 StOpen) by (apply channel_reported_by; vm_compute; reflexivity).
  split; [exact R|]. split; [apply (K_other _ _ _ _ R); vm_compute; discriminate|].
  split; [apply K_no_ack; vm_compute; reflexivity|].
  split; [apply (K_no_response _ _ "" []); [vm_compute; reflexivity|discriminate| vm_compute; reflexivity]|].
  split; [apply (K_no_data _ _ "x"); [vm_compute; reflexivity|discriminate| vm_compute; reflexivity]|].
  split; [eapply (K_no_answer _ _ _ [] [] [VStr ""] "x"); [vm_compute; reflexivity|discriminate| vm_compute; reflexivity| vm_compute; reflexivity]|].
  split; [split; [vm_compute; reflexivity|reflexivity]|].
  split; [exists (md88 Protobuf "cosmos1acc"); split; [vm_compute; reflexivity|discriminate]|].
  split; [exists (md88 Proto3Json "cosmos1acc"); split; [vm_compute; reflexivity|split; [discriminate|reflexivity]]|].
  exists (md88 Protobuf ""); split; [vm_compute; reflexivity|]. intros (N & _). now apply N.
Qed.

Print Assumptions C88_never.
Print Assumptions C88_open_ack.
Print Assumptions C88_close_confirm.
Print Assumptions C88_timeout.
Print Assumptions C88_ack.
