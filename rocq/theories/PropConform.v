(** * PropConform: what fails, fails with a conforming host too.

    C13, C15, C30, C31, C52, C53: each refutation again, by a history of both
    chains in which the other chain is the host of [Host.v] and relayers can
    only prove what is true. *)

From Verif Require Import Base Utf8 Proto Json JsonCodec Types JsonTypes Store Contract CosmosMsg QueryMsg Metadata PacketData
  HostSpec AnswerSpec Chain ChainSpec Inv HistorySpec PropChannel PropAnswer Host HostInv Witness HostReach PropHost PropEnd.
Local Open Scope string_scope.
Local Open Scope list_scope.
Local Open Scope N_scope.

(** ** C13: an open channel is replaced *)

Definition both0 : list (action + haction) := firstn 5 two0.
Theorem C13_conforming_host_refuted : exists c k s id cp v h w' b ch ch' ce ce',
  cfg_ok c /\ hcfg_ok k /\ reached c k s /\
  In h (y_hs s) /\ genuine c (AOpenAck id cp v) (y_w s) h /\ act c (AOpenAck id cp v) (y_w s) = Some (w', b) /\
  channel_reported (y_w s) ch StOpen /\ channel_reported w' ch' StOpen /\
  e_chan (ch_endpoint ch) <> e_chan (ch_endpoint ch') /\
  w_chans w' (e_chan (ch_endpoint ch)) = Some ce /\ ce_state ce = COpen /\
  w_chans w' (e_chan (ch_endpoint ch')) = Some ce' /\ ce_state ce' = COpen.
Proof.
  exists cfg0, k0, (sys0 both0), "channel-1", "channel-8", (host_version "cosmos1acc"), (y_h (sys0 both0)),
    (y_w (sys0 (firstn 6 two0))). eexists _, _, _, _, _.
  split; [exact cfg0_ok|]. split; [exact k0_ok|]. split; [apply sys0_reached|].
  split; [exact (si_h _ _ _ (reached_inv _ _ _ cfg0_ok (sys0_reached both0)))|].
  split; [apply provable_ok; vm_compute; reflexivity|]. split; [vm_compute; reflexivity|].
  split; [apply channel_reported_by; vm_compute; reflexivity|]. split; [apply channel_reported_by; vm_compute; reflexivity|].
  split; [vm_compute; discriminate|]. split; [vm_compute; reflexivity|]. split; [reflexivity|].
  split; [vm_compute; reflexivity|reflexivity].
Qed.

(** ** C15: a channel recorded as closed is open *)

Theorem C15_conforming_host_refuted : exists c k s ch ce,
  cfg_ok c /\ hcfg_ok k /\ reached c k s /\ channel_reported (y_w s) ch StClosed /\
  w_chans (y_w s) (e_chan (ch_endpoint ch)) = Some ce /\ ce_state ce = COpen.
Proof.
  exists cfg0, k0, (sys0 stale0). eexists _, _. split; [exact cfg0_ok|]. split; [exact k0_ok|]. split; [apply sys0_reached|].
  split; [apply channel_reported_by; vm_compute; reflexivity|]. split; [vm_compute; reflexivity|reflexivity].
Qed.

(** ** C53: a channel comes back without a request *)

Definition gone0 : list (action + haction) :=
  [on_contract (inst (Some Ordered) (Some "cb"));
   on_contract (exec "owner" (XCreateChannel None) "channel-1");
   inr (HTryOpen "channel-7" "channel-0" (host_version "cosmos1acc"));
   on_contract (open_ack "channel-0" "channel-7" "cosmos1acc");
   inr (HConfirm "channel-7");
   on_contract (exec "owner" XCloseChannel "");
   inr (HCloseConfirm "channel-7")].
Definition back0 : list (action + haction) :=
  [inr (HTryOpen "channel-8" "channel-1" (host_version "cosmos1acc"));
   on_contract (open_ack "channel-1" "channel-8" "cosmos1acc")].
Theorem C53_conforming_host_refuted : exists c k s s' ch ch',
  cfg_ok c /\ hcfg_ok k /\ reached c k s /\ follows c k s s' /\ channel_reported (y_w s) ch StClosed /\
  open_requests (w_log (y_w s')) = open_requests (w_log (y_w s)) /\ channel_reported (y_w s') ch' StOpen.
Proof.
  exists cfg0, k0, (sys0 gone0), (srun cfg0 k0 back0 (sys0 gone0)). eexists _, _.
  split; [exact cfg0_ok|]. split; [exact k0_ok|]. split; [apply sys0_reached|].
  split; [apply srun_follows; apply srun_here; split; now left|].
  split; [apply channel_reported_by; vm_compute; reflexivity|]. split; [vm_compute; reflexivity|].
  apply channel_reported_by. vm_compute. reflexivity.
Qed.

(** ** C30, C31: the host refuses a request *)

Definition denied0 (qs : list query_request) : list (action + haction) := opened0 Unordered ++
  [on_contract (exec "owner" (send0 [bank0] qs) "");
   inr (HRecv "channel-7" 1 (Fails "ABCI code: 5") (ack_of (AckError "ABCI code: 5")));
   inl (AAck "channel-0" 1 (ack_of (AckError "ABCI code: 5")) "relayer")].

Theorem C30_conforming_host_refuted : exists c k s e sender ms memo t p addr msg d relayer r,
  cfg_ok c /\ hcfg_ok k /\ reached c k s /\ In (LSent e sender (XSendCosmosMsgs ms [] memo t) p) (w_log (y_w s)) /\
  In (LCall addr msg) (w_log (y_w s)) /\
  from_json jc_receiver msg = Some (CbAck d p relayer (Some r)).
Proof.
  exists cfg0, k0, (sys0 (denied0 [])). eexists _, _, _, _, _, _, _, _, _, _, _.
  split; [exact cfg0_ok|]. split; [exact k0_ok|]. split; [apply sys0_reached|].
  split; [vm_compute; right; right; right; left; reflexivity|]. split; [vm_compute; left; reflexivity|].
  vm_compute. reflexivity.
Qed.

Theorem C31_conforming_host_refuted : exists c k s st p ack relayer,
  cfg_ok c /\ hcfg_ok k /\ reached c k s /\ w_store (y_w s) = Some st /\ In (LAck p ack relayer) (w_log (y_w s)) /\
  w_commit (y_w s) (e_chan (p_src p)) (p_seq p) = None /\ st_pending st (e_chan (p_src p)) (p_seq p) <> None.
Proof.
  exists cfg0, k0, (sys0 (denied0 [query0])), (match w_store (y_w (sys0 (denied0 [query0]))) with Some st => st | None => empty_store end).
  eexists _, _, _. split; [exact cfg0_ok|]. split; [exact k0_ok|]. split; [apply sys0_reached|].
  split; [vm_compute; reflexivity|]. split; [vm_compute; right; right; left; reflexivity|].
  split; [vm_compute; reflexivity|]. vm_compute. discriminate.
Qed.

(** ** C52: commission rates *)

Definition rates0 : list (action + haction) := opened0 Unordered ++
  [on_contract (exec "owner" (send0 [] [QStaking (QValidator "cosmosvaloper1x")]) "");
   inr (HRecv "channel-7" 1 (Runs [] [] (Some (77, [answer_bytes (HAValidator v52)]))) (ack_of (AckResult res52)));
   inl (AAck "channel-0" 1 (ack_of (AckResult res52)) "relayer")].
Theorem C52_conforming_host_refuted : exists c k s hid p account anys res h v addr msg relayer x,
  cfg_ok c /\ hcfg_ok k /\ reached c k s /\
  In (Ran hid p account anys res (Some (h, [answer_bytes (HAValidator v)]))) (h_log (y_h s)) /\ wf_hvalidator v /\
  In (LCall addr msg) (w_log (y_w s)) /\
  from_json jc_receiver msg = Some (CbAck (AckResult res) p relayer (Some (QRSuccess h [RStaking (RValidator (Some x))]))) /\
  ~ rates_exact v x.
Proof.
  exists cfg0, k0, (sys0 rates0). eexists _, _, _, _, _, 77, v52, _, _, _, _.
  split; [exact cfg0_ok|]. split; [exact k0_ok|]. split; [apply sys0_reached|].
  split; [vm_compute; left; reflexivity|]. split; [exact v52_ok|]. split; [vm_compute; left; reflexivity|].
  split; [vm_compute; reflexivity|]. intros [E _]. vm_compute in E. discriminate.
Qed.

Print Assumptions C13_conforming_host_refuted.
Print Assumptions C15_conforming_host_refuted.
Print Assumptions C53_conforming_host_refuted.
Print Assumptions C30_conforming_host_refuted.
Print Assumptions C31_conforming_host_refuted.
Print Assumptions C52_conforming_host_refuted.
