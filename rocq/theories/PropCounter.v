(** * PropCounter: properties C50 and C56, the example contract that collects
    callbacks. *)

From Verif Require Import Base Text Utf8 Base64 Proto Json JsonCodec Types JsonTypes Store JsonSound HostSpec AnswerSpec EntryFacts
  Chain ChainSpec Trans Inv HistorySpec History Queries HistFacts Witness PropPacket PropAnswer CallSpec CallFacts CounterContract.
From Coq Require Import ZifyBool ZifyN.
Local Open Scope string_scope.
Local Open Scope list_scope.
Local Open Scope N_scope.

Lemma jc_counter_ok : jcodec_ok jc_counter. Proof. unfold jc_counter. jmap. Qed.
Lemma jc_c_execute_msg_sound : jsound jc_c_execute_msg. Proof. exact jc_receiver_sound. Qed.

(** The contract is created and then called with any messages; calls that fail
    change nothing. *)
Definition c_try (s : option counter) (raw : string) : option counter :=
  match c_call s raw with Some s => s | None => s end.
Definition after (raws : list string) : option counter := fold_left c_try raws (Some c_instantiate).
Definition get_callback_counter : string := "{""get_callback_counter"":{}}".

(** ** C50 *)
Definition sorted (l : list callback_msg) : counter :=
  Counter (filter is_success l) (filter is_error l) (filter is_timeout l).

Lemma c_try_sorted l raw : c_try (Some (sorted l)) raw = Some (sorted (l ++ readable jc_c_execute_msg [raw])).
Proof.
  unfold c_try, c_call. cbn [readable]. destruct (from_json jc_c_execute_msg raw) as [m|]; cbn [obind]; [|now rewrite app_nil_r].
  unfold sorted. rewrite !filter_app. destruct m as [[res|err] p r q|p r|ch ad e]; cbn [c_execute c_update of_option bindo push_success push_error push_timeout
    cn_success cn_error cn_timeout filter is_success is_error is_timeout]; now rewrite ?app_nil_r.
Qed.
Lemma after_sorted raws : after raws = Some (sorted (readable jc_c_execute_msg raws)).
Proof.
  unfold after. change (Some c_instantiate) with (Some (sorted [])).
  change (readable jc_c_execute_msg raws) with ([] ++ readable jc_c_execute_msg raws). generalize (@nil callback_msg).
  induction raws as [|raw raws IH]; intro l; cbn [fold_left]; [now rewrite app_nil_r|].
  rewrite c_try_sorted, IH, <- app_assoc, <- readable_app. reflexivity.
Qed.
Lemma readable_jval raws : Forall (jval jc_callback) (readable jc_c_execute_msg raws).
Proof.
  induction raws as [|raw raws IH]; cbn [readable]; [constructor|].
  destruct (from_json jc_c_execute_msg raw) as [m|] eqn:E; [|exact IH]. constructor; [|exact IH].
  exact (from_json_valid jc_c_execute_msg raw m jc_c_execute_msg_sound E).
Qed.

(** After any calls, the query reports exactly the readable callbacks, each in
    the list of its kind, in the order they came. *)
Theorem C50_exact : forall raws,
  exists t, c_query (after raws) get_callback_counter = Some t /\
    from_json jc_counter t =
      let l := readable jc_c_execute_msg raws in
      Some (Counter (filter is_success l) (filter is_error l) (filter is_timeout l)).
Proof.
  intro raws. rewrite after_sorted. eexists. split.
  - unfold c_query. replace (from_json jc_c_query_msg get_callback_counter) with (Some tt) by (vm_compute; reflexivity).
    cbn [obind]. reflexivity.
  - apply json_roundtrip; [exact jc_counter_ok|].
    assert (H := readable_jval raws). rewrite Forall_forall in H.
    split; [|split]; apply Forall_forall; intros m Hm; apply H; apply filter_In in Hm; apply Hm.
Qed.

(** A call succeeds exactly if its message can be read, whoever sends it. *)
Theorem C50_accepts : forall raws raw,
  is_some (c_call (after raws) raw) = is_some (from_json jc_c_execute_msg raw).
Proof.
  intros raws raw. rewrite after_sorted. unfold c_call. destruct (from_json jc_c_execute_msg raw) as [m|]; cbn [obind]; [|reflexivity].
  destruct m as [[res|err] p r q|p r|ch ad e]; reflexivity.
Qed.

Definition p50 (n : N) : packet := Packet "data" (Endpoint "wasm.controller" "channel-0") (Endpoint "icahost" "channel-7") n (Timeout None (Some 5)).
Definition raws50 : list string :=
  [to_json jc_receiver (CbAck (AckResult "ok") (p50 1) "r" None); "garbage"; to_json jc_receiver (CbTimeout (p50 2) "r");
   to_json jc_receiver (CbAck (AckResult "ok") (p50 3) "r" None); to_json jc_receiver (CbAck (AckError "no") (p50 4) "r" None)].
Example C50_case : after raws50 = Some (Counter
  [CbAck (AckResult "ok") (p50 1) "r" None; CbAck (AckResult "ok") (p50 3) "r" None]
  [CbAck (AckError "no") (p50 4) "r" None] [CbTimeout (p50 2) "r"]).
Proof. vm_compute. reflexivity. Qed.

(** ** C56: with a controller

    A counter at [addr] that only the controller calls. *)
Lemma filter_plain f l : (forall m, f (plain m) = f m) -> map plain (filter f l) = filter f (map plain l).
Proof. intro H. induction l as [|m l IH]; cbn [filter map]; [reflexivity|]. rewrite H. destruct (f m); cbn [map]; now rewrite IH. Qed.

(** At any time the counter lists exactly the packets that were acknowledged
    with a result, acknowledged with an error, and timed out while it was the
    callback address, in that order. *)
Theorem C56_counts : forall c w addr, cfg_ok c -> visited c w ->
  exists t s, c_query (after (calls addr (w_log w))) get_callback_counter = Some t /\ from_json jc_counter t = Some s /\
    map plain (cn_success s) = filter is_success (events addr (w_log w)) /\
    map plain (cn_error s) = filter is_error (events addr (w_log w)) /\
    map plain (cn_timeout s) = filter is_timeout (events addr (w_log w)).
Proof.
  intros c w addr Hc V. destruct (C50_exact (calls addr (w_log w))) as (t & Q & D). exists t. eexists. split; [exact Q|]. split; [exact D|].
  cbn [cn_success cn_error cn_timeout]. rewrite <- (told_events c (w_log w) addr (visited_hist c w Hc V)).
  repeat split; apply filter_plain; intros [[res|err] p r q|p r|ch ad e]; reflexivity.
Qed.

Lemma filter_length_le {A} (f g : A -> bool) l : (forall x, f x = true -> g x = true) -> (length (filter f l) <= length (filter g l))%nat.
Proof.
  intro H. induction l as [|x l IH]; cbn [filter]; [lia|]. specialize (H x).
  destruct (f x); [rewrite (H eq_refl); cbn [length]; lia|]. destruct (g x); cbn [length]; lia.
Qed.
Lemma told_tells addr l id n :
  (length (filter (about id n) (readable jc_c_execute_msg (calls addr l))) <= count (tells id n) l)%nat.
Proof.
  induction l as [|x l IH]; [apply le_n|]. rewrite count_cons.
  destruct x as [| | | | | | | | | |a msg]; try (cbn [calls tells]; lia). cbn [calls].
  destruct (String.eqb a addr); [|rewrite app_nil_r; lia]. rewrite readable_app, filter_app, app_length. cbn [readable tells].
  change (from_json jc_c_execute_msg msg) with (from_json jc_receiver msg).
  destruct (from_json jc_receiver msg) as [m|]; [|cbn [filter length]; lia]. cbn [filter].
  replace (match m with CbAck _ p _ _ | CbTimeout p _ => at_pkt id n p | _ => false end) with (about id n m) by (now destruct m).
  destruct (about id n m); cbn [length]; lia.
Qed.
Lemma partition_length f l : (length (filter f (filter is_success l ++ filter is_error l ++ filter is_timeout l)) <= length (filter f l))%nat.
Proof.
  induction l as [|m l IH]; [apply le_n|].
  rewrite !filter_app, !app_length in *. cbn [filter].
  destruct m as [[res|err] p r q|p r|ch ad e]; cbn [is_success is_error is_timeout filter];
    match goal with |- context [f ?m] => destruct (f m) end; cbn [length] in *; lia.
Qed.

(** No packet is listed twice, and every listed packet was sent by the
    controller. *)
Theorem C56_once : forall c w addr t s, cfg_ok c -> visited c w ->
  c_query (after (calls addr (w_log w))) get_callback_counter = Some t -> from_json jc_counter t = Some s ->
  (forall id n, (length (filter (about id n) (cn_success s ++ cn_error s ++ cn_timeout s)) <= 1)%nat) /\
  (forall m, In m (cn_success s ++ cn_error s ++ cn_timeout s) -> exists e sender x p,
    In (LSent e sender x p) (w_log w) /\ match m with CbAck _ p' _ _ | CbTimeout p' _ => p' = p | _ => False end).
Proof.
  intros c w addr t s Hc V Q D. destruct (C50_exact (calls addr (w_log w))) as (t' & Q' & D').
  rewrite Q in Q'. injection Q' as <-. rewrite D in D'. injection D' as ->. cbn [cn_success cn_error cn_timeout].
  split.
  - intros id n. destruct (C45_resolved_once c w id n Hc V) as (H1 & H2 & H3).
    etransitivity; [apply partition_length|]. etransitivity; [apply told_tells|]. lia.
  - intros m Hm.
    assert (K : In m (readable jc_c_execute_msg (calls addr (w_log w))) /\ match m with CbOpenAck _ _ _ => False | _ => True end).
    { rewrite !in_app_iff, !filter_In in Hm. destruct Hm as [Hm|[Hm|Hm]]; (split; [apply Hm|]); destruct m; try exact I; now destruct Hm. }
    destruct K as [K1 K2].
    assert (G : exists a msg, In (LCall a msg) (w_log w) /\ from_json jc_receiver msg = Some m).
    { clear - K1. induction (w_log w) as [|x l IH]; [destruct K1|].
      destruct x as [| | | | | | | | | |a msg]; try (destruct (IH K1) as (b & g & G1 & G2); exists b, g; split; [right; exact G1|exact G2]).
      cbn [calls] in K1. rewrite readable_app, in_app_iff in K1. destruct K1 as [K1|K1].
      - destruct (IH K1) as (b & g & G1 & G2); exists b, g; split; [right; exact G1|exact G2].
      - destruct (String.eqb a addr); [|destruct K1]. cbn [readable] in K1.
        change (from_json jc_c_execute_msg msg) with (from_json jc_receiver msg) in K1.
        destruct (from_json jc_receiver msg) as [m'|] eqn:E; [|destruct K1]. destruct K1 as [->|[]].
        exists a, msg. split; [now left|exact E]. }
    destruct G as (a & msg & G1 & G2). apply in_split in G1 as (l1 & l2 & E).
    assert (Ka : exists id n, tells id n (LCall a msg) = true).
    { cbn [tells]. rewrite G2. destruct m as [d p r q|p r|]; [| |destruct K2]; exists (e_chan (p_src p)), (p_seq p);
      unfold at_pkt; now rewrite String.eqb_refl, N.eqb_refl. }
    destruct Ka as (id & n & Ka).
    destruct (C45_only_own_packets c w l1 _ l2 id n Hc V E (or_intror Ka)) as (p & e & sd & x & H1 & _ & _ & cb & H2 & H3).
    rewrite G2 in H2. injection H2 as <-. exists e, sd, x, p. split; [rewrite E, in_app_iff; right; right; exact H1|exact H3].
Qed.

Definition w56 : world := world_of (with_query ++ [exec "owner" (send0 [bank0] []) ""; exec "owner" (send0 [bank0] []) "";
  timed_out "channel-0" 2; ack "channel-0" 1 (AckError "no"); ack "channel-0" 3 (AckResult "yes")]).
Example C56_case : match after (calls "cb" (w_log w56)) with
  | Some s => map (fun m => match m with CbAck _ p _ _ | CbTimeout p _ => p_seq p | _ => 0 end)
                (cn_success s ++ cn_error s ++ cn_timeout s) = [3; 1; 2]
  | None => False end /\ length (events "cb" (w_log w56)) = 4%nat.
Proof. split; vm_compute; reflexivity. Qed.

Print Assumptions C50_exact.
Print Assumptions C50_accepts.
Print Assumptions C56_counts.
Print Assumptions C56_once.
