(** * PropFeatures: properties C68, C69 and C84, the library as other contracts build it. *)

From Verif Require Import Base Text Utf8 Base64 Proto Schemas Json JsonCodec Types JsonTypes Store
  CosmosMsg QueryMsg Metadata Stargate PacketData Features Ownable Semver Contract JsonSound ProtoFacts ProtoSound HostSpec HostFacts AnswerSpec AnswerFacts PacketFacts
  EntryFacts Chain ChainSpec Trans Inv HistorySpec History Queries HistFacts Enabled Witness TextSpec WireSpec ReadSpec PropText
  PropOwner PropChannel PropHandshake PropCallback PropPacket PropAnswer PropWire PropRead.
Local Open Scope string_scope.
Local Open Scope list_scope.
Local Open Scope N_scope.

(** ** C68: contracts built without "query" *)

(** The message without its query result, and the request with no queries. *)
Definition without_result (m : callback_msg) : plain_callback :=
  match m with
  | CbAck a p r _ => PAck a p r
  | CbTimeout p r => PTimeout p r
  | CbOpenAck c a e => POpenAck c a e
  end.
Definition with_no_queries (m : plain_execute) : execute_msg :=
  match m with
  | PCreateChannel o => XCreateChannel o
  | PCloseChannel => XCloseChannel
  | PSendCosmosMsgs ms memo t => XSendCosmosMsgs ms [] memo t
  | PUpdateCallbackAddress c => XUpdateCallbackAddress c
  | PUpdateOwnership a => XUpdateOwnership a
  end.

(** What such a receiver reads. *)
Definition reads_plain_callback (j : json) (m : plain_callback) : Prop :=
  variant "receive_ica_callback" (fun v =>
    match m with
    | PAck a p r => variant "on_acknowledgement_packet_callback"
        (object ["ica_acknowledgement"; "original_packet"; "relayer"] (fun l =>
          field l "ica_acknowledgement" reads_ack a /\ field l "original_packet" reads_packet p /\
          field l "relayer" reads_str r)) v
    | PTimeout p r => variant "on_timeout_packet_callback" (object ["original_packet"; "relayer"] (fun l =>
        field l "original_packet" reads_packet p /\ field l "relayer" reads_str r)) v
    | POpenAck c a e => variant "on_channel_open_ack_callback" (object ["channel"; "ica_address"; "tx_encoding"] (fun l =>
        field l "channel" reads_channel c /\ field l "ica_address" reads_str a /\ field l "tx_encoding" reads_encoding e)) v
    end) j.
Lemma plain_callback_reads j m : jdec jc_plain_receiver j = Some m <-> reads_plain_callback j m.
Proof.
  unfold jc_plain_receiver, reads_plain_callback. eapply variant_iff; [at_it|]. intro v.
  unfold jc_plain_callback. rewrite map_iff by bij. destruct m; cbv beta iota; (eapply variant_iff; [at_it|]); intro; struct.
Qed.

Theorem C68_C62_plain_read : forall t m, from_json jc_plain_receiver t = Some m <-> text_of reads_plain_callback t m.
Proof. intros t m. apply from_text. intro. apply plain_callback_reads. Qed.

(** Whatever a receiver with "query" reads, one without reads as the same
    callback without the query result. *)
Theorem C68_callbacks : forall t m,
  from_json jc_receiver t = Some m -> from_json jc_plain_receiver t = Some (without_result m).
Proof.
  intros t m H. apply C62_messages_read in H as (j & T & v & -> & H).
  apply C68_C62_plain_read. eexists. split; [exact T|]. exists v. split; [reflexivity|].
  destruct m as [a p r q|p r|c a e]; cbn [without_result]; try exact H.
  destruct H as (u & -> & l & -> & O & H1 & H2 & H3 & _). exists (JObj l). split; [reflexivity|].
  exists l. split; [reflexivity|]. split; [|auto].
  intros k Hk. apply O. cbn [In] in Hk |- *. tauto.
Qed.

(** So it understands every call the contract ever makes. *)
Theorem C68_every_call : forall c w addr msg, cfg_ok c -> visited c w -> In (LCall addr msg) (w_log w) ->
  exists m, msg = to_json jc_receiver m /\ from_json jc_receiver msg = Some m /\
    from_json jc_plain_receiver msg = Some (without_result m).
Proof.
  intros c w addr msg Hc V Hi. destruct (C34_every_call c w addr msg Hc V Hi) as (m & E & ->).
  exists m. split; [reflexivity|]. split; [exact E|]. now apply C68_callbacks.
Qed.

Lemma variant_dec {A B} (v : vcodec A) (s : A) k (c : jcodec B) x j : at_key v s k c x ->
  (jdec (jc_enum v) j = Some s <-> variant k (fun j => jdec c j = Some x) j).
Proof. intro H. apply (variant_iff v s k c x); [exact H|reflexivity]. Qed.
Lemma with_no_queries_enc n : jenc jc_plain_execute n = jenc jc_execute_msg (with_no_queries n).
Proof. destruct n; reflexivity. Qed.

(** What the contract gets from one without "query": the same text as for a
    request with no queries, and what the sender would read, the contract reads. *)
Theorem C68_requests :
  (forall n, to_json jc_plain_execute n = to_json jc_execute_msg (with_no_queries n)) /\
  (forall n, jval jc_execute_msg (with_no_queries n) ->
     from_json jc_execute_msg (to_json jc_plain_execute n) = Some (with_no_queries n)) /\
  (forall t n, from_json jc_plain_execute t = Some n -> from_json jc_execute_msg t = Some (with_no_queries n)).
Proof.
  assert (E : forall n, to_json jc_plain_execute n = to_json jc_execute_msg (with_no_queries n))
    by (intro; unfold to_json; now rewrite with_no_queries_enc).
  split; [exact E|]. split.
  - intros n J. rewrite E. apply json_roundtrip; [exact jc_execute_msg_ok|exact J].
  - intros t n. unfold from_json. destruct (jparse t) as [j|]; [|discriminate]. cbn [obind].
    unfold jc_plain_execute, jc_execute_msg. rewrite !map_iff by bij.
    destruct n as [o| |ms memo t'|cb|a]; cbn [with_no_queries]; intro H.
    1: eapply (variant_dec _ _ "create_channel") in H; [|at_it]; eapply (variant_dec _ _ "create_channel"); [at_it|exact H].
    1: eapply (variant_dec _ _ "close_channel") in H; [|at_it]; eapply (variant_dec _ _ "close_channel"); [at_it|exact H].
    2: eapply (variant_dec _ _ "update_callback_address") in H; [|at_it]; eapply (variant_dec _ _ "update_callback_address"); [at_it|exact H].
    2: eapply (variant_dec _ _ "update_ownership") in H; [|at_it]; eapply (variant_dec _ _ "update_ownership"); [at_it|exact H].
    eapply (variant_dec _ _ "send_cosmos_msgs") in H; [|at_it]. eapply (variant_dec _ _ "send_cosmos_msgs"); [at_it|].
    destruct H as (u & -> & H). exists u. split; [reflexivity|].
    apply struct_reads in H as (l & -> & O & C & H). apply struct_reads. exists l. split; [reflexivity|].
    assert (N : ~ In "queries" (map fst l)).
    { intro I. apply C in I. cbn in I. repeat destruct I as [I|I]; try discriminate I. destruct I. }
    split; [|split].
    + intros k Hk. cbn [okeys o_pair o_vec_null o_vec_skip o_skip app In] in Hk.
      destruct (string_dec k "queries") as [->|Nk].
      * rewrite (proj1 (count_occ_not_In string_dec _ _) N). apply Nat.le_0_l.
      * apply O. cbn [okeys o_pair o_vec_null o_vec_skip o_skip app In].
        destruct Hk as [Hk|[Hk|Hk]]; [now left|now elim Nk|now right].
    + intros k Hk. apply C in Hk. cbn [okeys o_pair o_vec_null o_vec_skip o_skip app In] in Hk |- *. tauto.
    + apply pair_reads in H as [H1 H]. apply pair_reads. split; [exact H1|]. apply pair_reads. split; [|exact H].
      cbn [odec o_vec_skip]. apply find_none in N. now rewrite N.
Qed.

(** Packets made with the library are the contract's: the variants of
    [from_cosmos_msgs] make the same packet, or all fail. *)
Definition outcome_packet (o : outcome (cstore * ica_packet)) : outcome ica_packet :=
  match o with Ok (_, p) => Ok p | Err e => Err e | Panic => Panic end.
Lemma lib_same s ms qs e memo addr :
  lib_from_cosmos_msgs ms qs e memo addr = outcome_packet (from_cosmos_msgs s ms qs e memo addr).
Proof.
  unfold lib_from_cosmos_msgs, from_cosmos_msgs. destruct e; [|reflexivity].
  destruct (mapo _ ms) as [anys| |]; [|reflexivity|reflexivity]. cbn [bindo]. destruct qs as [|q qs]; [reflexivity|].
  destruct (mapo _ (q :: qs)) as [reqs| |]; [|reflexivity|reflexivity]. cbn [bindo].
  destruct (query_any addr reqs); reflexivity.
Qed.
Lemma plain_same ms e memo addr : plain_from_cosmos_msgs ms e memo addr = lib_from_cosmos_msgs ms [] e memo addr.
Proof. reflexivity. Qed.

(** The host finds in it the requested messages and queries, signed by the account. *)
Theorem C68_packets : forall ms qs memo addr p,
  Forall wf_msg ms -> Forall wf_query qs -> utf8 addr -> utf8o memo -> slen (ip_data p) < u64_lim ->
  (lib_from_cosmos_msgs ms qs Protobuf memo addr = Ok p \/ qs = [] /\ plain_from_cosmos_msgs ms Protobuf memo addr = Ok p) ->
  exists anys, host_packet (to_json jc_ica_packet p) = Some (anys, unwrap_or memo "") /\
    packet_spec addr ms qs anys /\ signed_by_account addr ms qs anys.
Proof.
  intros ms qs memo addr p Hm Hq Ha Hmemo L H.
  assert (E : lib_from_cosmos_msgs ms qs Protobuf memo addr = Ok p).
  { destruct H as [H|[-> H]]; [exact H|]. now rewrite plain_same in H. }
  rewrite (lib_same empty_store) in E.
  destruct (from_cosmos_msgs empty_store ms qs Protobuf memo addr) as [[s' p']| |] eqn:F; try discriminate E.
  cbn [outcome_packet] in E. injection E as ->.
  destruct (packet_carries _ _ _ _ _ _ _ Hm Hq Ha Hmemo F L) as (anys & P1 & P2).
  exists anys. split; [exact P1|]. split; [exact P2|]. now apply packet_signed.
Qed.

(** It is made exactly for messages and queries the contract supports; an
    account with the encoding proto3json gets an error. *)
Theorem C68_packets_supported : forall ms qs e memo addr,
  ((exists p, lib_from_cosmos_msgs ms qs e memo addr = Ok p) <-> e = Protobuf /\ Forall supported ms /\ Forall qsupported qs) /\
  ((exists p, plain_from_cosmos_msgs ms e memo addr = Ok p) <-> e = Protobuf /\ Forall supported ms).
Proof.
  assert (G : forall ms qs e memo addr, (exists p, lib_from_cosmos_msgs ms qs e memo addr = Ok p) <->
    e = Protobuf /\ Forall supported ms /\ Forall qsupported qs).
  { intros ms qs e memo addr. split.
    - intros (p & E). destruct e; [|discriminate E]. split; [reflexivity|]. rewrite (lib_same empty_store) in E.
      destruct (from_cosmos_msgs empty_store ms qs Protobuf memo addr) as [[s' p']| |] eqn:F; try discriminate E.
      destruct (packet_supported _ _ _ _ _ _ _ F). auto.
    - intros (-> & S1 & S2). unfold lib_from_cosmos_msgs.
      destruct (mapo_total (fun m => convert_to_proto_any m addr) ms) as [anys Ha].
      { intros m Hm. apply convert_supported. rewrite Forall_forall in S1. auto. }
      rewrite Ha. cbn [bindo]. destruct qs as [|q qs]; [eexists; reflexivity|].
      destruct (mapo_total query_to_protobuf (q :: qs)) as [reqs Hr].
      { intros x Hx. apply query_supported. rewrite Forall_forall in S2. auto. }
      rewrite Hr. unfold query_any, any_from_msg. cbn [bindo]. eexists. reflexivity. }
  intros ms qs e memo addr. split; [apply G|]. rewrite plain_same, G. split; [tauto|]. intros [-> S].
  split; [reflexivity|]. split; [exact S|constructor].
Qed.

Example C68_callback_case :
  let m := CbAck (AckError "no") (Packet "data" (Endpoint "wasm.c" "channel-0") (Endpoint "icahost" "channel-1") 7
    (Timeout None (Some 5))) "relayer" (Some (QRError "no")) in
  from_json jc_receiver (to_json jc_receiver m) = Some m /\
  from_json jc_plain_receiver (to_json jc_receiver m) = Some (without_result m).
Proof. split; vm_compute; reflexivity. Qed.
Example C68_request_case : to_json jc_plain_execute (PSendCosmosMsgs [bank0] (Some "memo") None) <> "" /\
  jval jc_execute_msg (with_no_queries (PSendCosmosMsgs [bank0] (Some "memo") None)) /\
  from_json jc_plain_execute " {""send_cosmos_msgs"":{""messages"":null}} " = Some (PSendCosmosMsgs [] None None) /\
  from_json jc_plain_execute "{""send_cosmos_msgs"":{""messages"":null,""queries"":[]}}" = None.
Proof.
  split; [discriminate|]. split; [|split; vm_compute; reflexivity].
  refine (from_json_valid jc_execute_msg (to_json jc_execute_msg (with_no_queries (PSendCosmosMsgs [bank0] (Some "memo") None))) _
    jc_execute_msg_sound _).
  vm_compute. reflexivity.
Qed.
Example C68_packet_case : exists p, lib_from_cosmos_msgs [bank0] [query0] Protobuf (Some "memo") "cosmos1account" = Ok p /\
  slen (ip_data p) < u64_lim.
Proof. eexists. split; [reflexivity|]. apply N.ltb_lt. vm_compute. reflexivity. Qed.

(** ** C69: reading the response at an index *)

(** The height and answers in the [i]-th message response of a result. *)
Definition response_at (result : string) (i : nat) : option (N * list string) :=
  match pb_decode h_tx_msg_data result with
  | Some [_; resps] =>
      match nth_error resps i with
      | Some (VMsg [_; [VStr v]]) =>
          match pb_decode h_query_safe_response v with
          | Some [[VNum h]; rs] => l <-? omap rd_text rs ;; Some (h, l)
          | _ => None
          end
      | _ => None
      end
  | _ => None
  end.

Lemma nth_error_map_ {A B} (f : A -> B) l i : nth_error (map f l) i = option_map f (nth_error l i).
Proof. revert i. induction l; intros [|i]; cbn; auto. Qed.

Lemma decode_at : forall result i h bs,
  decode_resp_at (AckResult result) i = Ok (MqsResponse h bs) <-> response_at result i = Some (h, bs).
Proof.
  intros res i h bs.
  assert (E : to_opt (decode_resp_at (AckResult res) i) =
    option_map (fun hb => MqsResponse (fst hb) (snd hb)) (response_at res i)).
  { unfold decode_resp_at, to_tx_msg_data.
    rewrite !to_opt_bind. unfold pb_dec. rewrite to_opt_of.
    unfold response_at. change h_tx_msg_data with d_tx_msg_data.
    destruct (pb_decode d_tx_msg_data res) as [m|] eqn:E; [|reflexivity].
    apply pb_decode_ok in E. unfold d_tx_msg_data in E.
    apply ok_cons in E as (l0 & ? & -> & _ & E). apply ok_cons in E as (l & ? & -> & Hl & E).
    apply ok_nil in E. subst. apply ok_msgs in Hl as (anys & -> & Hl).
    cbn [obind to_opt]. rewrite (msgs_slot _ 1 anys) by reflexivity.
    rewrite to_opt_bind, to_opt_of, !nth_error_map_.
    destruct (nth_error anys i) as [a|] eqn:Ea; [|reflexivity]. cbn [map option_map obind a_value].
    assert (Ha : msg_ok d_any a = true) by (rewrite Forall_forall in Hl; apply Hl; eapply nth_error_In; eassumption).
    unfold d_any, fstr, fbytes in Ha. shape.
    unfold decode_mqs_response, get_str, slot. cbn [nth]. unfold pb_dec. rewrite to_opt_bind, to_opt_of.
    change h_query_safe_response with d_msg_module_query_safe_response.
    destruct (pb_decode d_msg_module_query_safe_response _) as [m|] eqn:E2; [|reflexivity].
    apply pb_decode_ok in E2. unfold d_msg_module_query_safe_response, fu64, rbytes in E2. shape.
    cbn [obind to_opt]. rewrite omap_map. cbn [rd_text]. rewrite omap_some. cbn [obind option_map fst snd].
    rewrite map_id. unfold get_strs, slot. cbn [nth]. rewrite map_map, map_id. reflexivity. }
  rewrite <- to_opt_ok, E. destruct (response_at res i) as [[h' bs']|]; cbn; split;
    intro H; try discriminate; injection H as -> ->; reflexivity.
Qed.
Theorem C69_at : forall ack i h bs,
  decode_resp_at ack i = Ok (MqsResponse h bs) <->
  exists result, ack = AckResult result /\ response_at result i = Some (h, bs).
Proof.
  intros [res|err] i h bs.
  - rewrite decode_at. split; [eauto|]. intros (? & E & H). injection E as <-. exact H.
  - split; [discriminate|]. intros (? & E & _). discriminate E.
Qed.

(** A library user who sends [ms] and then queries finds the answers at index
    [length ms]: with the host's encoding of one response per message. *)
Theorem C69_after_messages : forall (ms : list cosmos_msg) legacy resps h bs,
  Forall (fun x => utf8 (fst x)) legacy -> Forall (fun x => utf8 (fst x)) resps -> u64 h ->
  slen (host_result legacy resps h bs) < u64_lim -> slen (query_response_bytes h bs) < u64_lim ->
  length resps = length ms ->
  decode_resp_at (AckResult (host_result legacy resps h bs)) (length ms) = Ok (MqsResponse h bs) /\
  decode_resp_last (AckResult (host_result legacy resps h bs)) = Ok (MqsResponse h bs) /\
  forall i, (i > length ms)%nat -> decode_resp_at (AckResult (host_result legacy resps h bs)) i = Err EStd.
Proof.
  intros ms legacy resps h bs H1 H2 Hh L1 L2 El.
  assert (D : pb_decode h_tx_msg_data (host_result legacy resps h bs) = Some
    [map (fun x => VMsg [ts (fst x); ts (snd x)]) legacy;
     map (fun x => VMsg [ts (fst x); ts (snd x)])
       (resps ++ [("/ibc.applications.interchain_accounts.host.v1.MsgModuleQuerySafeResponse", query_response_bytes h bs)])]).
  { unfold host_result in *. rewrite pb_roundtrip; [reflexivity|reflexivity| |exact L1].
    unfold msg_ok, h_tx_msg_data, ms_. cbn [slots_ok slot_ok]. unfold h_any.
    rewrite pairs_ok by exact H1. rewrite pairs_ok; [reflexivity|].
    apply Forall_app. split; [exact H2|]. repeat constructor. }
  split; [|split].
  - apply decode_at. unfold response_at. rewrite D, nth_error_map_, nth_error_app2 by lia.
    rewrite El, Nat.sub_diag. cbn [nth_error option_map fst snd]. unfold ts. unfold query_response_bytes in *.
    rewrite pb_roundtrip; [|reflexivity| |exact L2].
    + unfold tn. rewrite (Base.omap_map rd_text VStr (fun x => x)) by reflexivity. now rewrite map_id.
    + unfold msg_ok, h_query_safe_response, tn, u_, bs_. cbn [slots_ok slot_ok val_ok].
      rewrite u64_ltb by exact Hh. cbn [andb]. rewrite andb_true_r.
      clear. induction bs; [reflexivity|assumption].
  - apply decode_last_ok. cbn [mq_height mq_responses]. now apply host_result_read.
  - intros i Hi. unfold decode_resp_at, to_tx_msg_data, pb_dec. change d_tx_msg_data with h_tx_msg_data. rewrite D.
    cbn [of_option bindo]. rewrite (msgs_slot _ 1 (map (fun x => [ts (fst x); ts (snd x)])
       (resps ++ [("/ibc.applications.interchain_accounts.host.v1.MsgModuleQuerySafeResponse", query_response_bytes h bs)])))
      by (cbn [nth]; now rewrite map_map).
    rewrite (proj2 (nth_error_None _ i)); [reflexivity|]. rewrite !map_length, app_length. cbn [length]. lia.
Qed.
Example C69_case : decode_resp_at (AckResult res26) 1 = Ok (MqsResponse 77 [answer_bytes (HABalance ("uatom", 5))]) /\
  decode_resp_at (AckResult res26) 0 = Ok (MqsResponse 0 []) /\ decode_resp_at (AckResult res26) 2 = Err EStd.
Proof. split; [|split]; vm_compute; reflexivity. Qed.

(** ** C84: contracts built without "staking" *)

(** The same message, query or request where "staking" is on. *)
Definition full_msg (m : lean_msg) : cosmos_msg :=
  match m with
  | LmBank m => MBank m
  | LmCustom => MCustom
  | LmStargate t v => MStargate t v
  | LmIbc m => MIbc m
  | LmWasm m => MWasm m
  | LmGov m => MGov m
  end.
Definition full_query (q : lean_query) : query_request :=
  match q with
  | LqBank q => QBank q
  | LqCustom => QCustom
  | LqStargate p d => QStargate p d
  | LqIbc q => QIbc q
  | LqWasm q => QWasm q
  end.
Definition full (m : lean_execute) : execute_msg :=
  match m with
  | LCreateChannel o => XCreateChannel o
  | LCloseChannel => XCloseChannel
  | LSendCosmosMsgs ms qs memo t => XSendCosmosMsgs (map full_msg ms) (map full_query qs) memo t
  | LUpdateCallbackAddress c => XUpdateCallbackAddress c
  | LUpdateOwnership a => XUpdateOwnership a
  end.
Definition full_bare (m : bare_execute) : plain_execute :=
  match m with
  | BCreateChannel o => PCreateChannel o
  | BCloseChannel => PCloseChannel
  | BSendCosmosMsgs ms memo t => PSendCosmosMsgs (map full_msg ms) memo t
  | BUpdateCallbackAddress c => PUpdateCallbackAddress c
  | BUpdateOwnership a => PUpdateOwnership a
  end.

(** A codec [c] that reads and writes as [c'] does, for part of its values. *)
Definition part {A B} (c : jcodec A) (c' : jcodec B) (f : A -> B) : Prop :=
  (forall a, jenc c a = jenc c' (f a)) /\ forall j a, jdec c j = Some a <-> jdec c' j = Some (f a).

Lemma part_list {A B} (c : jcodec A) (c' : jcodec B) f : part c c' f -> part (jc_list c) (jc_list c') (map f).
Proof.
  intros [E D]. split.
  - intro l. cbn [jenc jc_list]. f_equal. rewrite map_map. apply map_ext. exact E.
  - intros [|b|n|s|js|o] l; try (cbn; split; discriminate). cbn [jdec jc_list]. revert l. induction js as [|j js IH]; intro l.
    + cbn [omap]. destruct l; split; try discriminate; reflexivity.
    + cbn [omap]. split; intro H.
      * apply obind_some in H as (x & H1 & H). apply obind_some in H as (xs & H2 & H). injection H as <-.
        apply D in H1. apply IH in H2. rewrite H1. cbn [obind]. rewrite H2. reflexivity.
      * apply obind_some in H as (x & H1 & H). apply obind_some in H as (xs & H2 & H).
        destruct l as [|y l]; [discriminate H|]. cbn [map] in H. injection H as -> ->.
        apply D in H1. apply IH in H2. rewrite H1. cbn [obind]. rewrite H2. reflexivity.
Qed.
Lemma part_vec {A B} k (c : jcodec A) (c' : jcodec B) f l x : part c c' f ->
  (odec (o_vec_null k c) l = Some x <-> odec (o_vec_null k c') l = Some (map f x)) /\
  (odec (o_vec_skip k c) l = Some x <-> odec (o_vec_skip k c') l = Some (map f x)).
Proof.
  intro P. apply part_list in P as [_ D].
  assert (N : @Some (list A) [] = Some x <-> @Some (list B) [] = Some (map f x)) by (destruct x; split; (reflexivity || discriminate)).
  cbn [odec o_vec_null o_vec_skip]. destruct (assoc_find k l) as [[| | | | |]|]; split; try apply D; try exact N; split; discriminate.
Qed.

(* the same variant on both sides *)
Ltac at_both k := etransitivity; [eapply (variant_dec _ _ k); at_it|]; symmetry; (etransitivity; [eapply (variant_dec _ _ k); at_it|]); symmetry.
Ltac same_variant := first [at_both "bank" | at_both "custom" | at_both "stargate" | at_both "ibc" | at_both "wasm" | at_both "gov"
  | at_both "create_channel" | at_both "close_channel" | at_both "send_cosmos_msgs" | at_both "update_callback_address" | at_both "update_ownership"];
  try reflexivity.
Lemma lean_msg_part : part jc_lean_msg jc_cosmos_msg full_msg.
Proof.
  split; [intros []; reflexivity|]. intros j m. unfold jc_lean_msg, jc_cosmos_msg. rewrite !map_iff by bij.
  destruct m; cbn [full_msg]; same_variant.
Qed.
Lemma lean_query_part : part jc_lean_query jc_query_request full_query.
Proof.
  split; [intros []; reflexivity|]. intros j m. unfold jc_lean_query, jc_query_request. rewrite !map_iff by bij.
  destruct m; cbn [full_query]; same_variant.
Qed.
Lemma and_congr (A A' B B' : Prop) : (A <-> A') -> (B <-> B') -> (A /\ B <-> A' /\ B').
Proof. tauto. Qed.
Lemma variant_congr k (P Q : json -> Prop) j : (forall v, P v <-> Q v) -> (variant k P j <-> variant k Q j).
Proof. intro H. unfold variant. split; intros (v & E & X); exists v; (split; [exact E|now apply H]). Qed.
Lemma struct_congr {A B} (o : ocodec A) (o' : ocodec B) x y j : okeys o = okeys o' ->
  (forall l, odec o l = Some x <-> odec o' l = Some y) -> (jdec (jc_struct true o) j = Some x <-> jdec (jc_struct true o') j = Some y).
Proof.
  intros K H. rewrite !struct_reads, K. split; intros (l & E & O & C & X); exists l; repeat (split; [assumption|]); now apply H.
Qed.
Lemma lean_execute_part : part jc_lean_execute jc_execute_msg full.
Proof.
  split.
  - intros [o| |ms qs memo t|c|a]; try reflexivity. unfold jc_lean_execute, jc_execute_msg. cbn [jenc jc_map full]. cbn.
    f_equal. f_equal. f_equal. f_equal. rewrite !map_map. f_equal.
    + f_equal. f_equal. apply map_ext. apply (proj1 lean_msg_part).
    + destruct qs; [reflexivity|]. cbn. f_equal. f_equal. f_equal. f_equal; [apply (proj1 lean_query_part)|]. apply map_ext. apply (proj1 lean_query_part).
  - intros j m. unfold jc_lean_execute, jc_execute_msg. rewrite !map_iff by bij.
    destruct m as [o| |ms qs memo t|c|a]; cbn [full]; same_variant.
    apply variant_congr. intro v. apply struct_congr; [reflexivity|]. intro l. rewrite !pair_reads.
    apply and_congr; [apply part_vec; exact lean_msg_part|]. apply and_congr; [apply part_vec; exact lean_query_part|reflexivity].
Qed.
Lemma bare_execute_part : part jc_bare_execute jc_plain_execute full_bare.
Proof.
  split.
  - intros [o| |ms memo t|c|a]; try reflexivity. unfold jc_bare_execute, jc_plain_execute. cbn [jenc jc_map full_bare]. cbn.
    f_equal. f_equal. f_equal. f_equal. rewrite !map_map. f_equal. f_equal. f_equal. apply map_ext. apply (proj1 lean_msg_part).
  - intros j m. unfold jc_bare_execute, jc_plain_execute. rewrite !map_iff by bij.
    destruct m as [o| |ms memo t|c|a]; cbn [full_bare]; same_variant.
    apply variant_congr. intro v. apply struct_congr; [reflexivity|]. intro l. rewrite !pair_reads.
    apply and_congr; [apply part_vec; exact lean_msg_part|reflexivity].
Qed.
Lemma part_text {A B} (c : jcodec A) (c' : jcodec B) f : part c c' f ->
  (forall a, to_json c a = to_json c' (f a)) /\ forall t a, from_json c t = Some a <-> from_json c' t = Some (f a).
Proof.
  intros [E D]. split; [intro; unfold to_json; now rewrite E|]. intros t a. unfold from_json.
  destruct (jparse t); cbn [obind]; [apply D|]. split; discriminate.
Qed.

(** A request that needs "staking". *)
Definition needs_staking (m : execute_msg) : Prop :=
  match m with
  | XSendCosmosMsgs ms qs _ _ =>
      (exists m, In m ms /\ match m with MStaking _ | MDistribution _ => True | _ => False end) \/
      (exists q, In q qs /\ match q with QStaking _ | QDistribution _ => True | _ => False end)
  | _ => False
  end.

Lemma full_msgs ms : (exists m, In m ms /\ match m with MStaking _ | MDistribution _ => True | _ => False end) \/
  exists l, ms = map full_msg l.
Proof.
  induction ms as [|m ms [(x & H & K)|(l & ->)]]; [right; exists []; reflexivity|left; exists x; cbn [In]; auto|].
  destruct m as [b| |x|x|t v|i|w|g]; try (left; eexists; split; [left; reflexivity|exact I]); right;
    [exists (LmBank b :: l)|exists (LmCustom :: l)|exists (LmStargate t v :: l)|exists (LmIbc i :: l)|exists (LmWasm w :: l)|exists (LmGov g :: l)]; reflexivity.
Qed.
Lemma full_queries qs : (exists q, In q qs /\ match q with QStaking _ | QDistribution _ => True | _ => False end) \/
  exists l, qs = map full_query l.
Proof.
  induction qs as [|q qs [(x & H & K)|(l & ->)]]; [right; exists []; reflexivity|left; exists x; cbn [In]; auto|].
  destruct q as [b| |x|x|p d|i|w]; try (left; eexists; split; [left; reflexivity|exact I]); right;
    [exists (LqBank b :: l)|exists (LqCustom :: l)|exists (LqStargate p d :: l)|exists (LqIbc i :: l)|exists (LqWasm w :: l)]; reflexivity.
Qed.
Lemma full_or m : needs_staking m \/ exists n, m = full n.
Proof.
  destruct m as [o| |ms qs memo t|c|a]; [right; exists (LCreateChannel o)|right; exists LCloseChannel| |right; exists (LUpdateCallbackAddress c)|right; exists (LUpdateOwnership a)];
    try reflexivity. cbn [needs_staking].
  destruct (full_msgs ms) as [H|(l & ->)]; [auto|]. destruct (full_queries qs) as [H|(l' & ->)]; [auto|].
  right. exists (LSendCosmosMsgs l l' memo t). reflexivity.
Qed.
Lemma full_needs n : ~ needs_staking (full n).
Proof.
  destruct n; cbn [full needs_staking]; auto. intros [(m & H & K)|(q & H & K)].
  - apply in_map_iff in H as ([] & <- & _); exact K.
  - apply in_map_iff in H as ([] & <- & _); exact K.
Qed.

(** Such a contract writes and reads requests as the contract does; of the texts
    the contract reads, it refuses exactly those that need "staking". *)
Theorem C84_requests :
  (forall n, to_json jc_lean_execute n = to_json jc_execute_msg (full n)) /\
  (forall n, jval jc_execute_msg (full n) -> from_json jc_execute_msg (to_json jc_lean_execute n) = Some (full n)) /\
  (forall t n, from_json jc_lean_execute t = Some n <-> from_json jc_execute_msg t = Some (full n)) /\
  (forall t m, from_json jc_execute_msg t = Some m -> (from_json jc_lean_execute t = None <-> needs_staking m)).
Proof.
  destruct (part_text _ _ _ lean_execute_part) as [E D].
  split; [exact E|]. split; [intros n J; rewrite E; apply json_roundtrip; [exact jc_execute_msg_ok|exact J]|].
  split; [exact D|]. intros t m H. split.
  - intro N. destruct (full_or m) as [K|(n & ->)]; [exact K|]. apply D in H. congruence.
  - intro K. destruct (from_json jc_lean_execute t) as [n|] eqn:L; [exfalso|reflexivity].
    apply D in L. assert (m = full n) by congruence. subst m. exact (full_needs n K).
Qed.

(** The library without default features. *)
Theorem C84_bare_requests :
  (forall n, to_json jc_bare_execute n = to_json jc_execute_msg (with_no_queries (full_bare n))) /\
  (forall n, jval jc_execute_msg (with_no_queries (full_bare n)) ->
     from_json jc_execute_msg (to_json jc_bare_execute n) = Some (with_no_queries (full_bare n))) /\
  (forall t n, from_json jc_bare_execute t = Some n -> from_json jc_execute_msg t = Some (with_no_queries (full_bare n))) /\
  (forall t m, from_json jc_plain_execute t = Some m -> (from_json jc_bare_execute t = None <-> needs_staking (with_no_queries m))).
Proof.
  destruct (part_text _ _ _ bare_execute_part) as [E D]. destruct C68_requests as (E1 & E2 & E3).
  split; [intro n; rewrite E; apply E1|]. split; [intros n J; rewrite E; now apply E2|].
  split; [intros t n H; apply E3; now apply D|]. intros t m H. split.
  - intro N. destruct m as [o| |ms memo x|c|a]; cbn [with_no_queries needs_staking];
      [assert (G := proj2 (D t (BCreateChannel o)) H)|assert (G := proj2 (D t BCloseChannel) H)|
      |assert (G := proj2 (D t (BUpdateCallbackAddress c)) H)|assert (G := proj2 (D t (BUpdateOwnership a)) H)]; try congruence.
    destruct (full_msgs ms) as [K|(l & ->)]; [now left|]. assert (G := proj2 (D t (BSendCosmosMsgs l memo x)) H). congruence.
  - intro K. destruct (from_json jc_bare_execute t) as [n|] eqn:L; [exfalso|reflexivity].
    apply D in L. assert (m = full_bare n) by congruence. subst m. destruct n; try exact K.
    destruct K as [(m & Hm & K)|(q & [] & _)]. apply in_map_iff in Hm as ([] & <- & _); exact K.
Qed.

Lemma lean_convert_same m addr : lean_convert m addr = convert_to_proto_any (full_msg m) addr.
Proof. destruct m; reflexivity. Qed.
Lemma lean_query_same q : lean_query_to_protobuf q = query_to_protobuf (full_query q).
Proof. destruct q; reflexivity. Qed.
Lemma mapo_full {A B C} (f : A -> outcome C) (g : B -> outcome C) (h : A -> B) l : (forall x, f x = g (h x)) -> mapo f l = mapo g (map h l).
Proof. intro H. induction l as [|x l IH]; [reflexivity|]. cbn [mapo map]. now rewrite H, IH. Qed.
Lemma lean_same ms qs e memo addr :
  lean_from_cosmos_msgs ms qs e memo addr = lib_from_cosmos_msgs (map full_msg ms) (map full_query qs) e memo addr.
Proof.
  unfold lean_from_cosmos_msgs, lib_from_cosmos_msgs. destruct e; [|reflexivity].
  rewrite (mapo_full _ (fun m => convert_to_proto_any m addr) full_msg) by (intro; apply lean_convert_same).
  rewrite (mapo_full _ query_to_protobuf full_query) by apply lean_query_same. destruct qs; reflexivity.
Qed.
Lemma bare_same ms e memo addr : bare_from_cosmos_msgs ms e memo addr = plain_from_cosmos_msgs (map full_msg ms) e memo addr.
Proof.
  unfold bare_from_cosmos_msgs, plain_from_cosmos_msgs. destruct e; [|reflexivity].
  now rewrite (mapo_full _ (fun m => convert_to_proto_any m addr) full_msg) by (intro; apply lean_convert_same).
Qed.

(** The host finds in the library's packets what was requested. *)
Theorem C84_packets : forall ms qs memo addr p,
  Forall wf_msg (map full_msg ms) -> Forall wf_query (map full_query qs) -> utf8 addr -> utf8o memo -> slen (ip_data p) < u64_lim ->
  (lean_from_cosmos_msgs ms qs Protobuf memo addr = Ok p \/ qs = [] /\ bare_from_cosmos_msgs ms Protobuf memo addr = Ok p) ->
  exists anys, host_packet (to_json jc_ica_packet p) = Some (anys, unwrap_or memo "") /\
    packet_spec addr (map full_msg ms) (map full_query qs) anys /\ signed_by_account addr (map full_msg ms) (map full_query qs) anys.
Proof.
  intros ms qs memo addr p Hm Hq Ha Hmemo L H. apply (C68_packets _ _ memo addr p Hm Hq Ha Hmemo L).
  rewrite lean_same, bare_same in H. destruct H as [H|[-> H]]; auto.
Qed.

(** They are made exactly for what the contract supports. *)
Theorem C84_packets_supported : forall ms qs e memo addr,
  ((exists p, lean_from_cosmos_msgs ms qs e memo addr = Ok p) <->
     e = Protobuf /\ Forall supported (map full_msg ms) /\ Forall qsupported (map full_query qs)) /\
  ((exists p, bare_from_cosmos_msgs ms e memo addr = Ok p) <-> e = Protobuf /\ Forall supported (map full_msg ms)).
Proof. intros. rewrite lean_same, bare_same. apply C68_packets_supported. Qed.

Example C84_request_case :
  let t := "{""send_cosmos_msgs"":{""messages"":[{""bank"":{""send"":{""to_address"":""a"",""amount"":[]}}},{""stargate"":{""type_url"":""/u"",""value"":""AQ==""}}],""queries"":[{""bank"":{""supply"":{""denom"":""d""}}}]}}" in
  let t' := "{""send_cosmos_msgs"":{""messages"":[{""staking"":{""delegate"":{""validator"":""v"",""amount"":{""denom"":""d"",""amount"":""1""}}}}]}}" in
  (exists n, from_json jc_lean_execute t = Some n) /\
  (exists m, from_json jc_execute_msg t' = Some m /\ needs_staking m /\ from_json jc_lean_execute t' = None) /\
  (exists m, from_json jc_plain_execute t' = Some m /\ needs_staking (with_no_queries m) /\ from_json jc_bare_execute t' = None).
Proof.
  cbv zeta. split; [eexists; vm_compute; reflexivity|].
  split; (eexists; split; [vm_compute; reflexivity|]; split; [| vm_compute; reflexivity]; left; eexists; split; [left; reflexivity|exact I]).
Qed.
Example C84_packet_case : exists p,
  lean_from_cosmos_msgs [LmBank (BankSend "to" [Coin "uatom" 5])] [LqBank (QBalance "a" "uatom")] Protobuf (Some "memo") "cosmos1account" = Ok p /\
  slen (ip_data p) < u64_lim.
Proof. eexists. split; [reflexivity|]. apply N.ltb_lt. vm_compute. reflexivity. Qed.

Print Assumptions C68_C62_plain_read.
Print Assumptions C68_callbacks.
Print Assumptions C68_every_call.
Print Assumptions C68_requests.
Print Assumptions C68_packets.
Print Assumptions C68_packets_supported.
Print Assumptions C69_at.
Print Assumptions C69_after_messages.
Print Assumptions C84_requests.
Print Assumptions C84_bare_requests.
Print Assumptions C84_packets.
Print Assumptions C84_packets_supported.
