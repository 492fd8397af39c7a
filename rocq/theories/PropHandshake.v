(** * PropHandshake: the start of the handshake (C06, C07, C47). *)

From Verif Require Import Base Text Utf8 Json JsonCodec Types JsonTypes Store Metadata Stargate Ownable Contract JsonSound
  HostSpec PacketFacts EntryFacts Chain ChainSpec Trans Inv HistorySpec History Queries HistFacts Enabled Witness.
Local Open Scope string_scope.
Local Open Scope list_scope.
Local Open Scope N_scope.

(** A call that requests a channel: instantiate or CreateChannel, with the store
    it leaves and its response; and the options it uses. *)
Inductive requests (a : api) (e : env) (s : cstore) : open_options -> cstore -> response -> Prop :=
| R_instantiate sender m s1 r :
    s = empty_store -> jval jc_instantiate_msg m -> instantiate a e sender m = Ok (s1, r) ->
    requests a e s (im_options m) s1 r
| R_create sender opts o s1 r :
    jval jc_execute_msg (XCreateChannel opts) -> execute a s e sender (XCreateChannel opts) = Ok (s1, r) ->
    match opts with Some o' => o = o' | None => st_options s = Some o /\ utf8_options o end ->
    requests a e s o s1 r.

Lemma requests_msg a e s o s1 r : requests a e s o s1 r ->
  utf8_options o /\ flag (st_allow_open s1) = true /\ recorded_open s1 = recorded_open s /\
  r_msgs r = [SubMsg (MStargate "/ibc.core.channel.v1.MsgChannelOpenInit" (open_init_bytes (env_contract e) o)) None] /\
  r_events r = [].
Proof.
  intros [sender m s1' r' Hs J H|sender opts o' s1' r' J H Ho].
  - apply instantiate_ok in H as (_ & _ & -> & ->). subst s. split; [now apply jval_inst_options|]. repeat split.
  - cbn [execute] in H. apply create_channel_ok in H as (_ & o2 & H & -> & ->).
    assert (E : o2 = o' /\ utf8_options o').
    { destruct opts as [x|]; [subst; split; [reflexivity|now apply jval_create_options]|].
      destruct Ho. split; [congruence|assumption]. }
    destruct E as [-> E]. split; [exact E|]. repeat split.
Qed.

(** ** C07: the message carries exactly the requested channel *)

Theorem C07_open_init_message : forall a e s o s1 r,
  requests a e s o s1 r -> utf8 (env_contract e) ->
  exists bytes, r_events r = [] /\
    r_msgs r = [SubMsg (MStargate "/ibc.core.channel.v1.MsgChannelOpenInit" bytes) None] /\
    (slen bytes < u64_lim -> exists oi,
      core_open_init bytes = Some oi /\
      oi_port oi = "wasm." +++ env_contract e /\ oi_signer oi = env_contract e /\
      oi_state oi = 1 /\ oi_order oi = (match oo_ordering o with Some Unordered => 1 | _ => 2 end) /\
      oi_cp_port oi = unwrap_or (oo_cp_port o) "icahost" /\ oi_cp_chan oi = "" /\
      oi_hops oi = [oo_connection o] /\
      from_json jc_metadata (oi_version oi) =
        Some (Metadata "ics27-1" (oo_connection o) (oo_cp_connection o) "" Protobuf "sdk_multi_msg")).
Proof.
  intros a e s o s1 r H He. destruct (requests_msg _ _ _ _ _ _ H) as (Hu & _ & _ & Hm & Hev).
  exists (open_init_bytes (env_contract e) o). split; [exact Hev|]. split; [exact Hm|]. intro Hl.
  eexists. split; [now apply open_init_decodes|].
  cbn [oi_port oi_signer oi_state oi_order oi_cp_port oi_cp_chan oi_hops oi_version].
  do 3 (split; [reflexivity|]). split; [destruct (oo_ordering o) as [[]|]; reflexivity|]. do 3 (split; [reflexivity|]).
  apply metadata_roundtrip, fresh_jval; apply Hu.
Qed.

(** ** C06: the contract accepts its own message *)

(** The channel IBC core presents to the contract for a MsgChannelOpenInit; the
    local end point is chosen by the chain. *)
Definition presents (bytes : string) (ch : channel) : Prop :=
  exists oi, core_open_init bytes = Some oi /\
    ch_counterparty ch = Endpoint (oi_cp_port oi) (oi_cp_chan oi) /\
    ch_version ch = oi_version oi /\ oi_hops oi = [ch_connection ch] /\
    oi_order oi = match ch_order ch with Unordered => 1 | Ordered => 2 end.

Theorem C06_own_message_accepted : forall a e s o s1 r bytes ch,
  requests a e s o s1 r -> utf8 (env_contract e) ->
  r_msgs r = [SubMsg (MStargate "/ibc.core.channel.v1.MsgChannelOpenInit" bytes) None] ->
  slen bytes < u64_lim -> presents bytes ch ->
  ((exists s2 v, ibc_channel_open a s1 (MOpenInit ch) = Ok (s2, v)) <->
   (oo_cp_port o = None \/ oo_cp_port o = Some "icahost") /\
   ~ exists cs, st_channel s = Some cs /\ cst_status cs = StOpen) /\
  forall s2 v, ibc_channel_open a s1 (MOpenInit ch) = Ok (s2, v) ->
    v = ch_version ch /\ flag (st_allow_open s2) = false /\ s2 = set_allow_open (st_allow_open s2) s1.
Proof.
  intros a e s o s1 r bytes ch H He Hm Hl (oi & Hoi & P1 & P2 & P3 & P4).
  destruct (requests_msg _ _ _ _ _ _ H) as (Hu & Hf & Hr & Hm' & _).
  rewrite Hm' in Hm. injection Hm as <-. rewrite open_init_decodes in Hoi by assumption. injection Hoi as <-.
  cbn [oi_cp_port oi_cp_chan oi_version oi_hops] in *. injection P3 as P3.
  destruct ch as [ep cp ord ver conn]. cbn [ch_counterparty ch_version ch_connection] in *. subst cp ver conn.
  cbn [ibc_channel_open]. rewrite on_open_init_own; [|apply Hu|apply Hu|exact Hf].
  assert (Ep : unwrap_or (oo_cp_port o) "icahost" = "icahost" <-> oo_cp_port o = None \/ oo_cp_port o = Some "icahost").
  { destruct (oo_cp_port o) as [x|]; cbn; intuition congruence. }
  assert (Er : recorded_open s1 = false <-> ~ exists cs, st_channel s = Some cs /\ cst_status cs = StOpen).
  { rewrite Hr. unfold recorded_open, is_open. destruct (st_channel s) as [[cch []]|]; cbn; split; intro X;
      first [reflexivity | discriminate
            | intros (x & Hx & Hy); inversion Hx; subst; discriminate
            | elim X; eexists; split; reflexivity]. }
  destruct (String.eqb_spec (unwrap_or (oo_cp_port o) "icahost") "icahost") as [E|E]; cbn [negb].
  - destruct (recorded_open s1) eqn:Eo.
    + split; [|discriminate]. split; [intros (? & ? & X); discriminate|]. intros [_ X]. apply Er in X. discriminate.
    + split.
      * split; [intros _|eauto]. split; [now apply Ep|now apply Er].
      * intros s2 v X. injection X as <- <-. repeat split.
  - split; [|discriminate]. split; [intros (? & ? & X); discriminate|]. intros [X _]. apply Ep in X. contradiction.
Qed.

Definition e0 : env := Env 10 1000 "controller".
Definition odd_options : open_options := OpenOptions "conn""\	é" "" (Some "icahost") (Some Unordered).
Example C06_C07_case : exists s1 r bytes ch s2 v,
  requests api0 e0 empty_store odd_options s1 r /\
  r_msgs r = [SubMsg (MStargate "/ibc.core.channel.v1.MsgChannelOpenInit" bytes) None] /\
  slen bytes < u64_lim /\ presents bytes ch /\ ibc_channel_open api0 s1 (MOpenInit ch) = Ok (s2, v).
Proof.
  eexists _, _, _, (Channel (Endpoint "wasm.controller" "channel-0") (Endpoint "icahost" "") Unordered
     (to_json jc_metadata (fresh_metadata "conn""\	é" "")) "conn""\	é"), _, _.
  split.
  { eapply (R_instantiate api0 e0 empty_store "me" (InstantiateMsg None odd_options None)); [reflexivity| |reflexivity].
    eapply (from_json_valid _ (to_json jc_instantiate_msg (InstantiateMsg None odd_options None)) _ jc_instantiate_msg_sound).
    vm_compute. reflexivity. }
  split; [reflexivity|]. split; [vm_compute; reflexivity|]. split; [| vm_compute; reflexivity].
  eexists. split; [vm_compute; reflexivity|]. repeat split; vm_compute; reflexivity.
Qed.

(** ** C47: an empty version *)

(** Metadata that may be proposed for a channel: as for an open acknowledgement,
    but the account may still be empty. *)
Definition acceptable (c : cfg) (conn : string) (md : metadata) : Prop :=
  md_version md = "ics27-1" /\ md_controller md = conn /\ md_encoding md = Protobuf /\
  md_tx_type md = "sdk_multi_msg" /\ (md_address md = "" \/ account_address c (md_address md)).

Lemma validate_acceptable c md ch : validate_metadata (c_api c) md ch = Ok tt <-> acceptable c (ch_connection ch) md.
Proof.
  split.
  - intro H. destruct (validate_metadata_ok _ _ _ H) as (V1 & V2 & V3 & V4 & V5).
    repeat split; auto. destruct (string_dec (md_address md) "") as [E|E]; [auto|right].
    destruct (agreed c md ch H E) as (_ & _ & _ & _ & A). exact A.
  - intros (V1 & V2 & V3 & V4 & [V5|V5]).
    + unfold validate_metadata. rewrite V1, V2, V3, V4, V5. change (String.eqb "ics27-1" ICA_VERSION) with true.
      rewrite String.eqb_refl. reflexivity.
    + apply validate_agreed. repeat split; auto; apply V5.
Qed.

(** An empty version on OpenInit leads to the same result as an explicit one,
    which is the metadata negotiated for the recorded channel if there is one
    and otherwise fresh metadata from the saved options; it must be acceptable. *)
Theorem C47_version_fallback : forall c s ep cp ord conn s' v,
  match st_options s with Some o => utf8_options o | None => True end ->
  ibc_channel_open (c_api c) s (MOpenInit (Channel ep cp ord "" conn)) = Ok (s', v) ->
  ibc_channel_open (c_api c) s (MOpenInit (Channel ep cp ord v conn)) = Ok (s', v) /\
  exists md, from_json jc_metadata v = Some md /\ acceptable c conn md /\
    match (cs <-? st_channel s ;; from_json jc_metadata (ch_version (cst_channel cs))) with
    | Some previous => md = previous
    | None => exists o, st_options s = Some o /\ oo_connection o = conn /\
        md = Metadata "ics27-1" (oo_connection o) (oo_cp_connection o) "" Protobuf "sdk_multi_msg"
    end.
Proof.
  intros c s ep cp ord conn s' v Ho H. cbn [ibc_channel_open] in *. unfold on_open_init in *.
  destruct (flag (st_allow_open s)) eqn:Ef; cbn [negb] in *; [|discriminate].
  cbn [ch_counterparty ch_version] in *.
  destruct (String.eqb (e_port cp) HOST_PORT_ID); cbn [negb] in *; [|discriminate].
  cbn [sempty] in H. apply bindo_ok in H as (md & Hmd & H). apply bindo_ok in H as ([] & Hv & H).
  assert (Hval : acceptable c conn md).
  { apply (validate_acceptable c md (Channel ep cp ord "" conn)). exact Hv. }
  destruct (match st_channel (set_allow_open (Some false) s) with Some x => is_open x | None => false end) eqn:Eo; [discriminate|].
  injection H as <- <-.
  assert (J : jval jc_metadata md /\
    match (cs <-? st_channel s ;; from_json jc_metadata (ch_version (cst_channel cs))) with
    | Some previous => md = previous
    | None => exists o, st_options s = Some o /\ oo_connection o = conn /\
        md = Metadata "ics27-1" (oo_connection o) (oo_cp_connection o) "" Protobuf "sdk_multi_msg"
    end).
  { unfold metadata_from_channel, metadata_from_string in Hmd.
    change (st_channel (set_allow_open (Some false) s)) with (st_channel s) in Hmd.
    change (st_options (set_allow_open (Some false) s)) with (st_options s) in Hmd.
    match type of Hmd with match ?x with _ => _ end = _ => destruct x as [p|] eqn:Ep end.
    - injection Hmd as <-. split; [|reflexivity].
      destruct (st_channel s); [|discriminate]. eapply from_json_valid; [apply jc_metadata_sound|exact Ep].
    - apply bindo_ok in Hmd as (o & Hopt & Hmd). apply load_ok in Hopt. rewrite Hopt in Ho.
      destruct (String.eqb_spec (oo_connection o) (ch_connection (Channel ep cp ord "" conn))) as [E|]; [|discriminate].
      injection Hmd as <-. split; [apply fresh_jval; apply Ho|]. exists o. auto. }
  destruct J as [J1 J2].
  assert (R : from_json jc_metadata (metadata_to_string md) = Some md) by now apply metadata_roundtrip.
  split; [|exists md; auto].
  assert (Es : sempty (metadata_to_string md) = false).
  { destruct (metadata_to_string md) eqn:E; [|reflexivity].
    assert (X : from_json jc_metadata "" = None) by (vm_compute; reflexivity). congruence. }
  rewrite Es. unfold metadata_from_string at 1. rewrite R. cbn [of_option bindo].
  assert (Hv' : validate_metadata (c_api c) md (Channel ep cp ord (metadata_to_string md) conn) = Ok tt).
  { apply validate_acceptable. exact Hval. }
  rewrite Hv'. reflexivity.
Qed.
(** Both cases occur. *)
Definition s47 : cstore :=
  match w_store (world_of (ordered_open ++ [exec "owner" XCloseChannel ""])) with Some s => s | None => empty_store end.
Example C47_case : exists s s' v v',
  ibc_channel_open api0 (set_allow_open (Some true) s) (MOpenInit (Channel (Endpoint "" "") (Endpoint "icahost" "") Ordered "" "connection-0"))
    = Ok (s', v) /\ (exists cs, st_channel s = Some cs) /\
  ibc_channel_open api0 (set_channel None (set_allow_open (Some true) s)) (MOpenInit (Channel (Endpoint "" "") (Endpoint "icahost" "") Ordered "" "connection-0"))
    = Ok (set_channel None s', v') /\ v <> v'.
Proof.
  exists s47. eexists _, _, _. split; [vm_compute; reflexivity|].
  split; [eexists; vm_compute; reflexivity|]. split; [vm_compute; reflexivity|discriminate].
Qed.

Print Assumptions C06_own_message_accepted.
Print Assumptions C07_open_init_message.
Print Assumptions C47_version_fallback.
