(** * EntryFacts: facts about single entry points. *)

From Verif Require Import Base Text Utf8 Base64 Proto ProtoFacts Schemas Json JsonCodec Types JsonTypes Store
  CosmosMsg QueryMsg Metadata Stargate PacketData Ownable Semver Contract JsonSound HostSpec HostFacts PacketFacts.
Local Open Scope string_scope.
Local Open Scope list_scope.
Local Open Scope N_scope.

(** ** The start of a handshake *)

Lemma open_init_msg_bytes e o :
  open_init_msg e o = MStargate "/ibc.core.channel.v1.MsgChannelOpenInit" (open_init_bytes (env_contract e) o).
Proof. reflexivity. Qed.

Definition recorded_open (s : cstore) : bool :=
  match st_channel s with Some c => is_open c | None => false end.

Lemma on_open_init_own a s ep cp_port o h conn :
  utf8 conn -> utf8 h -> flag (st_allow_open s) = true ->
  on_open_init a s (Channel ep (Endpoint cp_port "") o (to_json jc_metadata (fresh_metadata conn h)) conn) =
  if negb (String.eqb cp_port "icahost") then Err EInvalidHostPort
  else if recorded_open s then Err EActiveChannelAlreadySet
  else Ok (set_allow_open (Some false) s, to_json jc_metadata (fresh_metadata conn h)).
Proof.
  intros Hc Hh Hf. unfold on_open_init. rewrite Hf. cbn [negb ch_counterparty e_port ch_version].
  change HOST_PORT_ID with "icahost".
  destruct (String.eqb cp_port "icahost"); cbn [negb]; [|reflexivity].
  assert (Hne : sempty (to_json jc_metadata (fresh_metadata conn h)) = false).
  { unfold to_json.
    assert (E : exists l, jenc jc_metadata (fresh_metadata conn h) = JObj l) by (eexists; reflexivity).
    destruct E as [l ->]. destruct l as [|[] ?]; reflexivity. }
  rewrite Hne. unfold metadata_from_string.
  rewrite metadata_roundtrip by now apply fresh_jval. cbn [of_option bindo].
  unfold validate_metadata. unfold fresh_metadata at 1 2 3 4 5 6.
  cbn [md_version md_controller md_encoding md_address md_tx_type ch_connection].
  rewrite !String.eqb_refl. cbn [negb sempty bindo]. unfold recorded_open.
  change (st_channel (set_allow_open (Some false) s)) with (st_channel s). reflexivity.
Qed.

(** ** The reply to SendPacket *)

Lemma bufany_send_response a n : 1 <= n < u64_lim -> bufany_uint64_1 a (send_response n) = Ok n.
Proof.
  intro H. unfold bufany_uint64_1, send_response, pb_encode.
  assert (E : wires to_wire [u_ 1] [[VNum n]] = [(1, WVar n)]).
  { cbn [wires u_ app]. cbn. destruct n; [lia|]. reflexivity. }
  rewrite E, dfields_efields.
  - reflexivity.
  - cbn. repeat constructor; cbn; lia.
Qed.
