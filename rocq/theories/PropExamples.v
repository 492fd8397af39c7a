(** * PropExamples: properties C70 and C71, JSON and storage of the example contracts. *)

From Verif Require Import Base Text Utf8 Base64 Proto Schemas Json JsonCodec Types JsonTypes Store
  CosmosMsg QueryMsg Metadata Stargate PacketData Features Helpers CounterContract OwnerContract StorageKeys OwnerKeys Ownable Semver Contract JsonSound HostSpec AnswerSpec
  Chain ChainSpec CallSpec OwnerSpec TextSpec WireSpec ReadSpec PropText PropWire PropRead PropFeatures PropCounter PropOwnerContract PropStorage.
Local Open Scope string_scope.
Local Open Scope list_scope.
Local Open Scope N_scope.

(** ** Messages *)

Definition reads_o_instantiate (j : json) (m : o_instantiate_msg) : Prop :=
  exact_object ["admin"; "ica_controller_code_id"] (fun l =>
    maybe l "admin" reads_str (oim_admin m) /\ field l "ica_controller_code_id" (reads_uint (2 ^ 64)) (oim_code_id m)) j.
Definition reads_o_execute (j : json) (m : o_execute_msg) : Prop :=
  match m with
  | OCreate salt o => variant "create_ica_contract" (exact_object ["salt"; "channel_open_init_options"] (fun l =>
      maybe l "salt" reads_str salt /\ field l "channel_open_init_options" reads_options o)) j
  | OSend i t => variant "send_predefined_action" (exact_object ["ica_id"; "to_address"] (fun l =>
      field l "ica_id" (reads_uint (2 ^ 64)) i /\ field l "to_address" reads_str t)) j
  | OCallback m => reads_plain_callback j (without_result m) /\ match m with CbAck _ _ _ q => q = None | _ => True end
  end.
Definition reads_o_query (j : json) (q : o_query_msg) : Prop :=
  match q with
  | OQState => j = tagged "get_contract_state" (JObj [])
  | OQIca i => variant "get_ica_contract_state" (exact_object ["ica_id"] (fun l => field l "ica_id" (reads_uint (2 ^ 64)) i)) j
  | OQCount => j = tagged "get_ica_count" (JObj [])
  end.

Global Hint Resolve options_reads : reads.
Definition with_none (m : plain_callback) : callback_msg :=
  match m with PAck a p r => CbAck a p r None | PTimeout p r => CbTimeout p r | POpenAck c a e => CbOpenAck c a e end.
Lemma o_callback_dec v : jdec jc_callback_plain v = option_map with_none (jdec jc_plain_callback v).
Proof.
  unfold jc_plain_callback, jc_callback_plain. cbn [jdec jc_map].
  match goal with |- context [jdec ?c v] => destruct (jdec c v) as [[(a & p & r)|[(p & r)|(ch & a & e)]]|] end; reflexivity.
Qed.
Lemma o_callback_reads v m : jdec jc_callback_plain v = Some m <->
  reads_plain_callback (tagged "receive_ica_callback" v) (without_result m) /\ match m with CbAck _ _ _ q => q = None | _ => True end.
Proof.
  rewrite <- plain_callback_reads, o_callback_dec. unfold tagged, jc_plain_receiver.
  rewrite (variant_dec _ _ "receive_ica_callback" jc_plain_callback (without_result m)) by at_it.
  assert (E : variant "receive_ica_callback" (fun j => jdec jc_plain_callback j = Some (without_result m)) (JObj [("receive_ica_callback", v)]) <->
    jdec jc_plain_callback v = Some (without_result m)).
  { unfold variant, tagged. split; [intros (u & E & H); injection E as <-; exact H|]. intro H. now exists v. }
  rewrite E. destruct (jdec jc_plain_callback v) as [n|]; cbn [option_map]; [|split; [discriminate|intros [H _]; discriminate H]].
  split.
  - intro H. injection H as <-. destruct n; split; first [reflexivity | exact I].
  - intros [H Q]. injection H as ->. destruct m; cbn in *; subst; reflexivity.
Qed.
Lemma nothing_variant k j : variant k (fun v => v = JObj []) j <-> j = tagged k (JObj []).
Proof. unfold variant, tagged. split; [intros (v & -> & ->); reflexivity|]. intros ->. eauto. Qed.

Theorem C70_messages_read : forall t,
  (forall m, from_json jc_o_instantiate_msg t = Some m <-> text_of reads_o_instantiate t m) /\
  (forall m, from_json jc_o_execute_msg t = Some m <-> text_of reads_o_execute t m) /\
  (forall q, from_json jc_o_query_msg t = Some q <-> text_of reads_o_query t q) /\
  (from_json jc_c_instantiate_msg t = Some tt <-> json_text t (JObj [])) /\
  (forall m, from_json jc_c_execute_msg t = Some m <-> text_of reads_callback t m) /\
  (from_json jc_c_query_msg t = Some tt <-> json_text t (tagged "get_callback_counter" (JObj []))).
Proof.
  intro t. split; [|split; [|split; [|split; [|split]]]].
  - intro m. apply from_text. intro j. unfold jc_o_instantiate_msg. rewrite map_iff by bij. struct.
  - intro m. apply from_text. intro j. unfold jc_o_execute_msg. rewrite map_iff by bij.
    destruct m as [salt o|i to|m]; cbn [reads_o_execute].
    + eapply variant_iff; [at_it|]. intro. struct.
    + eapply variant_iff; [at_it|]. intro. struct.
    + rewrite (variant_dec _ _ "receive_ica_callback" jc_callback_plain m) by at_it. unfold variant. split.
      * intros (v & -> & H). now apply o_callback_reads in H.
      * intros [(v & -> & H) Q]. exists v. split; [reflexivity|]. apply o_callback_reads. split; [|exact Q].
        exists v. split; [reflexivity|exact H].
  - intro q. apply from_text. intro j. unfold jc_o_query_msg. rewrite map_iff by bij.
    destruct q; cbn [reads_o_query].
    + rewrite <- nothing_variant. eapply variant_iff; [at_it|]. intro. apply nothing_reads.
    + eapply variant_iff; [at_it|]. intro. struct.
    + rewrite <- nothing_variant. eapply variant_iff; [at_it|]. intro. apply nothing_reads.
  - rewrite (from_text _ (fun j _ => j = JObj [])) by apply nothing_reads.
    split; [intros (j & H & ->); exact H|]. intro H. now exists (JObj []).
  - intro m. apply from_text. intro. apply callback_reads.
  - rewrite (from_text _ (fun j _ => j = tagged "get_callback_counter" (JObj []))).
    + split; [intros (j & H & ->); exact H|]. intro H. eexists. split; [exact H|reflexivity].
    + intro j. rewrite <- nothing_variant. unfold jc_c_query_msg. eapply variant_iff; [at_it|]. intro. apply nothing_reads.
Qed.

(** ** Answers *)

Definition wire_record (x : ica_contract) : json :=
  JObj [("contract_addr", JStr (ic_addr x));
        ("ica_state", match ic_state x with
           | Some i => JObj [("ica_id", JNum (is_id i)); ("ica_addr", JStr (is_addr i));
               ("tx_encoding", wire_encoding (is_encoding i)); ("channel_state", wire_channel_state (is_channel i))]
           | None => JNull end)].
(** A callback in the answer of the counter is the message without its outer tag. *)
Definition wire_inner (m : callback_msg) : json := match wire_callback m with JObj [(_, j)] => j | j => j end.
Definition wire_counter (c : counter) : json :=
  JObj [("success", JArr (map wire_inner (cn_success c))); ("error", JArr (map wire_inner (cn_error c)));
        ("timeout", JArr (map wire_inner (cn_timeout c)))].

Lemma record_wire x : jenc jc_ica_contract x = wire_record x.
Proof.
  destruct x as [a [[i ad e [ch st]]|]]; [|reflexivity].
  change (jenc jc_ica_contract (IcaContract a (Some (IcaState i ad e (ChannelState ch st))))) with
    (JObj [("contract_addr", JStr a); ("ica_state", JObj [("ica_id", JNum i); ("ica_addr", JStr ad);
      ("tx_encoding", jenc jc_encoding e); ("channel_state", jenc jc_channel_state (ChannelState ch st))])]).
  rewrite encoding_wire, channel_state_wire. reflexivity.
Qed.
Lemma inner_wire m : jenc jc_callback m = wire_inner m.
Proof.
  pose proof (callback_wire m) as E. change (jenc jc_receiver m) with (JObj [("receive_ica_callback", jenc jc_callback m)]) in E.
  unfold wire_inner. now rewrite <- E.
Qed.
Lemma counter_wire c : jenc jc_counter c = wire_counter c.
Proof.
  destruct c as [a b d]. unfold wire_counter. cbn [cn_success cn_error cn_timeout].
  rewrite <- (map_ext _ _ inner_wire a), <- (map_ext _ _ inner_wire b), <- (map_ext _ _ inner_wire d). reflexivity.
Qed.

Theorem C70_answers : forall c w, ocfg_ok c -> oreach c w ->
  (forall i x, i < u64_lim -> record_reported w i x ->
     o_ask w (jprint (tagged "get_ica_contract_state" (JObj [("ica_id", JNum i)]))) = Some (jprint (wire_record x))) /\
  (forall admin code, admin_reported w admin code ->
     o_ask w (jprint (tagged "get_contract_state" (JObj []))) =
       Some (jprint (JObj [("admin", JStr admin); ("ica_controller_code_id", JNum code)]))) /\
  (forall n, count_reported w n -> o_ask w (jprint (tagged "get_ica_count" (JObj []))) = Some (dec n)).
Proof.
  intros c w Hc R. split; [|split].
  - intros i x Hi (t & A & D). change (jprint (tagged "get_ica_contract_state" (JObj [("ica_id", JNum i)]))) with (get_record i).
    rewrite A. destruct (ow_store w) as [s|] eqn:Es; [|unfold o_ask in A; rewrite Es in A; discriminate A].
    rewrite (ask_record w i s Es Hi) in A. rewrite (oi_states c w (oreach_inv c w Hc R) s i Es) in A.
    destruct (nth_error (created (ow_log w)) (N.to_nat i)) as [a|] eqn:En; [|discriminate A]. cbn [option_map] in A. injection A as <-.
    rewrite json_roundtrip in D; [|exact jc_ica_contract_ok|]. 
    + injection D as ->. unfold to_json. now rewrite record_wire.
    + apply (record_jval c); [exact (oreach_inv c w Hc R)|exact Hi|]. now apply nth_error_In in En.
  - intros admin code (t & A & D). change (jprint (tagged "get_contract_state" (JObj []))) with get_owner_state. rewrite A.
    unfold o_ask in A. destruct (ow_store w) as [s|] eqn:Es; [|discriminate A]. cbn [obind] in A.
    replace (from_json jc_o_query_msg get_owner_state) with (Some OQState) in A by (vm_compute; reflexivity). cbn [obind o_query] in A.
    destruct (oi_admin c w (oreach_inv c w Hc R) s Es) as (x & Ex & J). rewrite Ex in A. cbn [of_option bindo] in A. injection A as <-.
    rewrite json_roundtrip in D by first [exact jc_o_state_ok|exact J]. injection D as ->. reflexivity.
  - intros n (t & A & D). change (jprint (tagged "get_ica_count" (JObj []))) with get_count. rewrite A.
    unfold o_ask in A. destruct (ow_store w) as [s|] eqn:Es; [|discriminate A]. cbn [obind] in A.
    replace (from_json jc_o_query_msg get_count) with (Some OQCount) in A by (vm_compute; reflexivity). cbn [obind o_query] in A.
    rewrite (oi_count c w (oreach_inv c w Hc R) s Es) in A.
    destruct (count_of (created (ow_log w))) as [k|] eqn:Ek; [|discriminate A]. cbn [of_option bindo] in A. injection A as <-.
    assert (Hk : k < u64_lim). { pose proof (oi_few c w (oreach_inv c w Hc R)). pose proof (count_or_0 (created (ow_log w))) as E. rewrite Ek in E. cbn in E. now rewrite E. }
    rewrite json_roundtrip in D by first [apply jc_uint_ok|exact Hk]. injection D as ->. reflexivity.
Qed.

(** The counter's answer after any calls. *)
Theorem C70_counter : forall raws,
  let l := readable jc_c_execute_msg raws in
  c_query (after raws) (jprint (tagged "get_callback_counter" (JObj []))) =
    Some (jprint (wire_counter (Counter (filter is_success l) (filter is_error l) (filter is_timeout l)))).
Proof.
  intros raws l. change (jprint (tagged "get_callback_counter" (JObj []))) with get_callback_counter.
  rewrite <- counter_wire. unfold c_query. rewrite after_sorted.
  replace (from_json jc_c_query_msg get_callback_counter) with (Some tt) by (vm_compute; reflexivity). reflexivity.
Qed.

Example C70_read_case : text_of reads_o_execute
  "{ ""create_ica_contract"" : {""channel_open_init_options"":{""counterparty_connection_id"":""connection-1"",""connection_id"":""connection-0""}}}"
  (OCreate None (OpenOptions "connection-0" "connection-1" None None)).
Proof. apply C70_messages_read. vm_compute. reflexivity. Qed.
Definition x70 : ica_contract := IcaContract "wasmB" (Some (IcaState 1 "cosmos1acc" Protobuf (ChannelState (ch57 "channel-7") StOpen))).
Example C70_answer_case : record_reported w49 1 x70 /\ count_reported w49 2.
Proof.
  split; [exists (to_json jc_ica_contract x70)|exists "2"]; split; vm_compute; reflexivity.
Qed.

Print Assumptions C70_messages_read.
Print Assumptions C70_answers.
Print Assumptions C70_counter.

(** ** C71: the owner example's storage *)

Theorem C71_no_alias : forall x y, oslot_ok x -> oslot_ok y -> oslot_key x = oslot_key y -> x = y.
Proof.
  intros x y Hx Hy H. destruct x, y; try reflexivity; try discriminate H; cbn [oslot_key] in H; apply sapp_inj_l in H; subst; try reflexivity.
  cbn [oslot_ok] in Hx, Hy. apply be_inj in H; [now subst|exact Hx|exact Hy].
Qed.

(** Under the key of every slot the bytes are the JSON of the typed value, or nothing. *)
Definition oholds (r : raw_store) (s : ostore) : Prop :=
  forall x, oslot_ok x -> r (oslot_key x) = option_map (to_json (oslot_codec x)) (oslot_get x s).

Lemma oslot_eq_dec (x y : oslot) : {x = y} + {x <> y}.
Proof. repeat decide equality. Qed.
Theorem C71_save : forall r s x v, oslot_ok x -> oholds r s -> oholds (oraw_save x v r) (oslot_put x v s).
Proof.
  intros r s x v Hx H y Hy. unfold oraw_save, raw_put. destruct (oslot_eq_dec x y) as [->|N].
  - rewrite String.eqb_refl. destruct y; cbn; rewrite ?N.eqb_refl, ?String.eqb_refl; reflexivity.
  - destruct (String.eqb (oslot_key x) (oslot_key y)) eqn:E; [apply String.eqb_eq in E; elim N; now apply C71_no_alias|].
    rewrite (H y Hy). f_equal. destruct x, y; cbn; try reflexivity; try (now elim N).
    + destruct (i =? i0) eqn:Ei; [|reflexivity]. apply N.eqb_eq in Ei. subst. now elim N.
    + destruct (String.eqb addr addr0) eqn:Ea; [|reflexivity]. apply String.eqb_eq in Ea. subst. now elim N.
Qed.

(** What was saved is what is loaded, at any time of any history. *)
Theorem C71_loads : forall c w s r x, ocfg_ok c -> oreach c w -> ow_store w = Some s -> oholds r s -> oslot_ok x ->
  oraw_load x r = Some (oslot_get x s).
Proof.
  intros c w s r x Hc R Es H Hx. unfold oraw_load. rewrite (H x Hx).
  destruct (oslot_get x s) as [v|] eqn:G; [|reflexivity]. cbn [option_map].
  assert (Iw := oreach_inv c w Hc R). destruct x; cbn [oslot_get oslot_type oslot_codec oslot_ok] in *.
  - rewrite json_roundtrip; [reflexivity|exact jc_o_state_ok|].
    destruct (oi_admin c w Iw s Es) as (x & Ex & J). rewrite Ex in G. now injection G as <-.
  - rewrite json_roundtrip; [reflexivity|exact jc_ica_contract_ok|]. rewrite (oi_states c w Iw s i Es) in G.
    destruct (nth_error (created (ow_log w)) (N.to_nat i)) as [a|] eqn:En; [|discriminate G]. injection G as <-.
    apply (record_jval c); [exact Iw|exact Hx|]. now apply nth_error_In in En.
  - rewrite json_roundtrip; [reflexivity|apply jc_uint_ok|]. rewrite (oi_count c w Iw s Es) in G.
    pose proof (oi_few c w Iw) as F. pose proof (count_or_0 (created (ow_log w))) as E. rewrite G in E. cbn in E. now rewrite <- E in F.
  - rewrite json_roundtrip; [reflexivity|apply jc_uint_ok|]. apply (oi_ids c w Iw s addr v Es) in G.
    assert (L : (N.to_nat v < length (created (ow_log w)))%nat) by (apply nth_error_Some; now rewrite G).
    pose proof (oi_few c w Iw). change (v < u64_lim). lia.
Qed.

Example C71_case : oslot_ok (OSRecord 1) /\ oslot_key (OSRecord 1) <> oslot_key (OSId (be 8 1)) /\
  oholds (fun _ => None) empty_ostore /\ oholds (oraw_save (OSId "wasmA") 0 (fun _ => None)) (put_id "wasmA" 0 empty_ostore).
Proof.
  assert (H : oholds (fun _ => None) empty_ostore) by (intros [] _; reflexivity).
  split; [reflexivity|]. split; [vm_compute; discriminate|]. split; [exact H|]. exact (C71_save _ _ (OSId "wasmA") 0 I H).
Qed.

Print Assumptions C71_no_alias.
Print Assumptions C71_save.
Print Assumptions C71_loads.
