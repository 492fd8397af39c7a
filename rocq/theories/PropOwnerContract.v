(** * PropOwnerContract: properties C49, C55, C57 and C58, the example contract
    that owns controllers. *)

From Verif Require Import Base Text Utf8 Base64 Proto Json JsonCodec Types JsonTypes Store JsonSound HostSpec AnswerSpec EntryFacts
  Chain ChainSpec Trans Inv HistorySpec History Queries HistFacts Witness CallSpec CallFacts Helpers OwnerContract OwnerSpec.
From Coq Require Import ZifyBool ZifyN ZifyNat.
Local Open Scope string_scope.
Local Open Scope list_scope.
Local Open Scope N_scope.

Lemma jc_o_state_ok : jcodec_ok jc_o_state. Proof. unfold jc_o_state. jok. Qed.
Lemma jc_ica_state_ok : jcodec_ok jc_ica_state. Proof. unfold jc_ica_state. jmap. Qed.
Global Hint Resolve jc_ica_state_ok : jcodec.
Lemma jc_ica_contract_ok : jcodec_ok jc_ica_contract.
Proof. unfold jc_ica_contract. apply jc_map_ok; [intros []; reflexivity|]. jok. Qed.
Lemma jc_o_query_msg_ok : jcodec_ok jc_o_query_msg. Proof. unfold jc_o_query_msg. jmap. Qed.
Lemma jc_callback_plain_sound : jsound jc_callback_plain. Proof. jmaps. Qed.
Global Hint Resolve jc_callback_plain_sound : jsound.
Lemma jc_o_execute_msg_sound : jsound jc_o_execute_msg. Proof. jmaps. Qed.
Lemma jc_o_instantiate_msg_sound : jsound jc_o_instantiate_msg. Proof. jmaps. Qed.

(** ** C55: callbacks are readable without the "query" feature

    A contract compiled without that feature reads every callback a controller
    can send, with everything but the query result. *)
Lemma plain_dec m : jval jc_callback m -> jdec jc_callback_plain (jenc jc_callback m) = Some (plain m).
Proof.
  destruct m as [d p r q|p r|ch a e]; intro J; cbn [jval jc_callback jc_map jc_enum v_sum vval v_struct v_one jc_struct o_pair oval] in J.
  - destruct J as (J1 & J2 & J3 & J4).
    assert (D1 := proj2 (jc_ack_ok _ J1)). assert (D2 := proj2 (jc_packet_ok _ J2)). assert (D3 := proj2 (jc_str_ok _ J3)).
    cbn -[jc_ack jc_packet jc_str jc_query_result nodupb]. cbn in J1.
    destruct q as [q|]; cbn -[jc_ack jc_packet jc_str jc_query_result];
    cbn [fst snd] in D1, D2, D3; rewrite D1, D2, D3; reflexivity.
  - destruct J as (J1 & J2).
    assert (D1 := proj2 (jc_packet_ok _ J1)). assert (D2 := proj2 (jc_str_ok _ J2)).
    cbn -[jc_ack jc_packet jc_str jc_query_result].
    cbn [fst snd] in D1, D2; rewrite D1, D2; reflexivity.
  - destruct J as (J1 & J2 & J3).
    assert (D1 := proj2 (jc_channel_ok _ J1)). assert (D2 := proj2 (jc_str_ok _ J2)). assert (D3 := proj2 (jc_encoding_ok _ J3)).
    cbn -[jc_channel jc_encoding jc_str].
    cbn [fst snd] in D1, D2, D3; rewrite D1, D2, D3; reflexivity.
Qed.
Theorem C55_reads : forall m, jval jc_callback m ->
  from_json jc_receiver (to_json jc_receiver m) = Some m /\
  from_json jc_o_execute_msg (to_json jc_receiver m) = Some (OCallback (plain m)).
Proof.
  intros m J. split; [apply json_roundtrip; [exact jc_receiver_ok|exact J]|].
  unfold from_json, to_json. rewrite jparse_print by (apply (jc_receiver_ok m J)). cbn [obind].
  change (jenc jc_receiver m) with (JObj [("receive_ica_callback", jenc jc_callback m)]).
  cbn -[jc_callback_plain jc_callback jc_options jc_str]. now rewrite plain_dec.
Qed.

(** All calls of all histories can be read in both ways. *)
Theorem C55_history : forall c w addr msg, cfg_ok c -> visited c w -> In (LCall addr msg) (w_log w) ->
  exists m, from_json jc_receiver msg = Some m /\ from_json jc_o_execute_msg msg = Some (OCallback (plain m)).
Proof.
  intros c w addr msg Hc V Hin. apply in_split in Hin as (l1 & l2 & E).
  destruct (hist_item _ _ _ _ _ (visited_hist c w Hc V) E) as (l0 & n1 & n2 & _ & B & _).
  block_cases B; 
    match goal with E : LCall _ (to_json _ ?m) = _ |- _ => injection E as _ <- end;
    match goal with J : jval jc_receiver ?m |- _ => exists m; exact (C55_reads m J) end.
Qed.
Example C55_case : exists w msg m, visited cfg0 w /\ In (LCall "cb" msg) (w_log w) /\ from_json jc_receiver msg = Some m /\ m <> plain m.
Proof.
  exists (world_of (with_query ++ [ack "channel-0" 1 (AckError "no")])). eexists _, _. split; [apply world_visited|].
  split; [vm_compute; left; reflexivity|]. split; [vm_compute; reflexivity|discriminate].
Qed.

(** ** The invariant of the owner contract's histories *)
Definition count_of (l : list string) : option N := match l with [] => None | _ :: _ => Some (N.of_nat (length l)) end.
Record oinv (c : ocfg) (w : oworld) : Prop := {
  oi_none : ow_store w = None -> ow_log w = [];
  oi_self : forall s, ow_store w = Some s -> ow_exists w (oc_self c) = true;
  oi_exists : Forall (fun a => ow_exists w a = true /\ utf8 a) (created (ow_log w));
  oi_nodup : NoDup (created (ow_log w));
  oi_few : N.of_nat (length (created (ow_log w))) < u64_lim;
  oi_admin : forall s, ow_store w = Some s -> exists x, os_admin s = Some x /\ jval jc_o_state x;
  oi_count : forall s, ow_store w = Some s ->
    os_count s = count_of (created (ow_log w));
  oi_states : forall s i, ow_store w = Some s ->
    os_states s i = option_map (fun a => record_of i a (ow_log w)) (nth_error (created (ow_log w)) (N.to_nat i));
  oi_ids : forall s a i, ow_store w = Some s ->
    os_ids s a = Some i <-> nth_error (created (ow_log w)) (N.to_nat i) = Some a;
  oi_open : forall a ch acc e, opened_by a (ow_log w) = Some (ch, acc, e) -> jval jc_channel ch /\ utf8 acc /\ In a (created (ow_log w));
  oi_made : forall a code m, In (OCreated a code m) (ow_log w) ->
    im_owner m = Some (oc_self c) /\ im_callbacks m = Some (oc_self c) /\
    exists s admin, ow_store w = Some s /\ os_admin s = Some (admin, code);
  oi_sent : forall a m, In (OSentTo a m) (ow_log w) ->
    In a (created (ow_log w)) /\ exists to, m = XSendCosmosMsgs [MBank (BankSend to [Coin "stake" 100])] [] None None;
  oi_called : forall a m, In (OCalled a m) (ow_log w) -> In a (created (ow_log w))
}.

Lemma count_or_0 (l : list string) : unwrap_or (count_of l) 0 = N.of_nat (length l).
Proof. now destruct l. Qed.
Lemma nth_last {A} (l : list A) x n :
  nth_error (l ++ [x]) n = if (n =? length l)%nat then Some x else nth_error l n.
Proof.
  destruct (Nat.eqb_spec n (length l)) as [->|H].
  - rewrite nth_error_app2 by lia. now rewrite Nat.sub_diag.
  - destruct (Nat.ltb_spec n (length l)); [now rewrite nth_error_app1|].
    rewrite nth_error_app2 by lia. destruct (n - length l)%nat as [|k] eqn:E; [lia|]. cbn. destruct k; cbn; symmetry; apply nth_error_None; lia.
Qed.

Lemma jval_action to : utf8 to -> jval jc_execute_msg (XSendCosmosMsgs [MBank (BankSend to [Coin "stake" 100])] [] None None).
Proof.
  intro H. change (jval jc_execute_msg (XSendCosmosMsgs [MBank (BankSend to [Coin "stake" 100])] [] None None)) with
   (Forall (jval jc_cosmos_msg) [MBank (BankSend to [Coin "stake" 100])] /\ Forall (jval jc_query_request) [] /\ True /\ True).
  split; [|repeat split; constructor].
  constructor; [|constructor]. split; [exact H|]. constructor; [|constructor]. split; reflexivity.
Qed.

Lemma oinv_init c : oinv c o_init.
Proof.
  split; cbn; try discriminate; try (intros; contradiction); try constructor; try (intros; discriminate).
Qed.

Definition made_msg (c : ocfg) (opts : open_options) : instantiate_msg := InstantiateMsg (Some (oc_self c)) opts (Some (oc_self c)).
Lemma made_jval c opts : ocfg_ok c -> jval jc_options opts -> jval jc_instantiate_msg (made_msg c opts).
Proof. intros [H _] J. split; [|split]; [split; [exact H|discriminate]|exact J|split; [exact H|discriminate]]. Qed.
Lemma o_execute_jval raw m : from_json jc_o_execute_msg raw = Some m ->
  match m with
  | OCreate _ o => jval jc_options o
  | OSend _ to => utf8 to
  | OCallback (CbOpenAck ch acc _) => jval jc_channel ch /\ utf8 acc
  | _ => True
  end.
Proof.
  intro H. apply (from_json_valid _ _ _ jc_o_execute_msg_sound) in H. destruct m as [salt o|i to|[| |ch acc e]]; try exact I; try apply H.
  split; apply H.
Qed.

(** What an execution does. *)
Inductive o_effect (c : ocfg) (w : oworld) (s : ostore) (admin : string) (code : N) (sender : string) : oworld -> Prop :=
| OE_create addr opts m :
    admin = sender -> utf8 addr -> ow_exists w addr = false -> unwrap_or (os_count s) 0 + 1 < u64_lim ->
    m = made_msg c opts ->
    o_effect c w s admin code sender
      (OWorld (Some (put_count (unwrap_or (os_count s) 0 + 1) (put_id addr (unwrap_or (os_count s) 0)
                       (put_state (unwrap_or (os_count s) 0) (IcaContract addr None) s))))
         (fun b => String.eqb addr b || ow_exists w b) (OCreated addr code m :: ow_log w))
| OE_send i x to m :
    admin = sender -> os_states s i = Some x -> m = XSendCosmosMsgs [MBank (BankSend to [Coin "stake" 100])] [] None None ->
    o_effect c w s admin code sender (OWorld (Some s) (ow_exists w) (OSentTo (ic_addr x) m :: ow_log w))
| OE_callback i x m s' :
    os_ids s sender = Some i -> os_states s i = Some x ->
    s' = match m with
         | CbOpenAck ch acc enc => put_state i (IcaContract (ic_addr x) (Some (IcaState i acc enc (ChannelState ch StOpen)))) s
         | _ => s
         end ->
    match m with CbOpenAck ch acc _ => jval jc_channel ch /\ utf8 acc | _ => True end ->
    o_effect c w s admin code sender (OWorld (Some s') (ow_exists w) (OCalled sender m :: ow_log w)).

Lemma predicted_utf8 c sender code salt addr : ocfg_ok c -> predicted (oc_chain c) sender code salt = Some addr -> utf8 addr.
Proof.
  intros [_ Hh] H. unfold predicted in H. apply obind_some in H as (? & _ & H). apply obind_some in H as (? & _ & H).
  apply obind_some in H as (? & _ & H). exact (Hh _ _ H).
Qed.
Lemma create_effect c w s admin code h t sender salt opts ok s' msgs w' : ocfg_ok c ->
  os_admin s = Some (admin, code) -> jval jc_options opts ->
  o_create (oc_chain c) s (Env h t (oc_self c)) sender salt opts = Ok (s', msgs) ->
  o_dispatch c ok msgs (OWorld (Some s') (ow_exists w) (ow_log w)) = Some w' -> o_effect c w s admin code sender w'.
Proof.
  intros Hc Ea Jo Ex H. unfold o_create in Ex. rewrite Ea in Ex. cbn [of_option bindo] in Ex.
  destruct (String.eqb_spec admin sender) as [->|]; cbn [negb] in Ex; [|discriminate]. cbv zeta in Ex.
  change (env_contract (Env h t (oc_self c))) with (oc_self c) in Ex. fold (made_msg c opts) in Ex.
  match type of Ex with context [unwrap_or salt ?d] => remember (unwrap_or salt d) as sv eqn:Esv; clear Esv end.
  match type of Ex with context [h_instantiate2 _ _ _ _ ?d] => remember d as lb eqn:Elb; clear Elb end.
  unfold h_instantiate2 in Ex. destruct (predicted (oc_chain c) (oc_self c) code sv) as [addr|] eqn:Ep; cbn [obind of_option bindo] in Ex; [|discriminate].
  destruct (unwrap_or (os_count s) 0 + 1 <? u64_lim) eqn:Hlt; [|discriminate]. apply N.ltb_lt in Hlt. injection Ex as <- <-.
  cbn [o_dispatch] in H. rewrite Ep in H. cbn [obind] in H.
  rewrite json_roundtrip in H by first [exact jc_instantiate_msg_ok|apply made_jval; assumption].
  cbn [obind ow_exists ow_store ow_log] in H. destruct (ow_exists w addr) eqn:Ee; [discriminate|]. destruct ok; [|discriminate]. injection H as <-.
  eapply OE_create; [reflexivity|exact (predicted_utf8 _ _ _ _ _ Hc Ep)|exact Ee|exact Hlt|reflexivity].
Qed.
Definition action (to : string) : execute_msg := XSendCosmosMsgs [MBank (BankSend to [Coin "stake" 100])] [] None None.
Lemma o_send_ok s admin code sender i to s' msgs : os_admin s = Some (admin, code) -> o_send s sender i to = Ok (s', msgs) ->
  admin = sender /\ s' = s /\ exists x, os_states s i = Some x /\ msgs = [h_execute (ic_addr x) (action to)].
Proof.
  intros Ea Ex. unfold o_send in Ex. rewrite Ea in Ex. cbn [of_option bindo] in Ex.
  destruct (String.eqb_spec admin sender) as [->|]; cbn [negb] in Ex; [|discriminate].
  destruct (os_states s i) as [x|] eqn:Ei; cbn [of_option bindo] in Ex; [|discriminate].
  fold (action to) in Ex. split; [reflexivity|]. generalize dependent (action to). intros m Ex. injection Ex as <- <-.
  split; [reflexivity|]. exists x. auto.
Qed.
Lemma dispatch_execute c ok addr m w w' : jval jc_execute_msg m -> o_dispatch c ok [h_execute addr m] w = Some w' ->
  w' = OWorld (ow_store w) (ow_exists w) (OSentTo addr m :: ow_log w).
Proof.
  intros J H. unfold h_execute in H. cbn [o_dispatch] in H. rewrite json_roundtrip in H by first [exact jc_execute_msg_ok|exact J].
  cbn [obind] in H. destruct (ow_exists w addr && ok); [|discriminate]. now injection H as <-.
Qed.
Lemma send_effect c w s admin code sender i to ok s' msgs w' :
  os_admin s = Some (admin, code) -> utf8 to ->
  o_send s sender i to = Ok (s', msgs) ->
  o_dispatch c ok msgs (OWorld (Some s') (ow_exists w) (ow_log w)) = Some w' -> o_effect c w s admin code sender w'.
Proof.
  intros Ea Jo Ex H. destruct (o_send_ok _ _ _ _ _ _ _ _ Ea Ex) as (Es & -> & x & Ei & ->).
  apply dispatch_execute in H; [|apply jval_action; exact Jo]. rewrite H.
  exact (OE_send c w s admin code sender i x to (action to) Es Ei eq_refl).
Qed.
Lemma callback_effect c w s admin code sender m ok s' msgs w' :
  match m with CbOpenAck ch acc _ => jval jc_channel ch /\ utf8 acc | _ => True end ->
  o_callback s sender m = Ok (s', msgs) ->
  o_dispatch c ok msgs (OWorld (Some s') (ow_exists w) (OCalled sender m :: ow_log w)) = Some w' -> o_effect c w s admin code sender w'.
Proof.
  intros J Ex H. unfold o_callback in Ex. destruct (os_ids s sender) as [i|] eqn:Ei; cbn [of_option bindo] in Ex; [|discriminate].
  destruct (os_states s i) as [x|] eqn:Es; cbn [of_option bindo] in Ex; [|discriminate].
  assert (E : msgs = [] /\ s' = match m with
         | CbOpenAck ch acc enc => put_state i (IcaContract (ic_addr x) (Some (IcaState i acc enc (ChannelState ch StOpen)))) s
         | _ => s end) by (destruct m; injection Ex as <- <-; auto).
  destruct E as [-> E]. cbn [o_dispatch] in H. injection H as <-. eapply OE_callback; eassumption.
Qed.
Lemma exec_effect c w s admin code h t sender raw ok w' : ocfg_ok c -> ow_store w = Some s -> os_admin s = Some (admin, code) ->
  o_act c (OExec h t sender raw ok) w = Some w' -> o_effect c w s admin code sender w'.
Proof.
  intros Hc Es Ea H. unfold o_act in H. rewrite Es in H. cbn [obind] in H. apply obind_some in H as (m & Hm & H).
  destruct (_ && utf8_valid sender); [|discriminate]. apply o_execute_jval in Hm.
  destruct (o_execute _ _ _ _ m) as [[s' msgs]| |] eqn:Ex; try discriminate.
  destruct m as [salt opts|i to|cb]; cbn [o_execute] in Ex; cbn [item_of app] in H.
  - eapply create_effect; eassumption.
  - eapply send_effect; eassumption.
  - eapply callback_effect; eassumption.
Qed.

Lemma oinv_create c w s admin code sender w' : oinv c w -> ow_store w = Some s -> os_admin s = Some (admin, code) ->
  jval jc_o_state (admin, code) -> o_effect c w s admin code sender w' -> oinv c w'.
Proof.
  intros Iw Es Ea Ja Ef.
  destruct Ef as [addr opts m _ Hau Ee Hlt Em|i x to m _ Hi Em|i x m s' Hid Hi Em Jm].
  - rewrite (oi_count c w Iw s Es), count_or_0 in *.
    assert (Hnew : ~ In addr (created (ow_log w))).
    { intro Hin. assert (F := oi_exists c w Iw). rewrite Forall_forall in F. rewrite (proj1 (F _ Hin)) in Ee. discriminate. }
    assert (Hno : opened_by addr (ow_log w) = None).
    { destruct (opened_by addr (ow_log w)) as [[[ch acc] e]|] eqn:Eo; [|reflexivity]. elim Hnew. exact (proj2 (proj2 (oi_open c w Iw _ _ _ _ Eo))). }
    split; cbn [ow_store ow_exists ow_log created opened_by].
    + discriminate.
    + intros s0 _. rewrite (oi_self c w Iw s Es). apply orb_true_r.
    + apply Forall_app. split; [|constructor; [rewrite String.eqb_refl; auto|constructor]].
      eapply Forall_impl; [|exact (oi_exists c w Iw)]. intros b [Hb ?]. rewrite Hb. now rewrite orb_true_r.
    + apply (NoDup_Add (a := addr) (l := created (ow_log w))); [|split; [exact (oi_nodup c w Iw)|exact Hnew]].
      replace (created (ow_log w)) with (created (ow_log w) ++ []) at 1 by apply app_nil_r. apply Add_app.
    + rewrite app_length. cbn [length]. rewrite Nat.add_1_r, Nnat.Nat2N.inj_succ, <- N.add_1_r. exact Hlt.
    + intros s0 E. injection E as <-. exists (admin, code). auto.
    + intros s0 E. injection E as <-. cbn [os_count put_count]. unfold count_of. rewrite app_length. cbn [length].
      destruct (created (ow_log w) ++ [addr]) eqn:E0; [now apply app_eq_nil in E0 as [_ E0]|]. f_equal. lia.
    + intros s0 i E. injection E as <-. cbn [os_states put_count put_id put_state]. rewrite nth_last.
      destruct (N.eqb_spec (N.of_nat (length (created (ow_log w)))) i) as [<-|Hi].
      * rewrite Nnat.Nat2N.id, Nat.eqb_refl. unfold record_of. cbn [option_map opened_by]. now rewrite Hno.
      * rewrite (oi_states c w Iw s i Es). destruct (Nat.eqb_spec (N.to_nat i) (length (created (ow_log w)))); [lia|]. reflexivity.
    + intros s0 a i E. injection E as <-. cbn [os_ids put_count put_id put_state]. rewrite nth_last.
      destruct (String.eqb_spec addr a) as [<-|Hn].
      * split.
        -- intro E. injection E as <-. now rewrite Nnat.Nat2N.id, Nat.eqb_refl.
        -- destruct (Nat.eqb_spec (N.to_nat i) (length (created (ow_log w)))); intro E.
           ++ f_equal. lia.
           ++ elim Hnew. now apply nth_error_In in E.
      * rewrite (oi_ids c w Iw s a i Es). destruct (Nat.eqb_spec (N.to_nat i) (length (created (ow_log w)))) as [Ei|]; [|reflexivity].
        rewrite Ei. split; [|congruence]. intro E. assert (nth_error (created (ow_log w)) (length (created (ow_log w))) = None) by (apply nth_error_None; lia). congruence.
    + intros a ch acc e E. destruct (oi_open c w Iw _ _ _ _ E) as (? & ? & ?). rewrite in_app_iff. auto.
    + intros a code' m' [E|E].
      * injection E as <- <- <-. subst m. split; [reflexivity|]. split; [reflexivity|]. eexists _, admin. split; [reflexivity|]. exact Ea.
      * destruct (oi_made c w Iw _ _ _ E) as (? & ? & s1 & ad1 & E1 & E2). rewrite Es in E1. injection E1 as <-.
        split; [assumption|]. split; [assumption|]. eexists _, ad1. split; [reflexivity|]. exact E2.
    + intros a m' [E|E]; [discriminate|]. destruct (oi_sent c w Iw _ _ E). rewrite in_app_iff. auto.
    + intros a m' [E|E]; [discriminate|]. rewrite in_app_iff. left. exact (oi_called c w Iw _ _ E).
  - rewrite (oi_states c w Iw s i Es) in Hi.
    destruct (nth_error (created (ow_log w)) (N.to_nat i)) as [addr|] eqn:En; cbn [option_map] in Hi; [|discriminate].
    injection Hi as <-. cbn [record_of ic_addr]. apply nth_error_In in En.
    split; cbn [ow_store ow_exists ow_log created opened_by].
    + discriminate.
    + intros s0 _. exact (oi_self c w Iw s Es).
    + exact (oi_exists c w Iw).
    + exact (oi_nodup c w Iw).
    + exact (oi_few c w Iw).
    + intros s0 E. injection E as <-. exact (oi_admin c w Iw s Es).
    + intros s0 E. injection E as <-. exact (oi_count c w Iw s Es).
    + intros s0 j E. injection E as <-. rewrite (oi_states c w Iw s j Es). reflexivity.
    + intros s0 a j E. injection E as <-. exact (oi_ids c w Iw s a j Es).
    + exact (oi_open c w Iw).
    + intros a code' m' [E|E]; [discriminate|]. destruct (oi_made c w Iw _ _ _ E) as (? & ? & s1 & ad1 & E1 & E2). rewrite Es in E1. injection E1 as <-.
      split; [assumption|]. split; [assumption|]. eexists _, ad1. split; [reflexivity|]. exact E2.
    + intros a m' [E|E]; [injection E as <- <-; split; [exact En|eauto]|]. exact (oi_sent c w Iw _ _ E).
    + intros a m' [E|E]; [discriminate|]. exact (oi_called c w Iw _ _ E).
  - apply (oi_ids c w Iw s sender i Es) in Hid. rewrite (oi_states c w Iw s i Es), Hid in Hi. cbn [option_map] in Hi. injection Hi as <-.
    assert (Hin := nth_error_In _ _ Hid).
    assert (Hf : os_admin s' = os_admin s /\ os_count s' = os_count s /\ os_ids s' = os_ids s)
      by (rewrite Em; destruct m; auto).
    destruct Hf as (F1 & F2 & F3).
    split; cbn [ow_store ow_exists ow_log created].
    + discriminate.
    + intros s0 _. exact (oi_self c w Iw s Es).
    + exact (oi_exists c w Iw).
    + exact (oi_nodup c w Iw).
    + exact (oi_few c w Iw).
    + intros s0 E. injection E as <-. rewrite F1. exact (oi_admin c w Iw s Es).
    + intros s0 E. injection E as <-. rewrite F2. exact (oi_count c w Iw s Es).
    + intros s0 j E. injection E as <-. unfold record_of.
      destruct m as [d p r q|p r|ch acc e]; subst s'; try exact (oi_states c w Iw s j Es).
      cbn [os_states put_state]. destruct (N.eqb_spec i j) as [<-|Hn].
      * rewrite Hid. cbn [option_map opened_by]. now rewrite String.eqb_refl.
      * rewrite (oi_states c w Iw s j Es). destruct (nth_error (created (ow_log w)) (N.to_nat j)) as [b|] eqn:Ej; [|reflexivity].
        cbn [option_map opened_by]. destruct (String.eqb_spec sender b) as [->|Hb]; [|reflexivity].
        elim Hn. enough (N.to_nat i = N.to_nat j) by lia.
        apply (proj1 (NoDup_nth_error (created (ow_log w))) (oi_nodup c w Iw)); [apply nth_error_Some; congruence|congruence].
    + intros s0 a j E. injection E as <-. rewrite F3. exact (oi_ids c w Iw s a j Es).
    + intros a ch acc e E. destruct m as [d p r q|p r|ch' acc' e']; cbn [opened_by] in E; try exact (oi_open c w Iw _ _ _ _ E).
      destruct (String.eqb_spec sender a) as [<-|]; [|exact (oi_open c w Iw _ _ _ _ E)]. injection E as <- <- <-.
      split; [apply Jm|]. split; [apply Jm|exact Hin].
    + intros a code' m' [E|E]; [discriminate|]. destruct (oi_made c w Iw _ _ _ E) as (? & ? & s1 & ad1 & E1 & E2). rewrite Es in E1. injection E1 as <-.
      split; [assumption|]. split; [assumption|]. eexists _, ad1. split; [reflexivity|]. now rewrite F1.
    + intros a m' [E|E]; [discriminate|]. exact (oi_sent c w Iw _ _ E).
    + intros a m' [E|E]; [injection E as <- _; exact Hin|]. exact (oi_called c w Iw _ _ E).
Qed.

Lemma oinv_act c a w w' : ocfg_ok c -> oinv c w -> o_act c a w = Some w' -> oinv c w'.
Proof.
  intros Hc Iw H. destruct a as [sender raw|h t sender raw ok|addr].
  - unfold o_act in H. destruct (ow_store w) eqn:Es; [discriminate|]. destruct (utf8_valid sender) eqn:Hu; [|discriminate].
    apply obind_some in H as (m & Hm & H).
    destruct (o_instantiate (oc_api c) sender m) as [s| |] eqn:Ei; try discriminate. injection H as <-.
    assert (El := oi_none c w Iw Es). rewrite El.
    assert (Jm := from_json_valid _ _ _ jc_o_instantiate_msg_sound Hm). destruct m as [ad code].
    assert (G : exists x, s = OStore (Some (x, code)) (fun _ => None) None (fun _ => None) /\ utf8_valid x = true).
    { unfold o_instantiate in Ei. cbn [oim_admin oim_code_id] in Ei. destruct ad as [ad|].
      - destruct (addr_validate (oc_api c) ad); [|discriminate]. injection Ei as <-. exists ad. split; [reflexivity|]. apply Jm.
      - injection Ei as <-. exists sender. auto. }
    destruct G as (x & -> & Hx).
    split; cbn [ow_store ow_exists ow_log created opened_by In]; try (intros; contradiction); try constructor; try (intros; discriminate).
    + intros s _. now rewrite String.eqb_refl.
    + intros s E. injection E as <-. eexists. split; [reflexivity|]. split; [exact Hx|apply Jm].
    + intros s E. injection E as <-. reflexivity.
    + intros s i E. injection E as <-. cbn [os_states]. now destruct (N.to_nat i).
    + injection H as <-. discriminate.
    + destruct (N.to_nat i); discriminate.
  - assert (E : exists s, ow_store w = Some s) by (unfold o_act in H; apply obind_some in H as (s & E & _); eauto).
    destruct E as (s & Es). destruct (oi_admin c w Iw s Es) as ([admin code] & Ea & Ja).
    exact (oinv_create c w s admin code sender w' Iw Es Ea Ja (exec_effect _ _ _ _ _ _ _ _ _ _ _ Hc Es Ea H)).
  - unfold o_act in H. destruct (ow_exists w addr) eqn:Ee; [discriminate|]. injection H as <-.
    destruct Iw. split; cbn [ow_store ow_exists ow_log]; try assumption.
    + intros s Es. rewrite (oi_self0 s Es). apply orb_true_r.
    + eapply Forall_impl; [|eassumption]. intros b [Hb ?]. rewrite Hb. now rewrite orb_true_r.
Qed.
Lemma oreach_inv c w : ocfg_ok c -> oreach c w -> oinv c w.
Proof. intros Hc. induction 1 as [|w a w' _ IH H]; [apply oinv_init|exact (oinv_act _ _ _ _ Hc IH H)]. Qed.

Lemma ask_record w i s : ow_store w = Some s -> i < u64_lim ->
  o_ask w (get_record i) = option_map (to_json jc_ica_contract) (os_states s i).
Proof.
  intros E Hi. unfold o_ask, get_record. rewrite E. cbn [obind].
  rewrite json_roundtrip by first [exact jc_o_query_msg_ok|exact Hi]. cbn [obind o_query]. now destruct (os_states s i).
Qed.
Lemma record_jval c w i a : oinv c w -> i < u64_lim -> In a (created (ow_log w)) -> jval jc_ica_contract (record_of i a (ow_log w)).
Proof.
  intros Iw Hi Ha. assert (F := oi_exists c w Iw). rewrite Forall_forall in F. specialize (F a Ha).
  unfold record_of. split; [apply F|]. cbn [ic_state].
  destruct (opened_by a (ow_log w)) as [[[ch acc] e]|] eqn:E; [|exact I].
  destruct (oi_open c w Iw _ _ _ _ E) as (J1 & J2 & _). split; [|discriminate].
  split; [exact Hi|]. split; [exact J2|]. split; [now destruct e|]. split; [exact J1|exact I].
Qed.

(** ** C49: one record per controller *)

(** At any time of any history: query [i] answers the record of the [i]-th
    controller created, with the address it was created at and the channel,
    account and encoding it told about last, and an error for all other [i]. *)
Theorem C49_records : forall c w i, ocfg_ok c -> oreach c w -> i < u64_lim ->
  match nth_error (created (ow_log w)) (N.to_nat i) with
  | Some addr => record_reported w i (record_of i addr (ow_log w))
  | None => o_ask w (get_record i) = None
  end.
Proof.
  intros c w i Hc R Hi. assert (Iw := oreach_inv c w Hc R).
  destruct (ow_store w) as [s|] eqn:Es.
  - assert (A := ask_record w i s Es Hi). rewrite (oi_states c w Iw s i Es) in A.
    destruct (nth_error (created (ow_log w)) (N.to_nat i)) as [a|] eqn:En; cbn [option_map] in A; [|exact A].
    eexists. split; [exact A|]. apply json_roundtrip; [exact jc_ica_contract_ok|].
    apply (record_jval c); [exact Iw|exact Hi|]. now apply nth_error_In in En.
  - rewrite (oi_none c w Iw Es). destruct (N.to_nat i); cbn; unfold o_ask; now rewrite Es.
Qed.

(** No two records are about the same controller. *)
Theorem C49_distinct : forall c w, ocfg_ok c -> oreach c w -> NoDup (created (ow_log w)).
Proof. intros c w Hc R. exact (oi_nodup c w (oreach_inv c w Hc R)). Qed.

(** A callback is accepted exactly if it comes from one of the controllers
    created, and changes no record but that controller's. *)
Theorem C49_callback : forall c w h t sender raw m ok, ocfg_ok c -> oreach c w ->
  from_json jc_o_execute_msg raw = Some (OCallback m) -> h < u64_lim -> t < u64_lim -> utf8 sender ->
  match o_act c (OExec h t sender raw ok) w with
  | Some w' => In sender (created (ow_log w)) /\ ow_log w' = OCalled sender m :: ow_log w /\
      forall i x, i < u64_lim -> nth_error (created (ow_log w)) (N.to_nat i) <> Some sender ->
        record_reported w' i x <-> record_reported w i x
  | None => ~ In sender (created (ow_log w))
  end.
Proof.
  intros c w h t sender raw m ok Hc R Hm Hh Ht Hu. assert (Iw := oreach_inv c w Hc R). 
  destruct (o_act c (OExec h t sender raw ok) w) as [w'|] eqn:A.
  - assert (R' : oreach c w') by (eapply oreach_act; eassumption).
    assert (El : ow_log w' = OCalled sender m :: ow_log w).
    { cbn [o_act] in A. apply obind_some in A as (s & _ & A). rewrite Hm in A. cbn [obind] in A.
      destruct (_ && utf8_valid sender); [|discriminate]. cbn [o_execute] in A. unfold o_callback in A.
      destruct (os_ids s sender); [|discriminate]. cbn [of_option bindo] in A. destruct (os_states s n); [|discriminate].
      cbn [of_option bindo] in A. destruct m; injection A as <-; reflexivity. }
    assert (Iw' := oreach_inv c w' Hc R').
    assert (Hin : In sender (created (ow_log w))).
    { assert (G := oi_called c w' Iw' sender m). rewrite El in G. cbn [created In] in G. apply G. now left. }
    split; [exact Hin|]. split; [exact El|]. intros i x Hi Hn.
    assert (A1 := C49_records c w i Hc R Hi). assert (A2 := C49_records c w' i Hc R' Hi). rewrite El in A2. cbn [created] in A2.
    destruct (nth_error (created (ow_log w)) (N.to_nat i)) as [a|].
    + assert (Er : record_of i a (OCalled sender m :: ow_log w) = record_of i a (ow_log w)).
      { unfold record_of. cbn [opened_by]. destruct m; try reflexivity. destruct (String.eqb_spec sender a); [congruence|reflexivity]. }
      rewrite Er in A2. destruct A1 as (t1 & A1 & D1), A2 as (t2 & A2 & D2).
      split; intros (t0 & A0 & D0); [rewrite A2 in A0|rewrite A1 in A0]; injection A0 as <-; eexists; (split; [eassumption|congruence]).
    + split; intros (t0 & A0 & D0); congruence.
  - intro Hin. cbn [o_act] in A. destruct (ow_store w) as [s|] eqn:Es; [|rewrite (oi_none c w Iw Es) in Hin; destruct Hin].
    cbn [obind] in A. rewrite Hm in A. cbn [obind] in A. apply N.ltb_lt in Hh, Ht. rewrite Hh, Ht, Hu in A. cbn [andb o_execute] in A.
    apply In_nth_error in Hin as (k & Hk).
    assert (Ei : os_ids s sender = Some (N.of_nat k)) by (apply (oi_ids c w Iw s sender _ Es); rewrite Nnat.Nat2N.id; exact Hk).
    unfold o_callback in A. rewrite Ei in A. cbn [of_option bindo] in A.
    rewrite (oi_states c w Iw s _ Es), Nnat.Nat2N.id, Hk in A. cbn [option_map of_option bindo] in A. destruct m; discriminate A.
Qed.

(** Every controller is created from the configured code, owned by the owner
    contract and calling back to it; and the only messages ever sent to a
    controller are transfers of 100 "stake" from its account. *)
Theorem C49_controllers : forall c w addr code m, ocfg_ok c -> oreach c w -> In (OCreated addr code m) (ow_log w) ->
  im_owner m = Some (oc_self c) /\ im_callbacks m = Some (oc_self c) /\ exists admin, admin_reported w admin code.
Proof.
  intros c w addr code m Hc R H. assert (Iw := oreach_inv c w Hc R).
  destruct (oi_made c w Iw _ _ _ H) as (H1 & H2 & s & admin & Es & Ea). split; [exact H1|]. split; [exact H2|].
  exists admin. destruct (oi_admin c w Iw s Es) as (x & Ex & J). rewrite Ea in Ex. injection Ex as <-.
  exists (to_json jc_o_state (admin, code)). split; [|apply json_roundtrip; [exact jc_o_state_ok|exact J]].
  unfold o_ask. rewrite Es. cbn [obind]. replace (from_json jc_o_query_msg get_owner_state) with (Some OQState) by (vm_compute; reflexivity).
  cbn [obind o_query]. rewrite Ea. reflexivity.
Qed.
Theorem C49_messages : forall c w addr m, ocfg_ok c -> oreach c w -> In (OSentTo addr m) (ow_log w) ->
  In addr (created (ow_log w)) /\ exists to, m = XSendCosmosMsgs [MBank (BankSend to [Coin "stake" 100])] [] None None.
Proof. intros c w addr m Hc R H. exact (oi_sent c w (oreach_inv c w Hc R) _ _ H). Qed.

(** Only the admin creates controllers and sends messages to them; the admin
    never changes. *)
Theorem C49_admin : forall c w a w' new admin code, ocfg_ok c -> oreach c w -> admin_reported w admin code ->
  o_act c a w = Some w' -> ow_log w' = new ++ ow_log w ->
  admin_reported w' admin code /\
  match a with
  | OExec _ _ sender raw _ => sender <> admin -> forall i, In i new -> exists m, i = OCalled sender m
  | _ => new = []
  end.
Proof.
  intros c w a w' new admin code Hc R (t & At & Dt) A El.
  assert (Iw := oreach_inv c w Hc R). unfold o_ask in At. destruct (ow_store w) as [s|] eqn:Es; cbn [obind] in At; [|discriminate].
  replace (from_json jc_o_query_msg get_owner_state) with (Some OQState) in At by (vm_compute; reflexivity). cbn [obind o_query] in At.
  destruct (oi_admin c w Iw s Es) as (x & Ea & J). rewrite Ea in At. cbn [of_option bindo] in At. injection At as <-.
  rewrite json_roundtrip in Dt by first [exact jc_o_state_ok|exact J]. injection Dt as ->.
  assert (G : forall s', ow_store w' = Some s' -> os_admin s' = Some (admin, code) -> admin_reported w' admin code).
  { intros s' E1 E2. exists (to_json jc_o_state (admin, code)). split; [|apply json_roundtrip; [exact jc_o_state_ok|exact J]].
    unfold o_ask. rewrite E1. cbn [obind]. replace (from_json jc_o_query_msg get_owner_state) with (Some OQState) by (vm_compute; reflexivity).
    cbn [obind o_query]. rewrite E2. reflexivity. }
  assert (K : forall l, ow_log w' = l ++ ow_log w -> new = l) by (intros l E; rewrite El in E; now apply app_inv_tail in E).
  destruct a as [sender raw|h t sender raw ok|addr]; cbn [o_act] in A; rewrite ?Es in A.
  - discriminate.
  - assert (Ef := exec_effect c w s admin code h t sender raw ok w' Hc Es Ea).
    assert (A' : o_act c (OExec h t sender raw ok) w = Some w') by (cbn [o_act]; rewrite Es; exact A). specialize (Ef A'). clear A A'.
    destruct Ef as [addr opts m Hs Hau Ee Hlt Em|i x to m Hs Hi Em|i x m s' Hid Hi Em Jm].
    + split; [eapply G; [reflexivity|exact Ea]|]. congruence.
    + split; [eapply G; [reflexivity|exact Ea]|]. congruence.
    + split; [eapply G; [reflexivity|]; rewrite Em; destruct m; exact Ea|].
      intros _ it Hit. rewrite (K [OCalled sender m] eq_refl) in Hit. destruct Hit as [<-|[]]. eauto.
  - destruct (ow_exists w addr); [discriminate|]. injection A as <-. split; [eapply G; [reflexivity|exact Ea]|]. now apply K.
Qed.

(** ** C58: the number of controllers

    GetIcaCount answers the number of controllers created, if there are any. *)
Theorem C58_count_partial : forall c w, ocfg_ok c -> oreach c w -> created (ow_log w) <> [] ->
  count_reported w (N.of_nat (length (created (ow_log w)))).
Proof.
  intros c w Hc R Hn. assert (Iw := oreach_inv c w Hc R).
  destruct (ow_store w) as [s|] eqn:Es; [|rewrite (oi_none c w Iw Es) in Hn; now elim Hn].
  exists (to_json (jc_uint u64_lim) (N.of_nat (length (created (ow_log w))))). split.
  - unfold o_ask. rewrite Es. cbn [obind]. replace (from_json jc_o_query_msg get_count) with (Some OQCount) by (vm_compute; reflexivity).
    cbn [obind o_query]. rewrite (oi_count c w Iw s Es). unfold count_of. destruct (created (ow_log w)); [now elim Hn|reflexivity].
  - apply json_roundtrip; [apply jc_uint_ok|exact (oi_few c w Iw)].
Qed.

(** ... but before the first one it is an error instead of 0. *)
Definition ch49 : chain_api :=
  ChainApi (fun _ => Some "sum") (fun x => Some x) (fun x => if utf8_valid x then Some x else None) (fun a b s => Some ("wasm" +++ s)).
Definition oc49 : ocfg := OCfg api0 ch49 "dao".
Lemma oc49_ok : ocfg_ok oc49.
Proof. split; [reflexivity|]. intros a x H. cbn in H. destruct (utf8_valid a) eqn:E; [|discriminate]. now injection H as <-. Qed.

Fixpoint o_run (c : ocfg) (l : list oaction) (w : oworld) : oworld :=
  match l with [] => w | a :: r => match o_act c a w with Some w' => o_run c r w' | None => o_run c r w end end.
Lemma o_run_reach c l : forall w, oreach c w -> oreach c (o_run c l w).
Proof.
  induction l as [|a l IH]; intros w R; cbn [o_run]; [exact R|]. destruct (o_act c a w) as [w'|] eqn:E; [|now apply IH].
  apply IH. eapply oreach_act; eassumption.
Qed.

Definition o_inst : oaction := OInst "admin" "{""ica_controller_code_id"":7}".
Definition o_new (time : string) (o : open_options) : oaction :=
  OExec 10 1000 "admin" ("{""create_ica_contract"":{""salt"":""" +++ time +++ """,""channel_open_init_options"":" +++ to_json jc_options o +++ "}}") true.
Definition o_do (i : string) : oaction :=
  OExec 11 2000 "admin" ("{""send_predefined_action"":{""ica_id"":" +++ i +++ ",""to_address"":""cosmos1to""}}") true.
Definition o_tell (addr : string) (m : callback_msg) : oaction := OExec 12 3000 addr (to_json jc_receiver m) true.

Theorem C58_count_refuted : exists c w, ocfg_ok c /\ oreach c w /\
  (exists admin code, admin_reported w admin code) /\ created (ow_log w) = [] /\ o_ask w get_count = None.
Proof.
  exists oc49, (o_run oc49 [o_inst] o_init). split; [exact oc49_ok|]. split; [apply o_run_reach; constructor|].
  split; [exists "admin", 7; eexists; split; [ vm_compute; reflexivity | vm_compute; reflexivity]|]. split; vm_compute; reflexivity.
Qed.

Definition ch57 (cp : string) : channel :=
  Channel (Endpoint "wasm.wasmB" "channel-0") (Endpoint "icahost" cp) Ordered (host_version "cosmos1acc") "connection-0".
Definition w49 : oworld := o_run oc49 [o_inst; o_new "A" (opts0 None); o_new "B" (opts0 None); o_new "B" (opts0 None);
  o_tell "wasmB" (CbOpenAck (ch57 "channel-7") "cosmos1acc" Protobuf); o_tell "other" (CbOpenAck (ch57 "channel-7") "cosmos1acc" Protobuf);
  o_do "1"] o_init.
Lemma w49_reach : oreach oc49 w49. Proof. apply o_run_reach. constructor. Qed.
Example C49_case : oreach oc49 w49 /\ created (ow_log w49) = ["wasmA"; "wasmB"] /\
  record_reported w49 1 (IcaContract "wasmB" (Some (IcaState 1 "cosmos1acc" Protobuf (ChannelState (ch57 "channel-7") StOpen)))) /\
  record_reported w49 0 (IcaContract "wasmA" None) /\ count_reported w49 2 /\ admin_reported w49 "admin" 7 /\
  is_some (o_act oc49 (o_tell "wasmA" (CbOpenAck (ch57 "channel-8") "cosmos1acc" Protobuf)) w49) = true /\
  length (ow_log w49) = 4%nat.
Proof.
  split; [exact w49_reach|]. split; [vm_compute; reflexivity|].
  split; [eexists; split; [ vm_compute; reflexivity | vm_compute; reflexivity]|]. split; [eexists; split; [ vm_compute; reflexivity | vm_compute; reflexivity]|].
  split; [eexists; split; [ vm_compute; reflexivity | vm_compute; reflexivity]|]. split; [eexists; split; [ vm_compute; reflexivity | vm_compute; reflexivity]|].
  split; vm_compute; reflexivity.
Qed.

(** ** C57: the owner contract's record follows the controller

    A controller and the owner contract that created it, each in a history of
    its own, whose messages to each other agree: the callbacks the controller
    made are the callbacks the owner contract handled, and the executions by
    the owner contract are the messages it sent. *)
Fixpoint executed_by (sender : string) (l : list logitem) : list execute_msg :=
  match l with
  | [] => []
  | LExecuted _ a m :: r => executed_by sender r ++ (if String.eqb a sender then [m] else [])
  | _ :: r => executed_by sender r
  end.
Record coupled (oc : ocfg) (ow : oworld) (c : cfg) (w : world) : Prop := {
  cp_made : exists code m e sender, In (OCreated (c_self c) code m) (ow_log ow) /\ In (LInstantiated e sender m) (w_log w);
  cp_calls : called_by (c_self c) (ow_log ow) = map plain (readable jc_receiver (calls (oc_self oc) (w_log w)));
  cp_execs : sent_to (c_self c) (ow_log ow) = executed_by (oc_self oc) (w_log w)
}.

Lemma executed_in sender l e m : In (LExecuted e sender m) l -> In m (executed_by sender l).
Proof.
  induction l as [|x l IH]; [intros []|]. intros [->|H].
  - cbn [executed_by]. rewrite String.eqb_refl, in_app_iff. right. now left.
  - destruct x; cbn [executed_by]; try now apply IH. rewrite in_app_iff. left. now apply IH.
Qed.
Lemma sent_to_in a l m : In m (sent_to a l) -> In (OSentTo a m) l.
Proof.
  induction l as [|x l IH]; [intros []|]. destruct x as [b code m'|b m'|b m']; cbn [sent_to]; intro H; try (right; now apply IH).
  rewrite in_app_iff in H. destruct H as [H|H]; [right; now apply IH|]. destruct (String.eqb_spec b a) as [->|]; [|destruct H].
  destruct H as [->|[]]. now left.
Qed.

(** There is one instantiation. *)
Lemma one_instantiation c l : hist c l -> forall e1 s1 m1 e2 s2 m2,
  In (LInstantiated e1 s1 m1) l -> In (LInstantiated e2 s2 m2) l -> m1 = m2.
Proof.
  induction 1 as [|l new Hl IH B]; intros e1 s1 m1 e2 s2 m2 H1 H2; [destruct H1|].
  rewrite in_app_iff in H1, H2.
  assert (K : forall e s m, In (LInstantiated e s m) new -> l = [] /\ forall e' s' m', In (LInstantiated e' s' m') new -> m = m').
  { clear H1 H2. intros e s m Hi.
    destruct B as [B|B]; destruct B;
      repeat match goal with H : callback _ _ _ |- _ => destruct H as [J H]; subst i; destruct (callback_of l) end;
      cbn [app In] in Hi; repeat match goal with H : _ \/ _ |- _ => destruct H end; try discriminate; try contradiction.
    match goal with H : LInstantiated _ _ _ = _ |- _ => injection H as <- <- <- end.
    split; [assumption|]. cbn [In]. intros e' s' m' [E|[E|[]]]; congruence. }
  destruct H1 as [H1|H1], H2 as [H2|H2].
  - destruct (K _ _ _ H1) as [_ G]. exact (G _ _ _ H2).
  - destruct (K _ _ _ H1) as [-> _]. destruct H2.
  - destruct (K _ _ _ H2) as [-> _]. destruct H1.
  - exact (IH _ _ _ _ _ _ H1 H2).
Qed.

(** An owner that only sends packets stays the owner and is called back. *)
Lemma stays_owner c l self : hist c l ->
  (forall e s m, In (LInstantiated e s m) l -> im_owner m = Some self /\ im_callbacks m = Some self) ->
  (forall e m, In (LExecuted e self m) l -> exists to, m = action to) ->
  l = [] \/ (owner_of l = Some self /\ nominee_of l = None /\ callback_of l = Some self).
Proof.
  induction 1 as [|l new Hl IH B]; intros Hi He; [now left|]. right.
  specialize (IH (fun e s m H => Hi e s m (in_or_app _ _ _ (or_intror H))) (fun e m H => He e m (in_or_app _ _ _ (or_intror H)))).
  assert (Hn : forall i, In i new -> In i (new ++ l)) by (intros; apply in_or_app; now left).
  destruct B as [B|B]; destruct B.
  9-12: repeat match goal with H : callback _ _ _ |- _ => destruct H as [J H]; subst i; destruct (callback_of l) eqn:Ecb end;
    (destruct IH as [->|(I1 & I2 & I3)]; [discriminate|]; cbn; (split; [exact I1|split; [exact I2|congruence]])).
  - destruct (Hi e sender m) as [Hi1 Hi2]; [apply Hn; right; left; reflexivity|]. cbn. rewrite Hi1, Hi2. auto.
  - destruct IH as [->|(I1 & I2 & I3)]; [discriminate|]. rewrite I1 in *.
    match goal with H : Some self = Some sender |- _ => injection H as <- end.
    destruct (He e (XCreateChannel opts)) as (to & E); [apply Hn; right; left; reflexivity|]. discriminate E.
  - destruct IH as [->|(I1 & I2 & I3)]; [discriminate|]. cbn. auto.
  - destruct IH as [->|(I1 & I2 & I3)]; [discriminate|]. cbn. auto.
  - destruct IH as [->|(I1 & I2 & I3)]; [discriminate|]. rewrite I1 in *.
    match goal with H : Some self = Some sender |- _ => injection H as <- end.
    destruct (He e (XUpdateCallbackAddress cb)) as (to & E); [apply Hn; left; reflexivity|]. discriminate E.
  - destruct IH as [->|(I1 & I2 & I3)]; [discriminate|]. rewrite I1 in *.
    match goal with H : Some self = Some sender |- _ => injection H as <- end.
    destruct (He e (XUpdateOwnership (TransferOwnership n x))) as (to & E); [apply Hn; left; reflexivity|]. discriminate E.
  - destruct IH as [->|(I1 & I2 & I3)]; [discriminate|]. congruence.
  - destruct IH as [->|(I1 & I2 & I3)]; [congruence|]. cbn. auto.
Qed.

(** The last opened channel among callbacks, oldest first. *)
Fixpoint last_open (ms : list callback_msg) : option (channel * string * tx_encoding) :=
  match ms with
  | [] => None
  | m :: r => match last_open r with
              | Some x => Some x
              | None => match m with CbOpenAck ch acc enc => Some (ch, acc, enc) | _ => None end
              end
  end.
Lemma last_open_app ms m : last_open (ms ++ [m]) = match m with CbOpenAck ch acc enc => Some (ch, acc, enc) | _ => last_open ms end.
Proof.
  induction ms as [|x ms IH]; cbn [app last_open]; [now destruct m|]. rewrite IH.
  destruct m; try reflexivity.
Qed.
Lemma opened_called a l : opened_by a l = last_open (called_by a l).
Proof.
  induction l as [|x l IH]; [reflexivity|]. destruct x as [b code m|b m|b m]; cbn [opened_by called_by]; try exact IH.
  destruct (String.eqb b a).
  - rewrite last_open_app, <- IH. now destruct m.
  - rewrite app_nil_r, <- IH. now destruct m.
Qed.

Definition agrees (self : string) (l : list logitem) : Prop :=
  last_open (events self l) =
  match last_opened l, account_of l with Some ch, Some info => Some (ch, ii_address info, Protobuf) | _, _ => None end.

Lemma last_events c l self : hist c l ->
  (forall e s m, In (LInstantiated e s m) l -> im_owner m = Some self /\ im_callbacks m = Some self) ->
  (forall e m, In (LExecuted e self m) l -> exists to, m = action to) -> agrees self l.
Proof.
  induction 1 as [|l new Hl IH B]; intros Hi He; [reflexivity|].
  assert (Hi' := fun e s m H => Hi e s m (in_or_app _ _ _ (or_intror H))).
  assert (He' := fun e m H => He e m (in_or_app _ _ _ (or_intror H))).
  specialize (IH Hi' He'). unfold agrees in *.
  destruct (stays_owner c l self Hl Hi' He') as [->|(_ & _ & Ecb)].
  - destruct B as [B|B]; destruct B; try discriminate; reflexivity.
  - destruct B as [B|B]; destruct B;
    repeat match goal with H : callback _ _ _ |- _ => destruct H as [J H]; rewrite Ecb in H; subst i end;
    cbn [app events]; unfold while_told; cbn [callback_of]; rewrite ?Ecb, ?String.eqb_refl;
    unfold account_of in *; cbn [last_opened]; try exact IH.
    + match goal with H : from_json jc_metadata _ = Some _ |- _ => rewrite H end. rewrite last_open_app. reflexivity.
    + match goal with H : from_json jc_ack _ = Some _ |- _ => rewrite H end. rewrite last_open_app. exact IH.
    + rewrite last_open_app. exact IH.
Qed.

(** The record of the controller is the channel the controller opened last and
    the account address the controller reports. *)
Theorem C57_record : forall oc ow c w i, ocfg_ok oc -> oreach oc ow -> cfg_ok c -> visited c w -> coupled oc ow c w ->
  i < u64_lim -> nth_error (created (ow_log ow)) (N.to_nat i) = Some (c_self c) ->
  exists info cb, state_reported w (ContractState info cb) /\
  record_reported ow i (IcaContract (c_self c)
    match last_opened (w_log w), info with
    | Some ch, Some info => Some (IcaState i (ii_address info) Protobuf (ChannelState ch StOpen))
    | _, _ => None
    end).
Proof.
  intros oc ow c w i Hoc R Hc V [(code & m & e & sender & Hm & Hi) Hcalls Hex] Hlt Hn.
  assert (Hh := visited_hist c w Hc V).
  destruct (C49_controllers oc ow _ _ _ Hoc R Hm) as (O1 & O2 & _).
  exists (account_of (w_log w)), (callback_of (w_log w)).
  split; [apply (ask_state c w Hc V); intro E; rewrite E in Hi; destruct Hi|].
  assert (A := C49_records oc ow i Hoc R Hlt). rewrite Hn in A. unfold record_of in A. rewrite opened_called, Hcalls in A.
  assert (T : map plain (readable jc_receiver (calls (oc_self oc) (w_log w))) = events (oc_self oc) (w_log w))
    by (exact (told_events c (w_log w) (oc_self oc) Hh)).
  rewrite T in A.
  assert (L : agrees (oc_self oc) (w_log w)).
  { apply (last_events c _ _ Hh).
    - intros e' s' m' Hi'. rewrite (one_instantiation c _ Hh _ _ _ _ _ _ Hi' Hi). auto.
    - intros e' m' He'. apply executed_in in He'. rewrite <- Hex in He'. apply sent_to_in in He'.
      exact (proj2 (C49_messages oc ow _ _ Hoc R He')). }
  unfold agrees in L. rewrite L in A. destruct (last_opened (w_log w)) as [ch|], (account_of (w_log w)) as [info|]; exact A.
Qed.

(** The controller's callbacks are never refused by the owner contract: any
    callback it makes next is accepted. *)
Theorem C57_accepts : forall oc ow c w msg h t ok, ocfg_ok oc -> oreach oc ow -> cfg_ok c -> visited c w ->
  In (c_self c) (created (ow_log ow)) -> In (LCall (oc_self oc) msg) (w_log w) -> h < u64_lim -> t < u64_lim ->
  exists ow' m, o_act oc (OExec h t (c_self c) msg ok) ow = Some ow' /\ from_json jc_receiver msg = Some m /\
    ow_log ow' = OCalled (c_self c) (plain m) :: ow_log ow.
Proof.
  intros oc ow c w msg h t ok Hoc R Hc V Hin Hcall Hh Ht.
  destruct (C55_history c w _ _ Hc V Hcall) as (m & D1 & D2).
  assert (A := C49_callback oc ow h t (c_self c) msg (plain m) ok Hoc R D2 Hh Ht (proj1 Hc)).
  destruct (o_act oc (OExec h t (c_self c) msg ok) ow) as [ow'|]; [|contradiction].
  exists ow', m. destruct A as (_ & E & _). auto.
Qed.

Definition c57 : cfg := Cfg api0 "wasmB".
Lemma c57_ok : cfg_ok c57. Proof. split; reflexivity. Qed.
Definition inst57 : tx :=
  Tx (AInstantiate None 10 1000 "dao" (to_json jc_instantiate_msg (made_msg oc49 (opts0 None))) "channel-0" true) None.
Definition opened57 : world := history c57 [inst57; open_ack "channel-0" "channel-7" "cosmos1acc"; exec "dao" (action "cosmos1to") ""].
Lemma coupled57 : coupled oc49 w49 c57 opened57.
Proof.
  split.
  - exists 7, (made_msg oc49 (opts0 None)). eexists _, _. split; [vm_compute; right; right; left; reflexivity|].
    vm_compute. do 5 right. left. reflexivity.
  - vm_compute. reflexivity.
  - vm_compute. reflexivity.
Qed.
Example C57_case : coupled oc49 w49 c57 opened57 /\ visited c57 opened57 /\ nth_error (created (ow_log w49)) 1 = Some (c_self c57) /\
  last_opened (w_log opened57) = Some (ch57 "channel-7") /\ exists msg, In (LCall "dao" msg) (w_log opened57).
Proof.
  split; [exact coupled57|]. split; [apply history_visited|]. split; [vm_compute; reflexivity|]. split; [vm_compute; reflexivity|].
  eexists. vm_compute. do 2 right. left. reflexivity.
Qed.

(** ** C59: whether the channel is open

    While the controller reports its channel open, the owner contract's record
    is exactly what the controller reports. *)
Theorem C59_status_partial : forall oc ow c w i ch, ocfg_ok oc -> oreach oc ow -> cfg_ok c -> visited c w -> coupled oc ow c w ->
  i < u64_lim -> nth_error (created (ow_log ow)) (N.to_nat i) = Some (c_self c) ->
  channel_reported w ch StOpen ->
  exists acc, record_reported ow i (IcaContract (c_self c) (Some (IcaState i acc Protobuf (ChannelState ch StOpen)))).
Proof.
  intros oc ow c w i ch Hoc R Hc V Hcp Hi Hn (t & A & D).
  destruct (C57_record oc ow c w i Hoc R Hc V Hcp Hi Hn) as (info & cb & St & Rec).
  assert (Hl : w_log w <> []) by (destruct Hcp as [(? & ? & ? & ? & _ & Hx) _ _]; intro E; rewrite E in Hx; destruct Hx).
  destruct (ask_state c w Hc V Hl) as (t1 & A1 & D1). destruct St as (t2 & A2 & D2). rewrite A1 in A2. injection A2 as <-.
  rewrite D1 in D2. injection D2 as <- _.
  assert (B := ask_channel c w Hc V Hl). destruct (recorded (w_log w)) as [[ch' b]|] eqn:Er; [|congruence].
  destruct B as (t3 & A3 & D3). rewrite A in A3. injection A3 as <-. rewrite D in D3. injection D3 as -> Hb.
  assert (Ho : last_opened (w_log w) = Some ch').
  { clear - Er. revert b Er. induction (w_log w) as [|x l IH]; [discriminate|]. intros b Er.
    destruct x; cbn [recorded last_opened] in *; try exact (IH _ Er).
    - injection Er as -> _. reflexivity.
    - destruct (recorded l) as [[c0 b0]|]; [|discriminate]. destruct (on_chan id c0); injection Er as <- _; exact (IH _ eq_refl).
    - destruct (recorded l) as [[c0 b0]|]; [|discriminate]. destruct (order_eqb (ch_order c0) Ordered); injection Er as <- _; exact (IH _ eq_refl). }
  rewrite Ho in Rec. destruct (account_of (w_log w)) as [inf|] eqn:Ea; [exists (ii_address inf); exact Rec|].
  exfalso. unfold account_of in Ea. rewrite Ho in Ea.
  destruct (last_opened_ok c (w_log w) ch' (visited_hist c w Hc V) Ho) as (_ & md & Hmd). rewrite Hmd in Ea. discriminate.
Qed.

(** But when the channel is closed, by a timeout or by the host, the record
    still says it is open. *)
Definition ow59 : oworld := o_run oc49 [o_tell "wasmB" (CbTimeout (Packet (match w_commit opened57 "channel-0" 1 with Some p => p_data p | None => "" end)
  (Endpoint "wasm.wasmB" "channel-0") (Endpoint "icahost" "channel-7") 1 (Timeout None (Some 600000002000))) "relayer")] w49.
Definition closed59 : world := history c57 [inst57; open_ack "channel-0" "channel-7" "cosmos1acc"; exec "dao" (action "cosmos1to") "";
  timed_out "channel-0" 1].
Theorem C59_status_refuted : exists oc ow c w i ch acc, ocfg_ok oc /\ oreach oc ow /\ cfg_ok c /\ visited c w /\ coupled oc ow c w /\
  nth_error (created (ow_log ow)) (N.to_nat i) = Some (c_self c) /\ channel_reported w ch StClosed /\
  record_reported ow i (IcaContract (c_self c) (Some (IcaState i acc Protobuf (ChannelState ch StOpen)))).
Proof.
  exists oc49, ow59, c57, closed59, 1, (ch57 "channel-7"), "cosmos1acc".
  split; [exact oc49_ok|]. split; [apply o_run_reach; exact w49_reach|]. split; [exact c57_ok|]. split; [apply history_visited|].
  split.
  { split.
    - exists 7, (made_msg oc49 (opts0 None)). eexists _, _. split; [vm_compute; do 3 right; left; reflexivity|].
      vm_compute. do 7 right. left. reflexivity.
    - vm_compute. reflexivity.
    - vm_compute. reflexivity. }
  split; [vm_compute; reflexivity|]. split; [apply channel_reported_by; vm_compute; reflexivity|].
  eexists. split; [ vm_compute; reflexivity | vm_compute; reflexivity].
Qed.

(** Cases for what is proved of C58 and C59. *)
Example C58_case : oreach oc49 w49 /\ length (created (ow_log w49)) = 2%nat.
Proof. split; [exact w49_reach| vm_compute; reflexivity]. Qed.
Example C59_case : ocfg_ok oc49 /\ oreach oc49 w49 /\ cfg_ok c57 /\ visited c57 opened57 /\ coupled oc49 w49 c57 opened57 /\
  nth_error (created (ow_log w49)) 1 = Some (c_self c57) /\ channel_reported opened57 (ch57 "channel-7") StOpen.
Proof.
  split; [exact oc49_ok|]. split; [exact w49_reach|]. split; [exact c57_ok|]. split; [apply history_visited|].
  split; [exact coupled57|]. split; [vm_compute; reflexivity|]. apply channel_reported_by. vm_compute. reflexivity.
Qed.

Print Assumptions C55_reads.
Print Assumptions C55_history.
Print Assumptions C49_records.
Print Assumptions C49_distinct.
Print Assumptions C49_callback.
Print Assumptions C49_controllers.
Print Assumptions C49_messages.
Print Assumptions C49_admin.
Print Assumptions C58_count_partial.
Print Assumptions C58_count_refuted.
Print Assumptions C57_record.
Print Assumptions C57_accepts.
Print Assumptions C59_status_partial.
Print Assumptions C59_status_refuted.
