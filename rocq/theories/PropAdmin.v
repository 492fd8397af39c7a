(** * PropAdmin: property C89, the example owner contract does what its admin
    asks. *)

From Verif Require Import Base Text Utf8 Json JsonCodec Types JsonTypes JsonSound HostSpec Witness Helpers
  OwnerContract OwnerSpec PropOwnerContract.
From Coq Require Import ZifyBool ZifyN ZifyNat.
Local Open Scope string_scope.
Local Open Scope list_scope.
Local Open Scope N_scope.

(** ** Specification *)

(** The salt of a creation at [time] (nanoseconds): the one asked for, or the
    seconds of the block time. *)
Definition salt_at (salt : option string) (time : N) : string := unwrap_or salt (dec (time / 10 ^ 9)).

(** A later state of the chain. *)
Inductive o_later (c : ocfg) (w : oworld) : oworld -> Prop :=
| o_later_same : o_later c w w
| o_later_act w' a w'' : o_later c w w' -> o_act c a w' = Some w'' -> o_later c w w''.

(** ** C89 *)

Lemma admin_stored c w admin code : ocfg_ok c -> oreach c w -> admin_reported w admin code ->
  exists s, ow_store w = Some s /\ os_admin s = Some (admin, code).
Proof.
  intros Hc R (t & At & Dt). assert (Iw := oreach_inv c w Hc R). unfold o_ask in At.
  destruct (ow_store w) as [s|] eqn:Es; cbn [obind] in At; [|discriminate].
  replace (from_json jc_o_query_msg get_owner_state) with (Some OQState) in At by (vm_compute; reflexivity). cbn [obind o_query] in At.
  destruct (oi_admin c w Iw s Es) as (x & Ea & J). rewrite Ea in At. cbn [of_option bindo] in At. injection At as <-.
  rewrite json_roundtrip in Dt by first [exact jc_o_state_ok|exact J]. injection Dt as ->. eauto.
Qed.
Lemma guard_true h t sender : h < u64_lim -> t < u64_lim -> utf8 sender -> (h <? u64_lim) && (t <? u64_lim) && utf8_valid sender = true.
Proof. intros H T U. apply N.ltb_lt in H, T. rewrite H, T. exact U. Qed.

(** The predefined action: refused exactly if the sender is not the admin, the
    controller does not exist, or it fails itself. Otherwise that controller
    gets exactly this request, and all queries answer as before. *)
Theorem C89_send : forall c w h t sender raw ok i to admin code, ocfg_ok c -> oreach c w -> admin_reported w admin code ->
  from_json jc_o_execute_msg raw = Some (OSend i to) -> h < u64_lim -> t < u64_lim -> utf8 sender ->
  match o_act c (OExec h t sender raw ok) w with
  | Some w' => sender = admin /\ ok = true /\ exists addr,
      nth_error (created (ow_log w)) (N.to_nat i) = Some addr /\
      ow_log w' = OSentTo addr (XSendCosmosMsgs [MBank (BankSend to [Coin "stake" 100])] [] None None) :: ow_log w /\
      forall q, o_ask w' q = o_ask w q
  | None => sender <> admin \/ ok = false \/ nth_error (created (ow_log w)) (N.to_nat i) = None
  end.
Proof.
  intros c w h t sender raw ok i to admin code Hc R Ad Hm Hh Ht Hu. destruct (admin_stored c w admin code Hc R Ad) as (s & Es & Ea).
  assert (Iw := oreach_inv c w Hc R).
  cbn [o_act]. rewrite Es, Hm. cbn [obind]. rewrite (guard_true h t sender Hh Ht Hu). cbn [o_execute]. unfold o_send.
  rewrite Ea. cbn [of_option bindo]. destruct (String.eqb_spec admin sender) as [->|N]; cbn [negb]; [|left; congruence].
  rewrite (oi_states c w Iw s i Es). destruct (nth_error (created (ow_log w)) (N.to_nat i)) as [addr|] eqn:En; cbn [option_map of_option bindo]; [|auto].
  fold (action to). apply o_execute_jval in Hm. pose proof (jval_action to Hm) as J. fold (action to) in J.
  generalize dependent (action to). intros m J.
  unfold h_execute. cbn [o_dispatch record_of ic_addr]. rewrite json_roundtrip by first [exact jc_execute_msg_ok|exact J].
  cbn [obind ow_exists item_of app].
  assert (F := oi_exists c w Iw). rewrite Forall_forall in F. rewrite (proj1 (F addr (nth_error_In _ _ En))).
  destruct ok; cbn [andb]; [|auto]. split; [reflexivity|]. split; [reflexivity|]. exists addr. split; [reflexivity|]. split; [reflexivity|].
  intro q. unfold o_ask. cbn [ow_store]. now rewrite Es.
Qed.

(** A new controller: refused exactly if the sender is not the admin, the
    address cannot be computed or is taken, the new contract fails itself, or
    2^64 are exceeded. Otherwise it is created at that address, owned by the
    contract, with the requested channel, and listed under the next number. *)
Theorem C89_create : forall c w h t sender raw ok salt opts admin code, ocfg_ok c -> oreach c w -> admin_reported w admin code ->
  from_json jc_o_execute_msg raw = Some (OCreate salt opts) -> h < u64_lim -> t < u64_lim -> utf8 sender ->
  match o_act c (OExec h t sender raw ok) w with
  | Some w' => sender = admin /\ ok = true /\ exists addr,
      predicted (oc_chain c) (oc_self c) code (salt_at salt t) = Some addr /\ ow_exists w addr = false /\
      ow_log w' = OCreated addr code (InstantiateMsg (Some (oc_self c)) opts (Some (oc_self c))) :: ow_log w /\
      record_reported w' (N.of_nat (length (created (ow_log w)))) (IcaContract addr None)
  | None => sender <> admin \/ ok = false \/ u64_lim <= N.of_nat (length (created (ow_log w))) + 1 \/
      forall addr, predicted (oc_chain c) (oc_self c) code (salt_at salt t) = Some addr -> ow_exists w addr = true
  end.
Proof.
  intros c w h t sender raw ok salt opts admin code Hc R Ad Hm Hh Ht Hu. destruct (admin_stored c w admin code Hc R Ad) as (s & Es & Ea).
  assert (Iw := oreach_inv c w Hc R).
  destruct (o_act c (OExec h t sender raw ok) w) as [w'|] eqn:A.
  - assert (Iw' := oinv_act c _ w w' Hc Iw A). assert (R' : oreach c w') by (eapply oreach_act; eassumption).
    cbn [o_act] in A. rewrite Es, Hm in A. cbn [obind] in A. rewrite (guard_true h t sender Hh Ht Hu) in A. cbn [o_execute] in A. unfold o_create in A.
    rewrite Ea in A. cbn [of_option bindo] in A. destruct (String.eqb_spec admin sender) as [->|N]; cbn [negb] in A; [|discriminate].
    cbv zeta in A. change (env_contract (Env h t (oc_self c))) with (oc_self c) in A. fold (made_msg c opts) in A.
    change (env_time (Env h t (oc_self c))) with t in A. fold (salt_at salt t) in A.
    match type of A with context [h_instantiate2 _ _ _ _ ?d] => remember d as lb eqn:Elb; clear Elb end.
    unfold h_instantiate2 in A. destruct (predicted (oc_chain c) (oc_self c) code (salt_at salt t)) as [addr|] eqn:Ep; cbn [obind of_option bindo] in A; [|discriminate].
    destruct (unwrap_or (os_count s) 0 + 1 <? u64_lim) eqn:Hlt; [|discriminate]. cbn [o_dispatch] in A. rewrite Ep in A. cbn [obind] in A.
    apply o_execute_jval in Hm.
    rewrite json_roundtrip in A by first [exact jc_instantiate_msg_ok|apply made_jval; assumption].
    cbn [obind ow_exists ow_store ow_log item_of app] in A. destruct (ow_exists w addr) eqn:Ee; [discriminate|]. destruct ok; [|discriminate].
    split; [reflexivity|]. split; [reflexivity|]. exists addr. split; [reflexivity|]. split; [exact Ee|].
    assert (El : ow_log w' = OCreated addr code (made_msg c opts) :: ow_log w) by (injection A as <-; reflexivity).
    split; [exact El|].
    assert (Hi : N.of_nat (length (created (ow_log w))) < u64_lim) by exact (oi_few c w Iw).
    pose proof (C49_records c w' _ Hc R' Hi) as Q. rewrite El in Q. cbn [created] in Q.
    rewrite Nnat.Nat2N.id, nth_error_app2, Nat.sub_diag in Q by lia. cbn [nth_error] in Q.
    unfold record_of in Q. cbn [opened_by] in Q.
    destruct (opened_by addr (ow_log w)) as [[[ch acc] e]|] eqn:Eo; [|exact Q]. exfalso.
    assert (Hin := proj2 (proj2 (oi_open c w Iw _ _ _ _ Eo))).
    assert (F := oi_exists c w Iw). rewrite Forall_forall in F. rewrite (proj1 (F _ Hin)) in Ee. discriminate.
  - cbn [o_act] in A. rewrite Es, Hm in A. cbn [obind] in A. rewrite (guard_true h t sender Hh Ht Hu) in A. cbn [o_execute] in A. unfold o_create in A.
    rewrite Ea in A. cbn [of_option bindo] in A. destruct (String.eqb_spec admin sender) as [->|N]; cbn [negb] in A; [|left; congruence]. right.
    cbv zeta in A. change (env_contract (Env h t (oc_self c))) with (oc_self c) in A. fold (made_msg c opts) in A.
    change (env_time (Env h t (oc_self c))) with t in A. fold (salt_at salt t) in A.
    match type of A with context [h_instantiate2 _ _ _ _ ?d] => remember d as lb eqn:Elb; clear Elb end.
    unfold h_instantiate2 in A. destruct (predicted (oc_chain c) (oc_self c) code (salt_at salt t)) as [addr|] eqn:Ep; cbn [obind of_option bindo] in A;
      [|right; right; discriminate].
    rewrite (oi_count c w Iw s Es), count_or_0 in A.
    destruct (N.of_nat (length (created (ow_log w))) + 1 <? u64_lim) eqn:Hlt; [|right; left; lia].
    cbn [o_dispatch] in A. rewrite Ep in A. cbn [obind] in A.
    apply o_execute_jval in Hm.
    rewrite json_roundtrip in A by first [exact jc_instantiate_msg_ok|apply made_jval; assumption].
    cbn [obind ow_exists ow_store ow_log item_of app] in A. destruct (ow_exists w addr) eqn:Ee.
    + right; right. intros a E. now injection E as <-.
    + destruct ok; [discriminate|]. now left.
Qed.

Lemma later_reach c w w' : oreach c w -> o_later c w w' -> oreach c w'.
Proof. intros R L. induction L; [exact R|]. eapply oreach_act; eassumption. Qed.

Lemma exists_stays c w w' addr : ocfg_ok c -> oreach c w -> o_later c w w' -> ow_exists w addr = true -> ow_exists w' addr = true.
Proof.
  intros Hc R L H. induction L as [|w' a w'' L IH A]; [exact H|]. assert (Iw := oreach_inv c w' Hc (later_reach c w w' R L)).
  destruct a as [sender raw|h t sender raw ok|b].
  - cbn [o_act] in A. destruct (ow_store w'); [discriminate|]. destruct (utf8_valid sender); [|discriminate]. apply obind_some in A as (m & _ & A).
    destruct (o_instantiate (oc_api c) sender m); try discriminate. injection A as <-. cbn [ow_exists]. rewrite IH. apply orb_true_r.
  - assert (A' := A). cbn [o_act] in A'. apply obind_some in A' as (s & Es & _). destruct (oi_admin c w' Iw s Es) as ([admin code] & Ea & _).
    destruct (exec_effect c w' s admin code h t sender raw ok w'' Hc Es Ea A) as [b opts m|i x to m|i x m s']; cbn [ow_exists];
      rewrite IH, ?orb_true_r; reflexivity.
  - cbn [o_act] in A. destruct (ow_exists w' b); [discriminate|]. injection A as <-. cbn [ow_exists]. rewrite IH. apply orb_true_r.
Qed.

Lemma later_trans c w w' w'' : o_later c w w' -> o_later c w' w'' -> o_later c w w''.
Proof. intros L L'. induction L' as [|x a y L' IH A]; [exact L|]. eapply o_later_act; eassumption. Qed.
Lemma act_guard c h t sender raw ok w w' : o_act c (OExec h t sender raw ok) w = Some w' ->
  h < u64_lim /\ t < u64_lim /\ utf8 sender.
Proof.
  cbn [o_act]. intro A. apply obind_some in A as (s & _ & A). apply obind_some in A as (m & _ & A).
  destruct (h <? u64_lim) eqn:E1; [|discriminate]. destruct (t <? u64_lim) eqn:E2; [|discriminate].
  destruct (utf8_valid sender) eqn:E3; [|discriminate]. apply N.ltb_lt in E1, E2. auto.
Qed.
Lemma act_log c a w w' : ocfg_ok c -> oreach c w -> o_act c a w = Some w' -> exists new, ow_log w' = new ++ ow_log w.
Proof.
  intros Hc R A. assert (Iw := oreach_inv c w Hc R). destruct a as [sender raw|h t sender raw ok|b].
  - cbn [o_act] in A. destruct (ow_store w); [discriminate|]. destruct (utf8_valid sender); [|discriminate]. apply obind_some in A as (m & _ & A).
    destruct (o_instantiate (oc_api c) sender m); try discriminate. injection A as <-. now exists [].
  - assert (A' := A). cbn [o_act] in A'. apply obind_some in A' as (s & Es & _). destruct (oi_admin c w Iw s Es) as ([admin code] & Ea & _).
    destruct (exec_effect c w s admin code h t sender raw ok w' Hc Es Ea A) as [addr opts m|i x to m|i x m s']; cbn [ow_log];
      eexists [_]; reflexivity.
  - cbn [o_act] in A. destruct (ow_exists w b); [discriminate|]. injection A as <-. now exists [].
Qed.
Lemma admin_stays c w w' admin code : ocfg_ok c -> oreach c w -> admin_reported w admin code -> o_later c w w' -> admin_reported w' admin code.
Proof.
  intros Hc R Ad L. induction L as [|x a y L IH A]; [exact Ad|].
  destruct (act_log c a x y Hc (later_reach c w x R L) A) as [new El].
  exact (proj1 (C49_admin c x a y new admin code Hc (later_reach c w x R L) IH A El)).
Qed.

(** A salt is used up by the first creation. In particular, without a salt only
    one controller can be created per second. *)
Theorem C89_salt_once : forall c w h t sender raw ok w1 w2 h' t' sender' raw' ok' salt opts salt' opts' admin code,
  ocfg_ok c -> oreach c w -> admin_reported w admin code ->
  from_json jc_o_execute_msg raw = Some (OCreate salt opts) -> o_act c (OExec h t sender raw ok) w = Some w1 ->
  o_later c w1 w2 ->
  from_json jc_o_execute_msg raw' = Some (OCreate salt' opts') -> salt_at salt' t' = salt_at salt t ->
  o_act c (OExec h' t' sender' raw' ok') w2 = None.
Proof.
  intros c w h t sender raw ok w1 w2 h' t' sender' raw' ok' salt opts salt' opts' admin code Hc R Ad Hm A L Hm' Es.
  destruct (o_act c (OExec h' t' sender' raw' ok') w2) as [w3|] eqn:A'; [exfalso|reflexivity].
  destruct (act_guard _ _ _ _ _ _ _ _ A) as (G1 & G2 & G3). destruct (act_guard _ _ _ _ _ _ _ _ A') as (G1' & G2' & G3').
  assert (R1 : oreach c w1) by (eapply oreach_act; eassumption). assert (R2 := later_reach c w1 w2 R1 L).
  pose proof (C89_create c w h t sender raw ok salt opts admin code Hc R Ad Hm G1 G2 G3) as K. rewrite A in K.
  destruct K as (_ & _ & addr & P & _ & El & _).
  assert (X : ow_exists w1 addr = true).
  { assert (F := oi_exists c w1 (oreach_inv c w1 Hc R1)). rewrite Forall_forall in F. apply F. rewrite El. cbn [created].
    apply in_or_app. right. now left. }
  pose proof (admin_stays c w w2 admin code Hc R Ad (later_trans _ _ _ _ (o_later_act c w w _ w1 (o_later_same c w) A) L)) as Ad2.
  pose proof (C89_create c w2 h' t' sender' raw' ok' salt' opts' admin code Hc R2 Ad2 Hm' G1' G2' G3') as K. rewrite A' in K.
  destruct K as (_ & _ & addr' & P' & X' & _). rewrite Es, P in P'. injection P' as <-.
  rewrite (exists_stays c w1 w2 addr Hc R1 L X) in X'. discriminate.
Qed.

(** Cases: two controllers, the second one with the seconds as salt; the same
    again in the same second, and in the next. *)
Definition now89 (time : N) : oaction :=
  OExec 10 time "admin" ("{""create_ica_contract"":{""channel_open_init_options"":" +++ to_json jc_options (opts0 None) +++ "}}") true.
Definition w89 : oworld := o_run oc49 [o_inst; o_new "A" (opts0 None)] o_init.
Example C89_case : ocfg_ok oc49 /\ oreach oc49 w89 /\ admin_reported w89 "admin" 7 /\
  (exists w1, o_act oc49 (now89 5000000001) w89 = Some w1 /\ created (ow_log w1) = ["wasmA"; "wasm5"] /\
     o_act oc49 (now89 5999999999) w1 = None /\
     (exists w2, o_act oc49 (now89 6000000000) w1 = Some w2) /\
     (exists w2, o_act oc49 (o_do "1") w1 = Some w2) /\ o_act oc49 (o_do "2") w1 = None).
Proof.
  split; [exact oc49_ok|]. split; [apply o_run_reach; constructor|].
  split; [eexists; split; [ vm_compute; reflexivity | vm_compute; reflexivity]|].
  eexists. split; [vm_compute; reflexivity|]. split; [vm_compute; reflexivity|]. split; [vm_compute; reflexivity|].
  split; [eexists; vm_compute; reflexivity|]. split; [eexists; vm_compute; reflexivity|]. vm_compute. reflexivity.
Qed.

Print Assumptions C89_send.
Print Assumptions C89_create.
Print Assumptions C89_salt_once.
