(** * PropOwner: ownership, callback address, instantiation (C01, C02, C41, C42). *)

From Verif Require Import Base Text Utf8 Json JsonCodec Types JsonTypes Store Ownable Contract JsonSound HostSpec
  PacketFacts EntryFacts Chain ChainSpec Trans Inv HistorySpec History Queries HistFacts Enabled Witness.
Local Open Scope string_scope.
Local Open Scope list_scope.
Local Open Scope N_scope.

(** ** C01: only the owner can act through execute *)

(** In any store whatsoever: a call that succeeds comes from the stored owner,
    or is the acceptance by the stored nominee before its expiry. *)
Theorem C01_owner_only_any_store : forall a s e sender m s' r,
  execute a s e sender m = Ok (s', r) ->
  exists o, st_owner s = Some o /\
    (ow_owner o = Some sender \/
     m = XUpdateOwnership AcceptOwnership /\ ow_pending o = Some sender /\ ~ lapsed (ow_expiry o) e).
Proof.
  intros a s e sender m s' r H.
  assert (A : forall x, assert_owner s sender = Ok x -> exists o, st_owner s = Some o /\ ow_owner o = Some sender).
  { intros [] HA. now apply assert_owner_ok in HA. }
  destruct m as [opts| |ms qs memo t|cb|[n x| |]]; cbn [execute] in H.
  1-4: unfold create_channel, close_channel, send_cosmos_msgs, update_callback_address in H;
    apply bindo_ok in H as (y & HA & _); destruct (A y HA) as (o & H1 & H2); eauto.
  - unfold update_ownership, ownable_update in H. apply bindo_ok in H as (s1 & H & _).
    apply bindo_ok in H as (o & Ho & H). apply bindo_ok in H as (y & HA & _). exists o.
    destruct (st_owner s) as [o'|]; [|discriminate]. injection Ho as ->. split; [reflexivity|]. left.
    unfold check_owner in HA. destruct (ow_owner o) as [z|]; [|discriminate].
    destruct (String.eqb_spec sender z); [congruence|discriminate].
  - unfold update_ownership, ownable_update in H. apply bindo_ok in H as (s1 & H & _).
    apply bindo_ok in H as (o & Ho & H). exists o.
    destruct (st_owner s) as [o'|]; [|discriminate]. injection Ho as ->. split; [reflexivity|]. right.
    split; [reflexivity|]. destruct (ow_pending o) as [p|]; [|discriminate].
    destruct (String.eqb_spec sender p) as [->|]; [|discriminate]. cbn [negb] in H. split; [reflexivity|].
    unfold lapsed. destruct (ow_expiry o) as [[]|]; cbn [is_expired] in H; try tauto.
    + destruct (N.leb_spec h (env_height e)); [discriminate|lia].
    + destruct (N.leb_spec t (env_time e)); [discriminate|lia].
  - discriminate.
Qed.

(** In every history: if the Ownership query does not report the sender as owner
    (or, for an acceptance, as nominee in time), the transaction fails, and the
    chain is exactly as before. *)
Theorem C01_owner_only : forall c w o h t sender raw id ok beh,
  cfg_ok c -> visited c w -> owner_reported w o ->
  ow_owner o <> Some sender ->
  ~ (from_json jc_execute_msg raw = Some (XUpdateOwnership AcceptOwnership) /\
     ow_pending o = Some sender /\ ~ lapsed (ow_expiry o) (Env h t (c_self c))) ->
  step c (Tx (AExecute h t sender raw id ok) beh) w = None /\
  run c [Tx (AExecute h t sender raw id ok) beh] w = w.
Proof.
  intros c w o h t sender raw id ok beh Hc V (txt & Hask & Hdec) Hno Hna.
  assert (G : act c (AExecute h t sender raw id ok) w = None).
  { destruct (act c (AExecute h t sender raw id ok) w) as [[w' b]|] eqn:E; [exfalso|reflexivity].
    destruct (w_store w) as [s|] eqn:Hs; [|cbn [act] in E; rewrite Hs in E;
      apply obind_some in E as (? & _ & E); discriminate].
    assert (Hl : w_log w <> []).
    { intro El. apply (store_log c w Hc V) in El. congruence. }
    destruct (ask_ownership c w Hc V Hl) as (txt' & Hask' & Hdec').
    rewrite Hask in Hask'. injection Hask' as <-. rewrite Hdec in Hdec'. injection Hdec' as ->. cbn in Hno, Hna.
    cbn [act] in E. apply obind_some in E as (? & _ & E). rewrite Hs in E. cbn [obind] in E.
    apply obind_some in E as (m & Hm & E). apply obind_some in E as ([s' r] & HX & _). apply ok_of_some in HX.
    apply C01_owner_only_any_store in HX as (o & O1 & O2).
    destruct (io_owner _ _ (inv_owner _ _ (visited_inv c w Hc V) _ Hs)) as (o' & y & P1 & P2 & P3 & P4).
    rewrite O1 in P1. injection P1 as <-. destruct O2 as [O2|(-> & O2 & O3)]; [congruence|].
    apply Hna. split; [exact Hm|].
    destruct (nominee_of (w_log w)) as [[n x']|]; destruct P4 as [P4 P5]; [|congruence]. cbn. rewrite <- P5. split; congruence. }
  cbn [step]. rewrite G. split; [reflexivity|]. unfold run. cbn [runs step]. now rewrite G.
Qed.

(** An instantiated controller; somebody else calls. *)
Example C01_case : let w := world_of ordered_open in
  owner_reported w (Ownership (Some "owner") None None) /\
  step cfg0 (exec "mallory" XCloseChannel "") w = None /\
  (exists w', step cfg0 (exec "owner" XCloseChannel "") w = Some w').
Proof.
  split; [|split].
  - exists (to_json jc_ownership (Ownership (Some "owner") None None)). now vm_compute.
  - vm_compute. reflexivity.
  - eexists. vm_compute. reflexivity.
Qed.

(** ** C02: exactly one owner, moved only by nomination and timely acceptance *)

(** Once instantiated there is always an owner. *)
Theorem C02_always_owned : forall c w, cfg_ok c -> visited c w -> w_log w <> [] ->
  exists o x, owner_reported w o /\ ow_owner o = Some x.
Proof.
  intros c w Hc V H. pose proof (ask_ownership c w Hc V H) as R.
  destruct (hist_started _ _ (visited_hist c w Hc V) H) as [x Hx]. rewrite Hx in R.
  eexists _, x. split; [exact R|reflexivity].
Qed.

(** The reported owner changes only by an acceptance of the reported nominee
    before the reported expiry, and the nominee is then the owner. *)
Theorem C02_owner_changes : forall c w a w' b o o',
  cfg_ok c -> visited c w -> act c a w = Some (w', b) ->
  owner_reported w o -> owner_reported w' o' -> ow_owner o <> ow_owner o' ->
  exists h t sender raw id ok, a = AExecute h t sender raw id ok /\
    from_json jc_execute_msg raw = Some (XUpdateOwnership AcceptOwnership) /\
    ow_pending o = Some sender /\ ~ lapsed (ow_expiry o) (Env h t (c_self c)) /\
    o' = Ownership (Some sender) None None.
Proof.
  intros c w a w' b o o' Hc V H (t1 & A1 & D1) (t2 & A2 & D2) Hne.
  assert (V' : visited c w') by (eapply visited_act; eassumption).
  assert (Hs : w_store w <> None) by (intro E; unfold ask in A1; rewrite E in A1; discriminate).
  assert (Hs' : w_store w' <> None) by (intro E; unfold ask in A2; rewrite E in A2; discriminate).
  assert (Hl : w_log w <> []) by (intro E; apply (store_log c w Hc V) in E; congruence).
  assert (Hl' : w_log w' <> []) by (intro E; apply (store_log c w' Hc V') in E; congruence).
  destruct (ask_ownership c w Hc V Hl) as (u1 & B1 & E1). rewrite A1 in B1. injection B1 as <-.
  destruct (ask_ownership c w' Hc V' Hl') as (u2 & B2 & E2). rewrite A2 in B2. injection B2 as <-.
  rewrite D1 in E1. injection E1 as ->. rewrite D2 in E2. injection E2 as ->. clear D1 D2 A1 A2. cbn in Hne.
  destruct (act_block_call c w a w' b Hc V H) as (pre & F & B & El).
  assert (Hacc : exists e s x, pre ++ call_item c a = [LExecuted e s (XUpdateOwnership AcceptOwnership)] /\
     nominee_of (w_log w) = Some (s, x) /\ ~ lapsed x e).
  { rewrite El in Hne. clear El F. remember (pre ++ call_item c a) as new.
    destruct B as [B|B]; destruct B; try (elim Hne; reflexivity); try congruence;
      try (repeat eexists; eassumption);
      elim Hne; match goal with K : callback _ _ _ |- _ => destruct K as [_ ->] end;
      destruct (callback_of (w_log w)); reflexivity. }
  destruct Hacc as (e & s0 & x & En & N1 & N2). rewrite En in El.
  destruct pre as [|i pre]; [|cbn in En; injection En as -> _; inversion F; contradiction].
  rewrite El. cbn [app owner_of nominee_of option_map obind]. rewrite N1. cbn.
  destruct a; cbn [app call_item] in En; try discriminate.
  - destruct (from_json jc_instantiate_msg raw); discriminate.
  - destruct (from_json jc_execute_msg raw) eqn:Em; [|discriminate]. injection En as <- <- ->.
    exists height, time, sender, raw, id, ok. auto.
Qed.

(** Renouncing always fails, whoever tries it. *)
Theorem C02_no_renounce : forall a s e sender, execute a s e sender (XUpdateOwnership RenounceOwnership) =
  Err EOwnershipCannotBeRenounced.
Proof. reflexivity. Qed.
Lemma hist_no_renounce c l : hist c l -> Forall (fun i => match i with
  LExecuted _ _ (XUpdateOwnership RenounceOwnership) => False | _ => True end) l.
Proof.
  induction 1 as [|l new Hl IH B]; [constructor|]. apply Forall_app. split; [|exact IH].
  destruct B as [B|B]; destruct B;
    repeat match goal with H : callback _ _ _ |- _ => apply callback_quiet in H as [->|(? & ? & ->)] end;
    cbn [app]; repeat (apply Forall_cons; [exact I|]); apply Forall_nil.
Qed.

(** Every nomination on record was made by the owner in force at that time, and
    nothing about ownership happened since. *)
Definition ownership_item (i : logitem) : bool :=
  match i with LInstantiated _ _ _ | LExecuted _ _ (XUpdateOwnership _) => true | _ => false end.
Theorem C02_nominated_by_owner : forall c w o n,
  cfg_ok c -> visited c w -> owner_reported w o -> ow_pending o = Some n ->
  exists l1 l2 e sender, w_log w = l1 ++ LExecuted e sender (XUpdateOwnership (TransferOwnership n (ow_expiry o))) :: l2 /\
    Forall (fun i => ownership_item i = false) l1 /\
    owner_of l2 = Some sender /\ addr_validate (c_api c) n = true.
Proof.
  intros c w o n Hc V (t1 & A1 & D1) Hn.
  assert (Hs : w_store w <> None) by (intro E; unfold ask in A1; rewrite E in A1; discriminate).
  assert (Hl : w_log w <> []) by (intro E; apply (store_log c w Hc V) in E; congruence).
  destruct (ask_ownership c w Hc V Hl) as (u1 & B1 & E1). rewrite A1 in B1. injection B1 as <-.
  rewrite D1 in E1. injection E1 as ->. cbn in Hn |- *.
  destruct (nominee_of (w_log w)) as [[n' x]|] eqn:En; [|discriminate]. injection Hn as ->. cbn.
  assert (G : exists l1 l2 e sender, w_log w = l1 ++ LExecuted e sender (XUpdateOwnership (TransferOwnership n x)) :: l2 /\
    Forall (fun i => ownership_item i = false) l1).
  { pose proof (hist_no_renounce _ _ (visited_hist c w Hc V)) as NR. clear -En NR. induction (w_log w) as [|i l IH]; [discriminate|].
    assert (NR' := Forall_inv_tail NR). apply Forall_inv in NR.
    destruct i; cbn [nominee_of] in En; try discriminate;
      try (destruct (IH En NR') as (l1 & l2 & e' & s' & -> & F); eexists (_ :: l1), l2, e', s'; split; [reflexivity|constructor; auto]).
    destruct m as [| | | |[]]; try discriminate;
      try (destruct (IH En NR') as (l1 & l2 & e' & s' & -> & F); eexists (_ :: l1), l2, e', s'; split; [reflexivity|constructor; auto]).
    - injection En as <- <-. exists [], l, e, sender. auto.
    - contradiction. }
  destruct G as (l1 & l2 & e & sender & El & F). exists l1, l2, e, sender.
  split; [exact El|]. split; [exact F|].
  destruct (hist_item _ _ _ _ _ (visited_hist c w Hc V) El) as (l0 & n1 & n2 & H0 & B & ->).
  block_cases B. injection E as <- <- <- <-. cbn. auto.
Qed.

(** A nomination, an acceptance; the old owner has lost its rights. *)
Definition nominate (n : string) (x : option expiration) := XUpdateOwnership (TransferOwnership n x).
Definition handover := ordered_open ++
  [exec "owner" (nominate "heir" (Some (AtHeight 12))) ""; exec "heir" (XUpdateOwnership AcceptOwnership) ""].
Example C02_case :
  owner_reported (world_of (ordered_open ++ [exec "owner" (nominate "heir" (Some (AtHeight 12))) ""]))
    (Ownership (Some "owner") (Some "heir") (Some (AtHeight 12))) /\
  owner_reported (world_of handover) (Ownership (Some "heir") None None) /\
  owner_reported (world_of (ordered_open ++ [exec "owner" (nominate "heir" (Some (AtHeight 11))) "";
      exec "heir" (XUpdateOwnership AcceptOwnership) ""]))
    (Ownership (Some "owner") (Some "heir") (Some (AtHeight 11))).
Proof.
  split; [|split]; apply owner_reported_by; vm_compute; reflexivity.
Qed.

(** ** C41: UpdateCallbackAddress *)

Theorem C41_update_only : forall a s e sender cb s' r,
  execute a s e sender (XUpdateCallbackAddress cb) = Ok (s', r) ->
  r = Response [] [] /\
  match cb with Some x => addr_validate a x = true | None => True end /\
  (exists st, st_state s = Some st /\ st_state s' = Some (ContractState (cs_ica st) cb)) /\
  st_version s' = st_version s /\ st_owner s' = st_owner s /\ st_channel s' = st_channel s /\
  st_options s' = st_options s /\ st_allow_open s' = st_allow_open s /\ st_allow_close s' = st_allow_close s /\
  st_query s' = st_query s /\ forall id n, st_pending s' id n = st_pending s id n.
Proof.
  intros a s e sender cb s' r H. cbn [execute] in H. unfold update_callback_address in H.
  apply bindo_ok in H as (? & _ & H). apply bindo_ok in H as (st & Hst & H). apply load_ok in Hst.
  apply bindo_ok in H as (cb' & Hcb & H). apply validate_opt_ok in Hcb as [-> Hv]. injection H as <- <-.
  split; [reflexivity|]. split; [exact Hv|]. split; [exists st; auto|]. repeat split.
Qed.

(** It succeeds for the owner with a valid address or none. *)
Theorem C41_update_succeeds : forall c w h t sender raw id ok cb,
  cfg_ok c -> visited c w -> h < u64_lim -> t < u64_lim -> utf8 sender ->
  owner_of (w_log w) = Some sender ->
  from_json jc_execute_msg raw = Some (XUpdateCallbackAddress cb) -> valid_address c cb ->
  exists w' st st', act c (AExecute h t sender raw id ok) w = Some (w', false) /\
    state_reported w st /\ state_reported w' st' /\ st' = ContractState (cs_ica st) cb.
Proof.
  intros c w h t sender raw id ok cb Hc V Hh Ht Hu Ho Hm Hv.
  assert (Hl : w_log w <> []) by (intro E; rewrite E in Ho; discriminate).
  destruct (store_some c w Hc V Hl) as [s Hs].
  destruct (io_callback _ _ (inv_owner _ _ (visited_inv c w Hc V) _ Hs)) as (st & S1 & _).
  assert (E : exists w', act c (AExecute h t sender raw id ok) w = Some (w', false)
    /\ w_log w' = LExecuted (Env h t (c_self c)) sender (XUpdateCallbackAddress cb) :: w_log w).
  { cbn [act]. rewrite env_ok_true by assumption. cbn [guard obind]. rewrite Hs. cbn [obind]. rewrite Hm. cbn [obind execute].
    unfold update_callback_address. rewrite (proj2 (assert_owner_ok s sender)) by (eapply owner_is; eassumption).
    cbn [bindo]. rewrite S1. cbn [load of_option bindo].
    assert (Ev : validate_opt (c_api c) cb = Ok cb).
    { unfold validate_opt. destruct cb as [x|]; [|reflexivity]. cbn in Hv. now rewrite Hv. }
    rewrite Ev. cbn [bindo ok_of obind dispatch_exec response_default r_msgs r_events note_events].
    eexists. split; [reflexivity|]. reflexivity. }
  destruct E as (w' & E & El). exists w'.
  assert (V' : visited c w') by (eapply visited_act; eassumption).
  eexists _, _. split; [exact E|]. split; [apply (ask_state c w Hc V Hl)|].
  split; [apply (ask_state c w' Hc V'); rewrite El; discriminate|]. rewrite El. reflexivity.
Qed.

(** Every callback of a history went to the address set last before it. *)
Theorem C41_callbacks_follow : forall c w l1 addr msg l2,
  cfg_ok c -> visited c w -> w_log w = l1 ++ LCall addr msg :: l2 -> callback_of l2 = Some addr.
Proof.
  intros c w l1 addr msg l2 Hc V El.
  destruct (hist_item _ _ _ _ _ (visited_hist c w Hc V) El) as (l0 & n1 & n2 & H0 & B & ->).
  block_cases B; injection E as <- <-; cbn; assumption.
Qed.

Example C41_case : exists l1 m1 l2 m2,
  w_log (world_of (unordered_open ++ [exec "owner" (XUpdateCallbackAddress (Some "cb2")) "";
     exec "owner" (send0 [bank0] []) ""; ack "channel-0" 1 (AckError "failed")]))
  = LCall "cb2" m1 :: l1 ++ LCall "cb" m2 :: l2.
Proof.
  eexists [_; _; _; _; _], _, _, _. vm_compute. reflexivity.
Qed.

(** ** C42: instantiation *)

Theorem C42_instantiate_any : forall a e sender m,
  ((exists s r, instantiate a e sender m = Ok (s, r)) <->
   addr_validate a (unwrap_or (im_owner m) sender) = true /\
   match im_callbacks m with Some x => addr_validate a x = true | None => True end) /\
  forall s r, instantiate a e sender m = Ok (s, r) ->
    st_owner s = Some (Ownership (Some (unwrap_or (im_owner m) sender)) None None) /\
    st_state s = Some (ContractState None (im_callbacks m)) /\ st_channel s = None /\
    st_options s = Some (im_options m) /\ st_version s = Some ("crates.io:cw-ica-controller", "0.20.0") /\
    (forall id n, st_pending s id n = None).
Proof.
  intros a e sender m. split.
  - split.
    + intros (s & r & H). apply instantiate_ok in H as (H1 & H2 & _). auto.
    + intros [H1 H2]. unfold instantiate, initialize_owner. rewrite H1. cbn [bindo]. unfold validate_opt.
      destruct (im_callbacks m) as [x|]; [rewrite H2|]; cbn [bindo]; eauto.
  - intros s r H. apply instantiate_ok in H as (_ & _ & -> & _). cbn. auto 7.
Qed.

Theorem C42_instantiate : forall c rel h t sender raw id ok w w' b,
  cfg_ok c -> visited c w -> act c (AInstantiate rel h t sender raw id ok) w = Some (w', b) ->
  exists m, from_json jc_instantiate_msg raw = Some m /\
    valid_address c (Some (unwrap_or (im_owner m) sender)) /\ valid_address c (im_callbacks m) /\
    owner_reported w' (Ownership (Some (unwrap_or (im_owner m) sender)) None None) /\
    state_reported w' (ContractState None (im_callbacks m)) /\
    ask w' get_channel = None /\
    w_log w' = [LChanInit id; LInstantiated (Env h t (c_self c)) sender m] /\
    exists ce, w_chans w' id = Some ce /\ ce_state ce = CInit.
Proof.
  intros c rel h t sender raw id ok w w' b Hc V H.
  assert (V' : visited c w') by (eapply visited_act; eassumption).
  destruct (inst_id _ _ _ _ _ _ _ _ _ _ _ Hc H) as (m & Hm & El & Ece). exists m. split; [exact Hm|].
  destruct (act_block_call _ _ _ _ _ Hc V H) as (pre & F & B & El'). cbn [call_item] in *. rewrite Hm in *.
  block_cases B; injection E as E1 E2 E3; subst.
  match goal with K : _ = [] |- _ => rewrite K in * end.
  split; [assumption|]. split; [assumption|].
  assert (Hl' : w_log w' <> []) by (rewrite El; discriminate).
  pose proof (ask_ownership c w' Hc V' Hl') as Q1. pose proof (ask_channel c w' Hc V' Hl') as Q2.
  pose proof (ask_state c w' Hc V' Hl') as Q3. rewrite El in Q1, Q2, Q3.
  split; [exact Q1|]. split; [exact Q3|]. split; [exact Q2|]. split; [exact El|]. eexists. split; [exact Ece|reflexivity].
Qed.

(** An invalid address makes the transaction fail. *)
Theorem C42_invalid_address : forall c rel h t sender raw id ok m beh w,
  from_json jc_instantiate_msg raw = Some m ->
  ~ (valid_address c (Some (unwrap_or (im_owner m) sender)) /\ valid_address c (im_callbacks m)) ->
  step c (Tx (AInstantiate rel h t sender raw id ok) beh) w = None.
Proof.
  intros c rel h t sender raw id ok m beh w Hm Hn. cbn [step].
  destruct (act c _ w) as [[w' b]|] eqn:E; [exfalso|reflexivity]. cbn [act] in E.
  apply obind_some in E as (? & _ & E). rewrite Hm in E. cbn [obind] in E. apply obind_some in E as ([s r] & E & _).
  apply ok_of_some in E. apply Hn. 
  apply (proj1 (C42_instantiate_any (c_api c) (Env h t (c_self c)) sender m)). eauto.
Qed.

(** And otherwise it succeeds, if the chain accepts the new channel. *)
Theorem C42_instantiate_succeeds : forall c rel h t sender raw id m,
  cfg_ok c -> h < u64_lim -> t < u64_lim -> utf8 sender ->
  from_json jc_instantiate_msg raw = Some m ->
  valid_address c (Some (unwrap_or (im_owner m) sender)) -> valid_address c (im_callbacks m) ->
  utf8 id -> slen id <= 64 -> unwrap_or (oo_cp_port (im_options m)) "icahost" = "icahost" ->
  slen (open_init_bytes (c_self c) (im_options m)) < u32_lim ->
  exists w', step c (Tx (AInstantiate rel h t sender raw id true) None) init_world = Some w'.
Proof.
  intros c rel h t sender raw id m Hc Hh Ht Hu Hm Ha Hv Hi Hl Hp Hb.
  destruct (act_instantiate c rel h t sender raw id m init_world) as (w' & E & _); try assumption; try reflexivity.
  - repeat split; assumption.
  - exists w'. cbn [step]. rewrite E. reflexivity.
Qed.

Example C42_case : exists w, step cfg0 (inst (Some Unordered) (Some "cb")) init_world = Some w /\
  owner_reported w (Ownership (Some "owner") None None) /\ state_reported w (ContractState None (Some "cb")).
Proof.
  exists (world_of [inst (Some Unordered) (Some "cb")]). split; [vm_compute; reflexivity|].
  split; [apply owner_reported_by|apply state_reported_by]; vm_compute; reflexivity.
Qed.

Print Assumptions C01_owner_only_any_store.
Print Assumptions C01_owner_only.
Print Assumptions C02_always_owned.
Print Assumptions C02_owner_changes.
Print Assumptions C02_no_renounce.
Print Assumptions C02_nominated_by_owner.
Print Assumptions C41_update_only.
Print Assumptions C41_update_succeeds.
Print Assumptions C41_callbacks_follow.
Print Assumptions C42_instantiate_any.
Print Assumptions C42_instantiate.
Print Assumptions C42_invalid_address.
Print Assumptions C42_instantiate_succeeds.
