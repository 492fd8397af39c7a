(** * PropRefusal: property C87, why a call of execute fails. *)

From Verif Require Import Base Text Utf8 Json JsonCodec Types JsonTypes Store CosmosMsg QueryMsg PacketData Ownable
  Contract HostSpec Chain ChainSpec Trans Inv HistorySpec History Queries Enabled Witness PropOwner PropPacket Errors.
From Coq Require Import ZifyBool ZifyN.
Local Open Scope string_scope.
Local Open Scope list_scope.
Local Open Scope N_scope.

(** ** Specification *)

(** Requests only the owner can make. *)
Definition owners_only (m : execute_msg) : bool :=
  match m with XUpdateOwnership AcceptOwnership | XUpdateOwnership RenounceOwnership => false | _ => true end.

(** At [height] and [time] the offer is over. *)
Definition over (x : expiration) (height time : N) : Prop :=
  match x with AtHeight h => h <= height | AtTime t => t <= time | Never => False end.

(** The reasons to refuse a request, when the queries report the ownership [ow]
    and the state [st]. *)
Inductive refusal (valid : string -> bool) (w : world) (ow : ownership) (st : contract_state)
  (height time : N) (sender : string) : execute_msg -> cerr -> Prop :=
| R_not_owner m : owners_only m = true -> ow_owner ow <> Some sender ->
    refusal valid w ow st height time sender m (EOwnership ONotOwner)
| R_renounce :
    refusal valid w ow st height time sender (XUpdateOwnership RenounceOwnership) EOwnershipCannotBeRenounced
| R_new_owner n x : ow_owner ow = Some sender -> valid n = false ->
    refusal valid w ow st height time sender (XUpdateOwnership (TransferOwnership n x)) (EOwnership OStd)
| R_no_offer : ow_pending ow = None ->
    refusal valid w ow st height time sender (XUpdateOwnership AcceptOwnership) (EOwnership OTransferNotFound)
| R_not_offered p : ow_pending ow = Some p -> p <> sender ->
    refusal valid w ow st height time sender (XUpdateOwnership AcceptOwnership) (EOwnership ONotPendingOwner)
| R_expired x : ow_pending ow = Some sender -> ow_expiry ow = Some x -> over x height time ->
    refusal valid w ow st height time sender (XUpdateOwnership AcceptOwnership) (EOwnership OTransferExpired)
| R_no_channel : ow_owner ow = Some sender -> ask w get_channel = None ->
    refusal valid w ow st height time sender XCloseChannel EStd
| R_not_open ch : ow_owner ow = Some sender -> channel_reported w ch StClosed ->
    refusal valid w ow st height time sender XCloseChannel (EInvalidChannelStatus "STATE_OPEN" "STATE_CLOSED")
| R_callback a : ow_owner ow = Some sender -> valid a = false ->
    refusal valid w ow st height time sender (XUpdateCallbackAddress (Some a)) EStd
| R_no_account ms qs memo t : ow_owner ow = Some sender -> cs_ica st = None ->
    refusal valid w ow st height time sender (XSendCosmosMsgs ms qs memo t) EIcaInfoNotSet.

(** The reasons to abort: something in the request that is not supported, or a
    timeout beyond the end of time. *)
Definition aborting (ow : ownership) (st : contract_state) (time : N) (sender : string) (m : execute_msg) : Prop :=
  exists ms qs memo t, m = XSendCosmosMsgs ms qs memo t /\ ow_owner ow = Some sender /\ cs_ica st <> None /\
    (Exists (fun m => ~ supported m) ms \/ Exists (fun q => ~ qsupported q) qs \/
     u64_lim <= time + unwrap_or t 600 * 10 ^ 9).

(** ** What the store holds *)

Lemma holds c w s ow st : cfg_ok c -> visited c w -> w_store w = Some s -> owner_reported w ow -> state_reported w st ->
  st_owner s = Some ow /\ (exists x, ow_owner ow = Some x) /\ st_state s = Some st /\
  (exists o, st_options s = Some o) /\
  (forall info, cs_ica st = Some info -> ii_encoding info = Protobuf) /\
  match st_channel s with
  | None => ask w get_channel = None
  | Some cs => channel_reported w (cst_channel cs) (cst_status cs) /\ (cst_status cs = StOpen \/ cst_status cs = StClosed)
  end.
Proof.
  intros Hc V Hs RO RS.
  assert (Hl : w_log w <> []). { intro E. apply (store_log c w Hc V) in E. congruence. }
  assert (I := visited_inv c w Hc V).
  destruct (io_owner _ _ (inv_owner _ _ I _ Hs)) as (o & x & O1 & O2 & O3 & O4).
  assert (Eo : o = ow).
  { destruct (ask_ownership c w Hc V Hl) as (t' & A' & D'). destruct RO as (t & A & D).
    rewrite A in A'. injection A' as <-. rewrite D in D'. injection D' as ->.
    destruct o as [a b d]. cbn in O2, O4. destruct (nominee_of (w_log w)) as [[n y]|]; cbn; destruct O4; congruence. }
  subst o. split; [exact O1|]. split; [eauto|].
  destruct (state_reported_log _ _ _ Hc V RS) as (_ & Est).
  destruct (io_callback _ _ (inv_owner _ _ I _ Hs)) as (st' & S1 & S2).
  pose proof (inv_recorded _ _ I _ Hs) as R. unfold inv_rec in R.
  assert (Es : st' = st /\ forall info, cs_ica st' = Some info -> ii_encoding info = Protobuf).
  { subst st. destruct st' as [ica cb]. cbn [cs_callback cs_ica] in *. subst cb. unfold account_of.
    destruct (st_channel s) as [cs|].
    - destruct R as (st' & info & ce & md & R1 & R2 & R3 & R4 & R5 & R6 & R7 & R8 & R9 & R10 & R11 & R12).
      rewrite S1 in R1. injection R1 as <-. cbn [cs_ica] in R2. subst ica. rewrite R5, R6. cbn [channel_of ch_version ch_endpoint e_chan].
      rewrite R9, R10. destruct info as [ad ch en]. cbn in *. subst en. split; [reflexivity|]. intros info E. now injection E as <-.
    - destruct R as (R1 & st' & R2 & R3). rewrite R1. rewrite S1 in R2. injection R2 as <-. cbn [cs_ica] in R3. subst ica.
      split; [reflexivity|discriminate]. }
  destruct Es as [-> Enc]. split; [exact S1|]. split; [destruct (io_options _ _ (inv_owner _ _ I _ Hs)) as (op & P & _); eauto|].
  split; [exact Enc|].
  assert (RR := il_rec _ (visited_log c w Hc V) _ Hs). pose proof (ask_channel c w Hc V Hl) as Q.
  rewrite RR. unfold recorded_state in *. destruct (recorded (w_log w)) as [[ch b]|]; cbn [option_map]; [|exact Q].
  cbn [cst_channel cst_status]. split; [exact Q|]. destruct b; auto.
Qed.

(** ** Sending never returns an error once there is an account *)

Ltac never := let H := fresh in intro H; repeat match type of H with
  | context [match ?x with _ => _ end] => destruct x; try discriminate H end; discriminate H.
Lemma convert_never m a x : convert_to_proto_any m a <> Err x.
Proof.
  unfold convert_to_proto_any, conv_bank, conv_ibc, conv_wasm, conv_gov, conv_staking, conv_dist, any_from_msg. never.
Qed.
Lemma query_never q x : query_to_protobuf q <> Err x.
Proof. unfold query_to_protobuf, req_bank, req_wasm, req_staking. never. Qed.
Lemma mapo_never {A B} (f : A -> outcome B) l x : (forall a, f a <> Err x) -> mapo f l <> Err x.
Proof.
  intro H. induction l as [|a l IH]; cbn [mapo]; [discriminate|]. specialize (H a).
  destruct (f a); cbn [bindo]; [|congruence|discriminate]. destruct (mapo f l); cbn [bindo]; [discriminate|congruence|discriminate].
Qed.
Lemma packet_never s ms qs memo a x : from_cosmos_msgs s ms qs Protobuf memo a <> Err x.
Proof.
  unfold from_cosmos_msgs.
  pose proof (mapo_never (fun m => convert_to_proto_any m a) ms x (fun m => convert_never m a x)) as M.
  destruct (mapo (fun m => convert_to_proto_any m a) ms); cbn [bindo]; [|congruence|discriminate].
  destruct qs as [|q qs]; [discriminate|].
  pose proof (mapo_never query_to_protobuf (q :: qs) x (fun m => query_never m x)) as M'.
  destruct (mapo query_to_protobuf (q :: qs)); cbn [bindo]; [discriminate|congruence|discriminate].
Qed.
Lemma ibc_never p e id t x : to_ibc_msg p e id t <> Err x.
Proof. unfold to_ibc_msg, plus_seconds. never. Qed.

Lemma assert_owner_view s ow sender x : st_owner s = Some ow -> ow_owner ow = Some x ->
  assert_owner s sender = if String.eqb sender x then Ok tt else Err (EOwnership ONotOwner).
Proof. intros H E. unfold assert_owner. rewrite H. cbn [of_option bindo]. unfold check_owner. now rewrite E. Qed.

(** ** C87 *)

(** A request is refused for the reasons above only, and always with the error
    that says so. *)
Theorem C87_why : forall c w s ow st h t sender m x,
  cfg_ok c -> visited c w -> w_store w = Some s -> owner_reported w ow -> state_reported w st ->
  (execute (c_api c) s (Env h t (c_self c)) sender m = Err x <->
   refusal (addr_validate (c_api c)) w ow st h t sender m x).
Proof.
  intros c w s ow st h t sender m x Hc V Hs RO RS.
  destruct (holds c w s ow st Hc V Hs RO RS) as (H1 & (o & H2) & H3 & (op & H4) & H5 & H6).
  pose proof (assert_owner_view s ow sender o H1 H2) as AO.
  split.
  - intro E. destruct m as [oo| |ms qs memo tt|cb|act]; cbn [execute] in E.
    + unfold create_channel in E. rewrite AO in E. destruct (String.eqb_spec sender o) as [->|N]; cbn [bindo] in E.
      * rewrite H4 in E. destruct oo; discriminate E.
      * injection E as <-. constructor; [reflexivity|congruence].
    + unfold close_channel in E. rewrite AO in E. destruct (String.eqb_spec sender o) as [->|N]; cbn [bindo] in E.
      * destruct (st_channel s) as [cs|]; cbn [load of_option bindo] in E.
        -- destruct H6 as [H6 [Es|Es]]; unfold is_open in E; rewrite Es in E; cbn [negb] in E; [discriminate|].
           injection E as <-. rewrite Es in H6. eapply R_not_open; eassumption.
        -- injection E as <-. now constructor.
      * injection E as <-. constructor; [reflexivity|congruence].
    + unfold send_cosmos_msgs in E. rewrite AO in E. destruct (String.eqb_spec sender o) as [->|N]; cbn [bindo] in E.
      * rewrite H3 in E. cbn [load of_option bindo] in E. unfold get_ica_info in E.
        destruct (cs_ica st) as [info|] eqn:Ei; cbn [of_option bindo] in E.
        -- exfalso. rewrite (H5 _ eq_refl) in E.
           pose proof (packet_never s ms qs memo (ii_address info) x) as P.
           destruct (from_cosmos_msgs s ms qs Protobuf memo (ii_address info)) as [[s' p]| |]; cbn [bindo] in E; [|congruence|discriminate].
           pose proof (ibc_never p (Env h t (c_self c)) (ii_channel info) tt x) as Q.
           destruct (to_ibc_msg p (Env h t (c_self c)) (ii_channel info) tt); cbn [bindo] in E; [discriminate|congruence|discriminate].
        -- injection E as <-. now constructor.
      * injection E as <-. constructor; [reflexivity|congruence].
    + unfold update_callback_address in E. rewrite AO in E. destruct (String.eqb_spec sender o) as [->|N]; cbn [bindo] in E.
      * rewrite H3 in E. cbn [load of_option bindo] in E. destruct cb as [a|]; [|discriminate]. cbn [validate_opt] in E.
        destruct (addr_validate (c_api c) a) eqn:Ea; [discriminate|]. injection E as <-. now constructor.
      * injection E as <-. constructor; [reflexivity|congruence].
    + unfold update_ownership in E. destruct act as [n y| |].
      * unfold ownable_update in E. rewrite H1 in E. cbn [of_option bindo] in E. unfold check_owner in E. rewrite H2 in E.
        destruct (String.eqb_spec sender o) as [->|N]; cbn [bindo] in E.
        -- destruct (addr_validate (c_api c) n) eqn:Ea; [discriminate|]. injection E as <-. now constructor.
        -- injection E as <-. constructor; [reflexivity|congruence].
      * unfold ownable_update in E. rewrite H1 in E. cbn [of_option bindo] in E.
        destruct (ow_pending ow) as [p|] eqn:Ep; [|injection E as <-; now constructor].
        destruct (String.eqb_spec sender p) as [->|N]; cbn [negb] in E; [|injection E as <-; eapply R_not_offered; [eassumption|congruence]].
        destruct (ow_expiry ow) as [y|] eqn:Ey; [|discriminate]. destruct (is_expired y _) eqn:Ex; [|discriminate].
        injection E as <-. eapply R_expired; [eassumption|eassumption|]. destruct y; cbn in Ex |- *; lia.
      * injection E as <-. constructor.
  - assert (Own : ow_owner ow = Some sender -> assert_owner s sender = Ok tt).
    { intro E. rewrite AO. rewrite H2 in E. injection E as ->. now rewrite String.eqb_refl. }
    assert (Not : ow_owner ow <> Some sender -> assert_owner s sender = Err (EOwnership ONotOwner)).
    { intro E. rewrite AO. destruct (String.eqb_spec sender o) as [->|]; [congruence|reflexivity]. }
    intro R. destruct R as [m Ho Hn| |n y Ho Ha|Hp|p Hp Hn|y Hp Hy Hx|Ho Hq|ch Ho Hq|a Ho Ha|ms qs memo tt Ho Hi].
    + destruct m as [oo| |ms qs memo tt|cb|[n y| |]]; try discriminate Ho; cbn [execute].
      * unfold create_channel. now rewrite (Not Hn).
      * unfold close_channel. now rewrite (Not Hn).
      * unfold send_cosmos_msgs. now rewrite (Not Hn).
      * unfold update_callback_address. now rewrite (Not Hn).
      * unfold update_ownership, ownable_update. specialize (Not Hn). unfold assert_owner in Not. rewrite H1 in Not |- *. cbn [of_option bindo] in Not |- *.
        now rewrite Not.
    + reflexivity.
    + cbn [execute]. unfold update_ownership, ownable_update. specialize (Own Ho). unfold assert_owner in Own.
      rewrite H1 in Own |- *. cbn [of_option bindo] in Own |- *. rewrite Own. cbn [bindo]. now rewrite Ha.
    + cbn [execute]. unfold update_ownership, ownable_update. rewrite H1. cbn [of_option bindo]. now rewrite Hp.
    + cbn [execute]. unfold update_ownership, ownable_update. rewrite H1. cbn [of_option bindo]. rewrite Hp.
      destruct (String.eqb_spec sender p) as [->|]; [congruence|reflexivity].
    + cbn [execute]. unfold update_ownership, ownable_update. rewrite H1. cbn [of_option bindo]. rewrite Hp, Hy, String.eqb_refl. cbn [negb].
      assert (Ex : is_expired y (Env h t (c_self c)) = true) by (destruct y; cbn in Hx |- *; [lia|lia|contradiction]). now rewrite Ex.
    + cbn [execute]. unfold close_channel. rewrite (Own Ho). cbn [bindo]. destruct (st_channel s) as [cs|]; [|reflexivity].
      destruct H6 as [(u & A & _) _]. congruence.
    + cbn [execute]. unfold close_channel. rewrite (Own Ho). cbn [bindo]. destruct (st_channel s) as [cs|].
      * destruct H6 as [(u & A & D) _], Hq as (u' & A' & D'). rewrite A in A'. injection A' as <-. rewrite D in D'. injection D' as D1 D2.
        cbn [load of_option bindo]. unfold is_open. now rewrite D2.
      * destruct Hq as (u & A & _). congruence.
    + cbn [execute]. unfold update_callback_address. rewrite (Own Ho), H3. cbn [bindo load of_option validate_opt]. now rewrite Ha.
    + cbn [execute]. unfold send_cosmos_msgs. rewrite (Own Ho), H3. cbn [bindo load of_option]. unfold get_ica_info. now rewrite Hi.
Qed.

(** It aborts exactly for the reasons above. *)
Theorem C87_aborts : forall c w s ow st h t sender m,
  cfg_ok c -> visited c w -> w_store w = Some s -> owner_reported w ow -> state_reported w st ->
  (execute (c_api c) s (Env h t (c_self c)) sender m = Panic <-> aborting ow st t sender m).
Proof.
  intros c w s ow st h t sender m Hc V Hs RO RS.
  destruct (holds c w s ow st Hc V Hs RO RS) as (H1 & (o & H2) & H3 & (op & H4) & H5 & H6).
  pose proof (assert_owner_view s ow sender o H1 H2) as AO.
  assert (Sup : forall ms, Forall supported ms \/ Exists (fun m => ~ supported m) ms).
  { intro ms. destruct (Forall_Exists_dec supported) with (l := ms) as [F|F]; [|now left|right; exact F].
    intro y. unfold supported. repeat match goal with |- context [match ?x with _ => _ end] => destruct x end; (left; exact I) || (right; exact (fun F => F)). }
  assert (QSup : forall qs, Forall qsupported qs \/ Exists (fun q => ~ qsupported q) qs).
  { intro qs. destruct (Forall_Exists_dec qsupported) with (l := qs) as [F|F]; [|now left|right; exact F].
    intro y. unfold qsupported. repeat match goal with |- context [match ?x with _ => _ end] => destruct x end; (left; exact I) || (right; exact (fun F => F)). }
  split.
  - intro E. destruct m as [oo| |ms qs memo tm|cb|act].
    + exfalso. cbn [execute] in E. unfold create_channel in E. rewrite AO, H4 in E. destruct (String.eqb sender o), oo; discriminate E.
    + exfalso. cbn [execute] in E. unfold close_channel in E. rewrite AO in E. destruct (String.eqb sender o); [|discriminate E]. cbn [bindo] in E.
      destruct (st_channel s) as [cs|]; cbn [load of_option bindo] in E; [|discriminate E]. destruct (negb (is_open cs)); discriminate E.
    + exists ms, qs, memo, tm. split; [reflexivity|].
      assert (Ho : ow_owner ow = Some sender).
      { cbn [execute] in E. unfold send_cosmos_msgs in E. rewrite AO in E. destruct (String.eqb_spec sender o) as [->|]; [exact H2|discriminate E]. }
      split; [exact Ho|].
      assert (Hi : cs_ica st <> None).
      { intro Hi. cbn [execute] in E. unfold send_cosmos_msgs in E. rewrite AO in E. destruct (String.eqb sender o); [|discriminate E].
        rewrite H3 in E. cbn [bindo load of_option] in E. unfold get_ica_info in E. rewrite Hi in E. discriminate E. }
      split; [exact Hi|].
      destruct (Sup ms) as [S1|S1]; [|now left]. destruct (QSup qs) as [S2|S2]; [|now right; left]. right; right.
      destruct (N.lt_ge_cases (t + unwrap_or tm 600 * 10 ^ 9) u64_lim) as [L|L]; [|exact L]. exfalso.
      destruct (cs_ica st) as [info|] eqn:Ei; [|congruence].
      destruct (proj2 (C22_supported_iff (c_api c) s (Env h t (c_self c)) sender ms qs memo tm)) as (s' & r & K); [|congruence].
      split; [exists ow; auto|]. split; [exists info; split; [exists st; auto|auto]|]. auto.
    + exfalso. cbn [execute] in E. unfold update_callback_address in E. rewrite AO, H3 in E. destruct (String.eqb sender o); [|discriminate E].
      cbn [bindo load of_option] in E. destruct cb as [a|]; cbn [validate_opt] in E; [destruct (addr_validate (c_api c) a)|]; discriminate E.
    + exfalso. cbn [execute] in E. unfold update_ownership, ownable_update in E. rewrite H1 in E. cbn [of_option bindo] in E.
      destruct act as [n y| |]; [| |discriminate E].
      * unfold check_owner in E. rewrite H2 in E. destruct (String.eqb sender o); [|discriminate E]. cbn [bindo] in E.
        destruct (addr_validate (c_api c) n); discriminate E.
      * destruct (ow_pending ow) as [p|]; [|discriminate E]. destruct (negb (String.eqb sender p)); [discriminate E|].
        destruct (match ow_expiry ow with Some x => is_expired x _ | None => false end); discriminate E.
  - intros (ms & qs & memo & tm & -> & Ho & Hi & X).
    destruct (execute (c_api c) s (Env h t (c_self c)) sender (XSendCosmosMsgs ms qs memo tm)) as [[s' r]|x|] eqn:E; [| |reflexivity]; exfalso.
    + destruct (proj1 (C22_supported_iff _ _ _ _ _ _ _ _) (ex_intro _ s' (ex_intro _ r E))) as (_ & _ & S1 & S2 & L).
      rewrite Forall_forall in S1, S2. destruct X as [X|[X|X]].
      * apply Exists_exists in X as (y & Y1 & Y2). auto.
      * apply Exists_exists in X as (y & Y1 & Y2). auto.
      * unfold expires in L. cbn [env_time] in L. lia.
    + apply (C87_why c w s ow st h t sender _ x Hc V Hs RO RS) in E. inversion E; subst; congruence.
Qed.

(** In every other case it succeeds. *)
Theorem C87_otherwise : forall c w s ow st h t sender m,
  cfg_ok c -> visited c w -> w_store w = Some s -> owner_reported w ow -> state_reported w st ->
  ((exists s' r, execute (c_api c) s (Env h t (c_self c)) sender m = Ok (s', r)) <->
   ~ aborting ow st t sender m /\ forall x, ~ refusal (addr_validate (c_api c)) w ow st h t sender m x).
Proof.
  intros c w s ow st h t sender m Hc V Hs RO RS.
  pose proof (C87_aborts c w s ow st h t sender m Hc V Hs RO RS) as P.
  pose proof (fun x => C87_why c w s ow st h t sender m x Hc V Hs RO RS) as Q.
  destruct (execute (c_api c) s (Env h t (c_self c)) sender m) as [[s' r]|y|] eqn:E.
  - split; [|eauto]. intros _. split; [intro K; apply P in K; discriminate|intros x K; apply Q in K; discriminate].
  - split; [intros (s' & r & K); discriminate|]. intros [_ K]. elim (K y). now apply Q.
  - split; [intros (s' & r & K); discriminate|]. intros [K _]. elim K. now apply P.
Qed.

(** Which of the contract's errors it is, without the details. *)
Definition kind (x : cerr) : cerr :=
  match x with
  | EInvalidMigrationVersion _ _ => EInvalidMigrationVersion "" ""
  | EInvalidVersion _ _ => EInvalidVersion "" ""
  | EUnsupportedTxType _ => EUnsupportedTxType ""
  | EUnknownDataType _ => EUnknownDataType ""
  | EInvalidChannelStatus _ _ => EInvalidChannelStatus "" ""
  | EUnsupportedPacketEncoding _ => EUnsupportedPacketEncoding ""
  | EEmptyResponse _ => EEmptyResponse ""
  | EUnknownReplyId _ => EUnknownReplyId 0
  | _ => x
  end.

(** The texts tell the reasons apart, and show the details: two errors with the
    same text are of the same kind, and with the same expectation they are the
    same.  The status in the text of a refused CloseChannel is spelled as GetChannel
    spells it. *)
Definition expects (x y : cerr) : Prop :=
  match x, y with
  | EInvalidMigrationVersion a _, EInvalidMigrationVersion b _
  | EInvalidVersion a _, EInvalidVersion b _
  | EInvalidChannelStatus a _, EInvalidChannelStatus b _ => a = b
  | _, _ => True
  end.
Lemma append_tail a x y : (a +++ x)%string = (a +++ y)%string -> x = y.
Proof. induction a as [|ch a IH]; cbn; [auto|]. intro E. injection E as E. now apply IH. Qed.
Theorem C87_texts :
  (forall x y t, error_text x = Some t -> error_text y = Some t -> kind x = kind y /\ (expects x y -> x = y)) /\
  (forall st, to_json jc_status st = """" +++ status_text st +++ """").
Proof.
  split.
  - intros x y t Hx Hy. destruct x; try discriminate Hx; injection Hx as <-; destruct y; try discriminate Hy;
      (split; [reflexivity|]); cbn [expects]; intro X; subst; try reflexivity; injection Hy as Hy.
    all: first [now subst | apply dec_inj in Hy; now subst | apply append_tail in Hy; injection Hy as Hy; now subst].
  - intros []; reflexivity.
Qed.

(** Cases: a contract without a channel yet, and one whose channel the owner has closed. *)
Definition fresh87 : world := world_of [inst None (Some "cb")].
Definition closed87 : world := world_of (ordered_open ++ [exec "owner" XCloseChannel ""]).
Example C87_case :
  (exists s st ow, visited cfg0 fresh87 /\ w_store fresh87 = Some s /\ owner_reported fresh87 ow /\ state_reported fresh87 st /\
     refusal (addr_validate (c_api cfg0)) fresh87 ow st 11 2000 "owner" XCloseChannel EStd /\
     refusal (addr_validate (c_api cfg0)) fresh87 ow st 11 2000 "owner" (send0 [bank0] []) EIcaInfoNotSet /\
     refusal (addr_validate (c_api cfg0)) fresh87 ow st 11 2000 "stranger" (send0 [bank0] []) (EOwnership ONotOwner) /\
     refusal (addr_validate (c_api cfg0)) fresh87 ow st 11 2000 "stranger" (XUpdateOwnership AcceptOwnership) (EOwnership OTransferNotFound)) /\
  (exists s st ow, visited cfg0 closed87 /\ w_store closed87 = Some s /\ owner_reported closed87 ow /\ state_reported closed87 st /\
     refusal (addr_validate (c_api cfg0)) closed87 ow st 11 2000 "owner" XCloseChannel (EInvalidChannelStatus "STATE_OPEN" "STATE_CLOSED") /\
     aborting ow st 2000 "owner" (send0 [bank0; MBank (BankBurn [Coin "uatom" 1])] []) /\
     aborting ow st 2000 "owner" (XSendCosmosMsgs [bank0] [] None (Some 18446744074)) /\
     ~ aborting ow st 2000 "owner" (send0 [bank0] [])).
Proof.
  split.
  - eexists _, _, _. split; [apply world_visited|]. split; [reflexivity|].
    split; [apply owner_reported_by; vm_compute; reflexivity|]. split; [apply state_reported_by; vm_compute; reflexivity|].
    split; [apply R_no_channel; [reflexivity| vm_compute; reflexivity]|].
    split; [apply R_no_account; reflexivity|]. split; [apply R_not_owner; [reflexivity|discriminate]|apply R_no_offer; reflexivity].
  - eexists _, _, _. split; [apply world_visited|]. split; [vm_compute; reflexivity|].
    split; [apply owner_reported_by; vm_compute; reflexivity|]. split; [apply state_reported_by; vm_compute; reflexivity|].
    split; [eapply R_not_open; [reflexivity|apply channel_reported_by; vm_compute; reflexivity]|].
    split; [|split].
    + eexists _, _, _, _. split; [reflexivity|]. split; [reflexivity|]. split; [discriminate|]. left. right. left. exact (fun F => F).
    + eexists _, _, _, _. split; [reflexivity|]. split; [reflexivity|]. split; [discriminate|]. right; right. vm_compute. discriminate.
    + intros (ms & qs & memo & t & E & _ & _ & X). injection E as <- <- <- <-. destruct X as [X|[X|X]].
      * inversion X as [? ? Y|? ? Y]; subst; [apply Y; exact I|inversion Y].
      * inversion X.
      * revert X. vm_compute. intro X. now apply X.
Qed.
Example C87_text_case : error_text (EInvalidChannelStatus "STATE_OPEN" "STATE_CLOSED") = Some "invalid channel status: expected STATE_OPEN, got STATE_CLOSED".
Proof. reflexivity. Qed.

Print Assumptions C87_why.
Print Assumptions C87_aborts.
Print Assumptions C87_otherwise.
Print Assumptions C87_texts.
