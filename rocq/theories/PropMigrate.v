(** * PropMigrate: migration (C39, C40). *)

From Verif Require Import Base Text Utf8 Json JsonCodec Types JsonTypes Store CosmosMsg QueryMsg Metadata PacketData Ownable Semver Contract
  JsonSound HostSpec EntryFacts Chain ChainSpec Trans Inv HistorySpec History Queries
  HistFacts Enabled Witness SemverFacts.
From Coq Require Import ZifyBool ZifyN.
Local Open Scope string_scope.
Local Open Scope list_scope.
Local Open Scope N_scope.

(** ** C39: migration only upgrades this contract *)

(** Lower than 0.20.0, the version of the code, in the order of semver.org. *)
Definition older (v : version) : Prop :=
  let '(major, minor, patch) := vr_nums v in
  major = 0 /\ (minor < 20 \/ minor = 20 /\ patch = 0 /\ vr_pre v <> []).

Lemma older_cmp v : version_ge v (Version (0, 20, 0) [] []) = false <-> older v.
Proof.
  destruct v as [[[x y] z] pre build]. unfold version_ge, older, cmp_version, cmp_nums. cbn [vr_nums vr_pre vr_build].
  assert (B : cmp_list cmp_build_id build [] <> Lt) by (destruct build; discriminate).
  destruct (N.compare_spec x 0) as [->|L|L]; cbn [cmp_then]; [|lia|split; [discriminate|lia]].
  destruct (N.compare_spec y 20) as [->|L|L]; cbn [cmp_then]; [|split; [lia|reflexivity]|split; [discriminate|lia]].
  destruct (N.compare_spec z 0) as [->|L|L]; cbn [cmp_then]; [|lia|split; [discriminate|lia]].
  destruct pre as [|p pre]; cbn [cmp_pre cmp_then].
  - destruct (cmp_list cmp_build_id build []); [split; [discriminate|]|congruence|split; [discriminate|]]; intros (_ & [H|(_ & _ & H)]); (lia || congruence).
  - split; [|reflexivity]. intros _. split; [reflexivity|]. right. split; [reflexivity|]. split; [reflexivity|discriminate].
Qed.

(** For every stored state: migration succeeds exactly when the stored name is
    that of this contract, the stored version is a semantic version lower than
    the code's, and the account, if there is one, uses proto3.  It then changes
    the stored version and nothing else, and asks for no message. *)
Theorem C39_iff : forall s s' r, migrate s = Ok (s', r) <->
  exists v st, st_version s = Some ("crates.io:cw-ica-controller", version_text v) /\ wf_version v /\ older v /\
    st_state s = Some st /\ (forall i, cs_ica st = Some i -> ii_encoding i = Protobuf) /\
    s' = set_version (Some ("crates.io:cw-ica-controller", "0.20.0")) s /\ r_msgs r = [] /\ r_events r = [].
Proof.
  intros s s' r. unfold migrate, validate_semver, validate_channel_encoding.
  change (parse_version CONTRACT_VERSION) with (Some (Version (0, 20, 0) [] [])). cbn [of_option bindo]. split.
  - destruct (st_version s) as [[name ver]|]; [|discriminate]. cbn [load of_option bindo].
    destruct (String.eqb_spec name CONTRACT_NAME) as [->|]; [|discriminate]. cbn [negb].
    destruct (parse_version ver) as [v|] eqn:Ev; [|discriminate]. cbn [of_option bindo].
    destruct (version_ge v (Version (0, 20, 0) [] [])) eqn:G; [discriminate|]. cbn [bindo].
    destruct (st_state s) as [st|] eqn:Es; [|discriminate]. cbn [load of_option bindo].
    apply parse_version_spec in Ev as [W ->]. apply older_cmp in G. intro H. exists v, st.
    split; [reflexivity|]. split; [exact W|]. split; [exact G|]. split; [reflexivity|].
    destruct (cs_ica st) as [i|]; [destruct (ii_encoding i) eqn:E|]; try discriminate H; cbn [bindo] in H; injection H as <- <-.
    + split; [intros ? K; injection K as <-; exact E|]. auto.
    + split; [discriminate|]. auto.
  - intros (v & st & E1 & W & G & E2 & P & -> & M & Ev). rewrite E1, E2. cbn [load of_option bindo].
    change (String.eqb "crates.io:cw-ica-controller" CONTRACT_NAME) with true. cbn [negb].
    rewrite (proj2 (parse_version_spec (version_text v) v) (conj W eq_refl)). cbn [of_option bindo].
    rewrite (proj2 (older_cmp v) G). cbn [bindo].
    assert (Er : r = response_default) by (destruct r; cbn in M, Ev; subst; reflexivity). subst r.
    destruct (cs_ica st) as [i|]; [rewrite (P i eq_refl)|]; reflexivity.
Qed.
Example C39_case : forall s st, st_version s = Some ("crates.io:cw-ica-controller", "0.20.0-rc.1+build.007") -> st_state s = Some st ->
  (forall i, cs_ica st = Some i -> ii_encoding i = Protobuf) -> exists s' r, migrate s = Ok (s', r).
Proof.
  intros s st H1 H2 H3. eexists _, _. apply C39_iff. exists (Version (0, 20, 0) ["rc"; "1"] ["build"; "007"]), st.
  split; [exact H1|]. split.
  { apply (parse_version_spec "0.20.0-rc.1+build.007"). vm_compute. reflexivity. }
  split; [split; [reflexivity|right; split; [reflexivity|split; [reflexivity|discriminate]]]|].
  split; [exact H2|]. split; [exact H3|]. split; [reflexivity|]. split; [instantiate (1 := response_default)|]; reflexivity.
Qed.
(** Versions that are not lower. *)
Example C39_case_not_lower :
  ~ older (Version (0, 20, 0) [] ["build"]) /\ ~ older (Version (0, 20, 1) ["rc"] []) /\ ~ older (Version (1, 0, 0) ["alpha"] []).
Proof. unfold older. cbn [vr_nums vr_pre]. repeat split; intros (H1 & H2); try lia; destruct H2 as [H2|(_ & _ & H2)]; [lia|congruence]. Qed.

(** A second migration to the same code fails, also much later; so does the
    migration of a contract this code instantiated. *)
Definition current (w : world) : Prop :=
  exists s, w_store w = Some s /\ st_version s = Some ("crates.io:cw-ica-controller", "0.20.0").

Lemma inst_store c h t sender raw id ok w1 b :
  cfg_ok c -> act c (AInstantiate None h t sender raw id ok) init_world = Some (w1, b) ->
  exists s, w_store w1 = Some s /\ st_version s = Some ("crates.io:cw-ica-controller", "0.20.0").
Proof.
  intros Hc H. cbn [act] in H. apply obind_some in H as (? & Hg & H). apply obind_some in H as (m & Hm & H).
  apply (from_json_valid _ _ _ jc_instantiate_msg_sound) in Hm.
  apply obind_some in H as ([s r] & HI & H). apply ok_of_some in HI.
  apply obind_some in H as (w2 & HD & H). injection H as <- <-.
  apply instantiate_ok in HI as (Ha & Hv & -> & ->). cbv zeta in HD.
  match type of HD with dispatch_exec _ _ _ _ _ _ _ (note _ (put_store ?s0 _)) = _ =>
    eapply (dispatch_open c _ sender _ id ok (im_options m) s0) in HD as (Hr & Hf & Hp & ->);
    [|assumption|reflexivity|now apply jval_inst_options|reflexivity|reflexivity] end.
  eexists. split; reflexivity.
Qed.

Lemma current_trans c w w' b : current w -> trans c w w' b -> current w'.
Proof.
  intros (s0 & E0 & V0) T. destruct T; try congruence; rewrite E0 in *;
  repeat match goal with K : Some _ = Some _ |- _ => injection K as ?; subst end.
  all: try (eexists; split; [reflexivity|exact V0]).
  - eexists. split; [reflexivity|]. destruct qs; subst; exact V0.
  - eexists. split; [reflexivity|reflexivity].
  - eexists. split; [reflexivity|]. destruct d;
    match goal with K : s' = _ /\ _ |- _ => destruct K as (-> & _) end; exact V0.
  - eexists. split; [reflexivity|]. destruct (is_ordered cs); exact V0.
Qed.

Lemma current_later c w w' : cfg_ok c -> visited c w -> current w -> later c w w' -> current w'.
Proof.
  intros Hc V C L. induction L as [|w1 a w2 b L IH H]; [exact C|].
  eapply current_trans; [exact IH|]. eapply act_trans; [exact Hc| |exact H].
  eapply visited_base; [exact Hc|]. eapply later_visited; eassumption.
Qed.

Lemma current_no_migration c w raw : current w -> act c (AMigrate raw) w = None.
Proof.
  intros (s & Es & V). cbn [act]. rewrite Es. cbn [obind]. destruct (from_json jc_migrate_msg raw); [|reflexivity]. cbn [obind].
  destruct (migrate s) as [[s' r]| |] eqn:M; try reflexivity. exfalso.
  apply C39_iff in M as (v & st & E & W & O & _). rewrite V in E. injection E as E.
  assert (P := proj2 (parse_version_spec (version_text v) v) (conj W eq_refl)). rewrite <- E in P.
  vm_compute in P. injection P as <-. unfold older in O. cbn [vr_nums vr_pre] in O. destruct O as (_ & [O|(_ & _ & O)]); [lia|congruence].
Qed.

Theorem C39_once : forall c w raw w1 b w2 raw', cfg_ok c -> visited c w ->
  act c (AMigrate raw) w = Some (w1, b) -> later c w1 w2 -> act c (AMigrate raw') w2 = None.
Proof.
  intros c w raw w1 b w2 raw' Hc V H L. apply current_no_migration. apply (current_later c w1 w2 Hc); [eapply visited_act; eassumption| |exact L].
  cbn [act] in H. apply obind_some in H as (s & Es & H). apply obind_some in H as (? & _ & H).
  apply obind_some in H as ([s' r] & M & H). apply ok_of_some in M. injection H as <- _.
  apply C39_iff in M as (v & st & _ & _ & _ & _ & _ & -> & _). eexists. split; reflexivity.
Qed.

Theorem C39_same_release : forall c h t sender raw id ok w1 b w2 raw', cfg_ok c ->
  act c (AInstantiate None h t sender raw id ok) init_world = Some (w1, b) -> later c w1 w2 ->
  act c (AMigrate raw') w2 = None.
Proof.
  intros c h t sender raw id ok w1 b w2 raw' Hc H L. apply current_no_migration.
  assert (V1 : visited c w1) by (eapply visited_act; [constructor|exact H]).
  apply (current_later c w1 w2 Hc V1); [|exact L].
  destruct (inst_store _ _ _ _ _ _ _ _ _ Hc H) as (s & E & Ev). exists s. auto.
Qed.

(** A contract of release 0.19.3 is upgraded; once. *)
Definition old_inst : tx :=
  Tx (AInstantiate (Some "0.19.3") 10 1000 "owner" (to_json jc_instantiate_msg (InstantiateMsg None (opts0 None) (Some "cb"))) "channel-0" true) None.
Definition w39 : world := world_of [old_inst; open_ack "channel-0" "channel-7" "cosmos1acc"].
Definition w39' : world := match act cfg0 (AMigrate "{}") w39 with Some (w, _) => w | None => w39 end.
Example C39_once_case : visited cfg0 w39 /\ act cfg0 (AMigrate "{}") w39 = Some (w39', false) /\ later cfg0 w39' w39'.
Proof. split; [apply world_visited|]. split; [vm_compute; reflexivity|constructor]. Qed.
Example C39_same_release_case : exists w1,
  act cfg0 (AInstantiate None 10 1000 "owner" (to_json jc_instantiate_msg (InstantiateMsg None (opts0 None) (Some "cb"))) "channel-0" true)
    init_world = Some (w1, false).
Proof. eexists. vm_compute. reflexivity. Qed.

(** ** C40: migration goes unnoticed *)

(** It changes nothing on the chain and no answer to any query. *)
Theorem C40_nothing_changes : forall c w raw w' b, act c (AMigrate raw) w = Some (w', b) ->
  w_log w' = LMigrated :: w_log w /\ (forall q, ask w' q = ask w q) /\
  w_chans w' = w_chans w /\ w_nextseq w' = w_nextseq w /\ w_nextack w' = w_nextack w /\ w_commit w' = w_commit w /\
  exists s v, w_store w = Some s /\ w_store w' = Some (set_version v s).
Proof.
  intros c w raw w' b H. cbn [act] in H. apply obind_some in H as (s & Es & H). apply obind_some in H as (? & _ & H).
  apply obind_some in H as ([s' r] & M & H). apply ok_of_some in M. injection H as <- _.
  apply C39_iff in M as (v & st & _ & _ & _ & _ & _ & -> & _).
  split; [reflexivity|]. split; [intro q; unfold ask; cbn [w_store note put_store obind]; rewrite Es; reflexivity|].
  repeat (split; [reflexivity|]). exists s. eexists. split; [exact Es|reflexivity].
Qed.

(** Nor does it change anything later: in two worlds that differ in the
    recorded version only, every further transaction (but a migration) does the
    same, and the chain sees the same. *)
Definition lift {A} (v : option (string * string)) (o : outcome (cstore * A)) : outcome (cstore * A) :=
  match o with Ok (s, r) => Ok (set_version v s, r) | Err e => Err e | Panic => Panic end.

Lemma bindo_lift {A B} v (o : outcome A) (f g : A -> outcome (cstore * B)) :
  (forall x, f x = lift v (g x)) -> bindo o f = lift v (bindo o g).
Proof. intro H. destruct o; cbn; auto. Qed.

Lemma update_lift a v e sender act s : ownable_update a e sender act (set_version v s) =
  bindo (ownable_update a e sender act s) (fun s => Ok (set_version v s)).
Proof.
  unfold ownable_update. cbn [st_owner set_version]. destruct (st_owner s) as [o|]; [|reflexivity]. cbn [of_option bindo].
  destruct act.
  - destruct (check_owner o sender); try reflexivity. cbn [bindo]. destruct (addr_validate a new_owner); reflexivity.
  - destruct (ow_pending o); [|reflexivity]. destruct (negb _); [reflexivity|].
    destruct (match ow_expiry o with Some x => is_expired x e | None => false end); reflexivity.
  - destruct (check_owner o sender); reflexivity.
Qed.

Lemma cosmos_lift v s ms qs enc memo x : from_cosmos_msgs (set_version v s) ms qs enc memo x = lift v (from_cosmos_msgs s ms qs enc memo x).
Proof.
  unfold from_cosmos_msgs. destruct enc; [|reflexivity]. apply bindo_lift. intro anys.
  destruct qs; [reflexivity|]. apply bindo_lift. intro reqs. apply bindo_lift. intro. reflexivity.
Qed.

Lemma execute_lift a v s e sender m : execute a (set_version v s) e sender m = lift v (execute a s e sender m).
Proof.
  assert (O : forall x, assert_owner (set_version v s) x = assert_owner s x) by reflexivity.
  destruct m; cbn [execute].
  - unfold create_channel. rewrite O. apply bindo_lift. intros _.
    destruct options; [reflexivity|]. cbn [st_options set_version]. destruct (st_options s); reflexivity.
  - unfold close_channel. rewrite O. apply bindo_lift. intros _. change (st_channel (set_version v s)) with (st_channel s).
    apply bindo_lift. intro cs. destruct (negb (is_open cs)); reflexivity.
  - unfold send_cosmos_msgs. rewrite O. apply bindo_lift. intros _. change (st_state (set_version v s)) with (st_state s).
    apply bindo_lift. intro st. apply bindo_lift. intro info. rewrite cosmos_lift.
    destruct (from_cosmos_msgs s messages queries (ii_encoding info) packet_memo (ii_address info)) as [[s1 p]| |]; try reflexivity.
    cbn [lift bindo]. apply bindo_lift. intro i. reflexivity.
  - unfold update_callback_address. rewrite O. apply bindo_lift. intros _. change (st_state (set_version v s)) with (st_state s).
    apply bindo_lift. intro st. apply bindo_lift. intro cb. reflexivity.
  - unfold update_ownership. rewrite update_lift. match goal with x : own_action |- _ => destruct x end; try reflexivity; destruct (ownable_update _ _ _ _ s); reflexivity.
Qed.

Lemma reply_lift a v s id r : reply a (set_version v s) id r = lift v (reply a s id r).
Proof.
  unfold reply. destruct (id =? SEND_QUERY_PACKET); [|reflexivity]. unfold reply_send_query_packet. destruct r; [|reflexivity].
  apply bindo_lift. intro n. change (st_state (set_version v s)) with (st_state s). apply bindo_lift. intro st.
  apply bindo_lift. intro i. change (st_query (set_version v s)) with (st_query s). apply bindo_lift. intro paths. reflexivity.
Qed.

Lemma open_lift a v s m : ibc_channel_open a (set_version v s) m = lift v (ibc_channel_open a s m).
Proof.
  destruct m; [|reflexivity]. cbn [ibc_channel_open]. unfold on_open_init.
  change (st_allow_open (set_version v s)) with (st_allow_open s). destruct (negb (flag (st_allow_open s))); [reflexivity|]. cbv zeta.
  destruct (negb _); [reflexivity|].
  replace (metadata_from_channel (set_allow_open (Some false) (set_version v s)) ch) with (metadata_from_channel (set_allow_open (Some false) s) ch) by reflexivity.
  apply bindo_lift. intro md. apply bindo_lift. intros _.
  change (st_channel (set_allow_open (Some false) (set_version v s))) with (st_channel s).
  change (st_channel (set_allow_open (Some false) s)) with (st_channel s).
  destruct (match st_channel s with Some c => is_open c | None => false end); reflexivity.
Qed.

Lemma connect_lift a v s m : ibc_channel_connect a (set_version v s) m = lift v (ibc_channel_connect a s m).
Proof.
  destruct m; [|reflexivity]. cbn [ibc_channel_connect]. unfold on_open_ack. change (st_state (set_version v s)) with (st_state s).
  apply bindo_lift. intro st. destruct (String.eqb _ _); [reflexivity|]. apply bindo_lift. intro md. apply bindo_lift. intros _.
  destruct (sempty _); [reflexivity|]. destruct (cs_callback st); reflexivity.
Qed.

Lemma close_lift v s m : ibc_channel_close (set_version v s) m = lift v (ibc_channel_close s m).
Proof.
  assert (C : forall s ch, close_recorded (set_version v s) ch = lift v (close_recorded s ch)).
  { intros s0 ch. unfold close_recorded. change (st_channel (set_version v s0)) with (st_channel s0).
    apply bindo_lift. intro cs. destruct (negb _); [reflexivity|]. destruct (negb _); reflexivity. }
  destruct m; cbn [ibc_channel_close]; [|apply C]. unfold on_close_init.
  change (st_allow_close (set_version v s)) with (st_allow_close s). destruct (negb _); [reflexivity|].
  exact (C (set_allow_close (Some false) s) ch).
Qed.

Lemma ack_lift a v s x p relayer : ibc_packet_ack a (set_version v s) x p relayer = lift v (ibc_packet_ack a s x p relayer).
Proof.
  unfold ibc_packet_ack. apply bindo_lift. intros [res|err].
  - unfold ack_success. change (st_pending (set_version v s)) with (st_pending s). apply bindo_lift. intro qr.
    change (st_state (set_pending (e_chan (p_src p)) (p_seq p) None (set_version v s))) with (st_state s).
    change (st_state (set_pending (e_chan (p_src p)) (p_seq p) None s)) with (st_state s). apply bindo_lift. intro st. reflexivity.
  - unfold ack_error. change (st_state (set_version v s)) with (st_state s). apply bindo_lift. intro st. reflexivity.
Qed.

Lemma timeout_lift v s p relayer : ibc_packet_timeout (set_version v s) p relayer = lift v (ibc_packet_timeout s p relayer).
Proof.
  unfold ibc_packet_timeout. change (st_channel (set_version v s)) with (st_channel s). apply bindo_lift. intro cs. cbv zeta.
  unfold timeout_callback. destruct (is_ordered cs).
  - change (st_state (set_channel (Some (close_cs cs)) (set_version v s))) with (st_state s).
    change (st_state (set_channel (Some (close_cs cs)) s)) with (st_state s).
    apply bindo_lift. intro st. destruct (cs_callback st); reflexivity.
  - change (st_state (set_version v s)) with (st_state s). apply bindo_lift. intro st. destruct (cs_callback st); reflexivity.
Qed.

(** Worlds that differ in the recorded version, and in when migrations
    happened. *)
Definition no_migration (i : logitem) : bool := match i with LMigrated => false | _ => true end.
Definition visible (w : world) : list logitem := filter no_migration (w_log w).
Record alike (w w' : world) : Prop := {
  al_chans : w_chans w' = w_chans w;
  al_nextseq : w_nextseq w' = w_nextseq w;
  al_nextack : w_nextack w' = w_nextack w;
  al_commit : w_commit w' = w_commit w;
  al_visible : visible w' = visible w;
  al_store : match w_store w, w_store w' with
             | Some s, Some s' => exists v, s' = set_version v s
             | None, None => True
             | _, _ => False
             end
}.

Definition both {A} (R : A -> A -> Prop) (o o' : option A) : Prop :=
  match o, o' with Some a, Some b => R a b | None, None => True | _, _ => False end.
Lemma both_bind {A B} (R : A -> A -> Prop) (S : B -> B -> Prop) o o' f g :
  both R o o' -> (forall a b, R a b -> both S (f a) (g b)) -> both S (obind o f) (obind o' g).
Proof. destruct o, o'; cbn; auto; contradiction. Qed.
Lemma both_same {A B} (S : B -> B -> Prop) (o : option A) f g :
  (forall a, both S (f a) (g a)) -> both S (obind o f) (obind o g).
Proof. destruct o; cbn; auto. Qed.

Definition pair_alike {A} (x y : cstore * A) : Prop := (exists v, fst y = set_version v (fst x)) /\ snd y = snd x.
Lemma both_lift {A} v (o : outcome (cstore * A)) : both pair_alike (ok_of o) (ok_of (lift v o)).
Proof. destruct o as [[s r]| |]; cbn; auto. split; [now exists v|reflexivity]. Qed.
Definition store_alike (s s' : cstore) : Prop := exists v, s' = set_version v s.
Lemma alike_stores w w' : alike w w' -> both store_alike (w_store w) (w_store w').
Proof. intros []. exact al_store0. Qed.

Lemma alike_put s s' w w' : store_alike s s' -> alike w w' -> alike (put_store s w) (put_store s' w').
Proof. intros Hs []. constructor; auto. Qed.
Lemma alike_chan id x w w' : alike w w' -> alike (put_chan id x w) (put_chan id x w').
Proof. intros []. constructor; auto. cbn. now rewrite al_chans0. Qed.
Lemma alike_seq id x w w' : alike w w' -> alike (put_nextseq id x w) (put_nextseq id x w').
Proof. intros []. constructor; auto. cbn. now rewrite al_nextseq0. Qed.
Lemma alike_nack id x w w' : alike w w' -> alike (put_nextack id x w) (put_nextack id x w').
Proof. intros []. constructor; auto. cbn. now rewrite al_nextack0. Qed.
Lemma alike_commit id n x w w' : alike w w' -> alike (put_commit id n x w) (put_commit id n x w').
Proof. intros []. constructor; auto. cbn. now rewrite al_commit0. Qed.
Lemma alike_note i w w' : alike w w' -> alike (note i w) (note i w').
Proof. intros []. constructor; auto. unfold visible in *. cbn [note w_log filter]. now rewrite al_visible0. Qed.
Lemma alike_events l w w' : alike w w' -> alike (note_events l w) (note_events l w').
Proof. revert w w'. induction l as [|ev l IH]; intros w w' H; [exact H|]. cbn [note_events]. apply IH. now apply alike_note. Qed.

Lemma alike_open c id o p conn v w w' : alike w w' -> both alike (core_open c id o p conn v w) (core_open c id o p conn v w').
Proof.
  intro H. unfold core_open. rewrite (al_chans _ _ H). apply both_same. intros _. apply both_same. intros _.
  eapply both_bind; [apply alike_stores, H|]. intros s s' (v0 & ->). cbv zeta. rewrite open_lift.
  eapply both_bind; [apply both_lift|]. intros [s1 v1] [s2 v2] [[v3 E1] E2]. cbn [fst snd] in *. subst.
  cbn [both]. apply alike_note, alike_chan, alike_put; [now exists v3|exact H].
Qed.
Lemma alike_close c id w w' : alike w w' -> both alike (core_close_init c id w) (core_close_init c id w').
Proof.
  intro H. unfold core_close_init. rewrite (al_chans _ _ H). apply both_same. intro ce.
  eapply both_bind; [apply alike_stores, H|]. intros s s' (v0 & ->). rewrite close_lift.
  eapply both_bind; [apply both_lift|]. intros [s1 v1] [s2 v2] [[v3 E1] E2]. cbn [fst snd] in *. subst.
  apply both_same. intros _. apply both_same. intros _. cbn [both].
  apply alike_note, alike_chan, alike_events, alike_put; [now exists v3|exact H].
Qed.
Lemma alike_send c e x m id data t w w' : alike w w' ->
  both (fun p p' => alike (fst p) (fst p') /\ snd p' = snd p) (core_send c e x m id data t w) (core_send c e x m id data t w').
Proof.
  intro H. unfold core_send. rewrite (al_chans _ _ H), (al_nextseq _ _ H). apply both_same. intro ce. apply both_same. intros _. cbv zeta.
  apply both_same. intros _. cbn [both fst snd]. split; [|reflexivity]. now apply alike_note, alike_commit, alike_seq.
Qed.

Lemma alike_exec c e x m id ok r w w' : alike w w' -> both alike (dispatch_exec c e x m id ok r w) (dispatch_exec c e x m id ok r w').
Proof.
  intro H0. unfold dispatch_exec. assert (H := alike_events (r_events r) _ _ H0). clear H0. cbv zeta.
  set (u := note_events (r_events r) w) in *. set (u' := note_events (r_events r) w') in *. clearbody u u'.
  destruct (r_msgs r) as [|sm [|]]; [exact H| |exact I]. apply both_same. intros _.
  destruct (sm_msg sm); try exact I.
  - destruct (sm_reply sm); [exact I|]. apply both_same. intros _. apply both_same. intros _. apply both_same. intro oi.
    apply both_same. intros _. apply both_same. intro o. destruct (oi_hops oi) as [|conn [|]]; try exact I. now apply alike_open.
  - destruct m0; destruct (sm_reply sm) as [rid|]; try exact I;
      try (now apply alike_close);
      (apply both_same; intro m1; eapply both_bind; [now apply alike_send|]; intros [w1 n1] [w2 n2] [K1 K2]; cbn [fst snd] in *; subst n2);
      [|exact K1].
    eapply both_bind; [apply alike_stores, K1|]. intros s s' (v0 & ->). rewrite reply_lift.
    eapply both_bind; [apply both_lift|]. intros [s1 v1] [s2 v2] [[v3 E1] E2]. cbn [fst snd] in *. subst.
    apply both_same. intros _. cbn [both]. apply alike_events, alike_put; [now exists v3|exact K1].
Qed.

Definition act_alike (x y : world * bool) : Prop := alike (fst x) (fst y) /\ snd y = snd x.
Lemma alike_call r w w' : alike w w' -> both act_alike (dispatch_call r w) (dispatch_call r w').
Proof.
  intro H. unfold dispatch_call. cbv zeta. destruct (r_msgs r) as [|sm [|]]; [|destruct (sm_msg sm)|exact I]; try exact I.
  - split; [now apply alike_events|reflexivity].
  - destruct m; try exact I. destruct funds; try exact I. destruct (sm_reply sm); [exact I|].
    split; [now apply alike_note, alike_events|reflexivity].
Qed.

Lemma store_alike_refl s : store_alike s s.
Proof. exists (st_version s). destruct s. reflexivity. Qed.

Definition migrates (a : action) : bool := match a with AMigrate _ => true | _ => false end.

Lemma alike_act c a w w' : migrates a = false -> alike w w' -> both act_alike (act c a w) (act c a w').
Proof.
  intros M H. destruct a; try discriminate M; cbn [act].
  - replace (is_some (w_store w')) with (is_some (w_store w)) by (pose proof (alike_stores _ _ H) as K; destruct (w_store w), (w_store w'); cbn in *; tauto).
    apply both_same. intros _. apply both_same. intro m. cbv zeta. apply both_same. intros [s r].
    eapply both_bind; [apply alike_exec, alike_note, alike_put; [apply store_alike_refl|exact H]|]. intros w1 w2 K. now split.
  - apply both_same. intros _. eapply both_bind; [apply alike_stores, H|]. intros s s' (v0 & ->).
    apply both_same. intro m. cbv zeta. rewrite execute_lift.
    eapply both_bind; [apply both_lift|]. intros [s1 v1] [s2 v2] [[v3 E1] E2]. cbn [fst snd] in *. subst.
    eapply both_bind; [apply alike_exec, alike_note, alike_put; [now exists v3|exact H]|]. intros w1 w2 K. now split.
  - eapply both_bind; [apply alike_open, H|]. intros w1 w2 K. now split.
  - eapply both_bind; [apply alike_stores, H|]. intros s s' _. exact I.
  - apply both_same. intros _. rewrite (al_chans _ _ H). apply both_same. intro ce. apply both_same. intros _. cbv zeta.
    eapply both_bind; [apply alike_stores, H|]. intros s s' (v0 & ->). rewrite connect_lift.
    eapply both_bind; [apply both_lift|]. intros [s1 v1] [s2 v2] [[v3 E1] E2]. cbn [fst snd] in *. subst.
    apply alike_call, alike_note, alike_chan, alike_put; [now exists v3|exact H].
  - rewrite (al_chans _ _ H). apply both_same. intro ce. eapply both_bind; [apply alike_stores, H|]. intros s s' _. exact I.
  - eapply both_bind; [apply alike_close, H|]. intros w1 w2 K. now split.
  - rewrite (al_chans _ _ H). apply both_same. intro ce. apply both_same. intros _.
    eapply both_bind; [apply alike_stores, H|]. intros s s' (v0 & ->). rewrite close_lift.
    eapply both_bind; [apply both_lift|]. intros [s1 v1] [s2 v2] [[v3 E1] E2]. cbn [fst snd] in *. subst.
    apply alike_call, alike_note, alike_chan, alike_put; [now exists v3|exact H].
  - apply both_same. intros _. rewrite (al_chans _ _ H), (al_commit _ _ H), (al_nextack _ _ H).
    apply both_same. intro ce. apply both_same. intros _. apply both_same. intro p. apply both_same. intros _.
    eapply both_bind; [apply alike_stores, H|]. intros s s' (v0 & ->). rewrite ack_lift.
    eapply both_bind; [apply both_lift|]. intros [s1 v1] [s2 v2] [[v3 E1] E2]. cbn [fst snd] in *. subst. cbv zeta.
    apply alike_call, alike_note, alike_commit, alike_put; [now exists v3|]. destruct (ce_order ce); [exact H|now apply alike_nack] || (destruct (ce_order ce); [now apply alike_nack|exact H]).
  - apply both_same. intros _. rewrite (al_chans _ _ H), (al_commit _ _ H).
    apply both_same. intro ce. apply both_same. intro p.
    eapply both_bind; [apply alike_stores, H|]. intros s s' (v0 & ->). rewrite timeout_lift.
    eapply both_bind; [apply both_lift|]. intros [s1 v1] [s2 v2] [[v3 E1] E2]. cbn [fst snd] in *. subst. cbv zeta.
    apply alike_call, alike_note, alike_commit, alike_put; [now exists v3|]. destruct (ce_order ce); [exact H|now apply alike_chan] || (destruct (ce_order ce); [now apply alike_chan|exact H]).
  - eapply both_bind; [apply alike_stores, H|]. intros s s' _. exact I.
Qed.

(** A transaction without migrations, also not by the callback contract. *)
Fixpoint plain_tx (t : tx) : bool :=
  match t with Tx a beh => negb (migrates a) && match beh with Some l => forallb plain_tx l | None => true end end.

Lemma alike_step c : forall t w w', plain_tx t = true -> alike w w' -> both alike (step c t w) (step c t w').
Proof.
  fix IH 1. intros [a beh] w w' P H. cbn [plain_tx] in P. apply andb_true_iff in P as [P1 P2]. apply negb_true_iff in P1.
  cbn [step]. eapply both_bind; [apply alike_act; [exact P1|exact H]|]. intros [w1 b1] [w2 b2] [K E]. cbn [fst snd] in *. subst b2.
  destruct b1; [|exact K]. destruct beh as [l|]; [|exact I]. cbn [both].
  clear P1 H w w'. revert l w1 w2 P2 K. fix IHl 1. intros [|t l] w1 w2 P2 K; [exact K|].
  cbn [forallb] in P2. apply andb_true_iff in P2 as [Pt Pl]. cbn [runs]. apply IHl; [exact Pl|].
  pose proof (IH t w1 w2 Pt K) as S. destruct (step c t w1), (step c t w2); cbn in S; tauto.
Qed.
Lemma alike_run c l w w' : forallb plain_tx l = true -> alike w w' -> alike (run c l w) (run c l w').
Proof.
  revert w w'. induction l as [|t l IH]; intros w w' P H; [exact H|].
  cbn [forallb] in P. apply andb_true_iff in P as [Pt Pl]. unfold run in *. cbn [runs]. apply IH; [exact Pl|].
  pose proof (alike_step c t w w' Pt H) as S. destruct (step c t w), (step c t w'); cbn in S; tauto.
Qed.

(** The same transactions succeed, and everybody sees the same: every packet,
    event, call, channel and answer, now and later. *)
Theorem C40_unnoticed : forall c w raw w' b l, act c (AMigrate raw) w = Some (w', b) -> forallb plain_tx l = true ->
  (forall q, ask (run c l w') q = ask (run c l w) q) /\
  visible (run c l w') = visible (run c l w) /\
  w_chans (run c l w') = w_chans (run c l w) /\ w_commit (run c l w') = w_commit (run c l w) /\
  forall t, plain_tx t = true -> is_some (step c t (run c l w')) = is_some (step c t (run c l w)).
Proof.
  intros c w raw w' b l H P.
  destruct (C40_nothing_changes _ _ _ _ _ H) as (L & _ & E1 & E2 & E3 & E4 & s & v & S & S').
  assert (A0 : alike w w'). { constructor; auto. - unfold visible. now rewrite L. - rewrite S, S'. now exists v. }
  assert (A1 := alike_run c l _ _ P A0). split; [|split; [apply A1|split; [apply A1|split; [apply A1|]]]].
  - intro q. pose proof (alike_stores _ _ A1) as K. unfold ask. destruct (w_store (run c l w)) as [s1|], (w_store (run c l w')) as [s2|]; cbn in K; try tauto.
    destruct K as (v0 & ->). cbn [obind]. destruct (from_json jc_query_msg q) as [[| |]|]; reflexivity.
  - intros t Pt. pose proof (alike_step c t _ _ Pt A1) as K.
    destruct (step c t (run c l w)), (step c t (run c l w')); cbn in *; tauto.
Qed.

(** After the migration of [w39] the owner sends a packet, it is acknowledged,
    and the callback contract is told. *)
Example C40_case : exists w' l, act cfg0 (AMigrate "{}") w39 = Some (w', false) /\ forallb plain_tx l = true /\
  visible (run cfg0 l w39) <> visible w39.
Proof.
  exists w39', [exec "owner" (send0 [bank0] []) ""; ack "channel-0" 1 (AckResult "ok")]. split; [vm_compute; reflexivity|]. split; [vm_compute; reflexivity|].
  intro E. apply (f_equal (@length _)) in E. vm_compute in E. discriminate.
Qed.

Print Assumptions C39_iff.
Print Assumptions C39_once.
Print Assumptions C39_same_release.
Print Assumptions C40_nothing_changes.
Print Assumptions C40_unnoticed.
