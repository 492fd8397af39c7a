(** * PropWire: property C62, the JSON of messages, answers and callbacks. *)

From Verif Require Import Base Text Utf8 Base64 Proto Json JsonCodec Types JsonTypes Store
  CosmosMsg QueryMsg Metadata Stargate PacketData Ownable Semver Contract JsonSound HostSpec AnswerSpec AnswerFacts PacketFacts
  EntryFacts Chain ChainSpec Trans Inv HistorySpec History Queries HistFacts Enabled Witness TextSpec WireSpec PropText
  PropOwner PropChannel PropHandshake PropCallback.
Local Open Scope string_scope.
Local Open Scope list_scope.
Local Open Scope N_scope.

(** ** The codecs print the trees of [WireSpec] *)

Lemma map_ext_all {A B} (f g : A -> B) : (forall x, f x = g x) -> forall l, map f l = map g l.
Proof. intros H l. now apply map_ext. Qed.
Ltac both := repeat match goal with
  | |- JObj _ = JObj _ => f_equal
  | |- JArr _ = JArr _ => f_equal
  | |- _ :: _ = _ :: _ => f_equal
  | |- (_, _) = (_, _) => f_equal
  | |- map _ _ = map _ _ => apply map_ext_all; intro
  end.

Lemma coin_wire c : jenc jc_coin c = wire_coin c.
Proof. reflexivity. Qed.
Lemma coins_wire l : jenc (jc_list jc_coin) l = wire_coins l.
Proof. reflexivity. Qed.
Lemma order_wire o : jenc jc_order o = wire_order o.
Proof. destruct o; reflexivity. Qed.
Lemma channel_wire c : jenc jc_channel c = wire_channel c.
Proof. destruct c as [? ? [] ? ?]; reflexivity. Qed.
Lemma timeout_wire t : jenc jc_timeout t = wire_timeout t.
Proof. destruct t as [[[]|] [|]]; reflexivity. Qed.
Lemma packet_wire p : jenc jc_packet p = wire_packet p.
Proof. destruct p as [? ? ? ? [[[]|] [|]]]; reflexivity. Qed.
Lemma encoding_wire e : jenc jc_encoding e = wire_encoding e.
Proof. destruct e; reflexivity. Qed.
Lemma metadata_wire m : jenc jc_metadata m = wire_metadata m.
Proof. destruct m as [? ? ? ? [] ?]; reflexivity. Qed.
Lemma options_wire o : jenc jc_options o = wire_options o.
Proof. destruct o as [? ? [|] [[]|]]; reflexivity. Qed.
Lemma instantiate_wire m : jenc jc_instantiate_msg m = wire_instantiate m.
Proof. destruct m as [[|] [? ? [|] [[]|]] [|]]; reflexivity. Qed.
Lemma cosmos_wire m : jenc jc_cosmos_msg m = wire_cosmos_msg m.
Proof.
  destruct m as [[]| |[]|[]| |[? ? ? [[[]|] [|]] [|] |? ? [[[]|] [|]] |]
    |[ |[|]|[|]| | | ]|[? []|? l]]; try reflexivity.
  cbn [jc_cosmos_msg jc_map jenc]. unfold wire_cosmos_msg, wire_gov_msg, tagged.
  change (jenc (jc_enum _) _) with (JObj [("gov", jenc jc_gov_msg (GovVoteWeighted proposal_id l))]).
  both. change (jenc jc_gov_msg (GovVoteWeighted proposal_id l)) with
    (JObj [("vote_weighted", JObj [("proposal_id", JNum proposal_id); ("options", JArr (map (jenc jc_weighted_vote) l))])]).
  both. destruct x as [[] ?]; reflexivity.
Qed.
Lemma request_wire q : jenc jc_query_request q = wire_query_request q.
Proof.
  destruct q as [[ | | | |[[[|] ? ?]|]]| |[]|[]| |[|[|]|? [|]]|[]]; reflexivity.
Qed.
Lemma action_wire a : jenc jc_action a = wire_action a.
Proof. destruct a as [? [[]|]| |]; reflexivity. Qed.
Lemma execute_wire m : jenc jc_execute_msg m = wire_execute m.
Proof.
  destruct m as [[o|]| |ms qs memo t|[|]|[? [[]|]| |]]; try reflexivity.
  - change (JObj [("create_channel", JObj [("channel_open_init_options", jenc jc_options o)])] = wire_execute (XCreateChannel (Some o))).
    now rewrite options_wire.
  - cbn [wire_execute]. unfold tagged.
    change (jenc jc_execute_msg _) with (JObj [("send_cosmos_msgs", JObj
      ([("messages", JArr (map (jenc jc_cosmos_msg) ms))] ++
       (match qs with [] => [] | _ => [("queries", JArr (map (jenc jc_query_request) qs))] end) ++
       (match memo with Some x => [("packet_memo", JStr x)] | None => [] end) ++
       (match t with Some x => [("timeout_seconds", JNum x)] | None => [] end)))]).
    rewrite (map_ext_all _ _ cosmos_wire), (map_ext_all _ _ request_wire).
    destruct qs, memo, t; reflexivity.
Qed.
Lemma query_wire q : jenc jc_query_msg q = wire_query q.
Proof. destruct q; reflexivity. Qed.
Lemma channel_state_wire s : jenc jc_channel_state s = wire_channel_state s.
Proof. destruct s as [[? ? [] ? ?] []]; reflexivity. Qed.
Lemma contract_state_wire s : jenc jc_contract_state s = wire_contract_state s.
Proof. destruct s as [[[? ? []]|] [|]]; reflexivity. Qed.
Lemma ownership_wire o : jenc jc_ownership o = wire_ownership o.
Proof. destruct o as [[|] [|] [[]|]]; reflexivity. Qed.
Lemma response_wire r : jenc jc_query_response r = wire_query_response r.
Proof.
  destruct r as [[ | | | |? [|]]| |[[[? ? [|] ? [|]]|]|[|]|]|[ | |[|]| |[|]]]; reflexivity.
Qed.
Lemma result_wire r : jenc jc_query_result r = wire_query_result r.
Proof.
  destruct r as [h l|e]; [|reflexivity].
  change (JObj [("success", JObj [("height", JNum h); ("responses", JArr (map (jenc jc_query_response) l))])] =
    wire_query_result (QRSuccess h l)).
  now rewrite (map_ext_all _ _ response_wire).
Qed.
Lemma ack_wire a : jenc jc_ack a = wire_ack a.
Proof. destruct a; reflexivity. Qed.
Lemma callback_wire m : jenc jc_receiver m = wire_callback m.
Proof.
  unfold jc_receiver. cbn [jenc jc_enum v_one vtag]. unfold wire_callback, tagged. both.
  destruct m as [a p r q|p r|c a e].
  - change (jenc jc_callback _) with (JObj [("on_acknowledgement_packet_callback", JObj
      ([("ica_acknowledgement", jenc jc_ack a); ("original_packet", jenc jc_packet p); ("relayer", JStr r)] ++
       match q with Some q => [("query_result", jenc jc_query_result q)] | None => [] end))]).
    rewrite ack_wire, packet_wire. destruct q as [q|]; [rewrite result_wire|]; reflexivity.
  - change (jenc jc_callback _) with (JObj [("on_timeout_packet_callback", JObj
      [("original_packet", jenc jc_packet p); ("relayer", JStr r)])]). now rewrite packet_wire.
  - change (jenc jc_callback _) with (JObj [("on_channel_open_ack_callback", JObj
      [("channel", jenc jc_channel c); ("ica_address", JStr a); ("tx_encoding", jenc jc_encoding e)])]).
    now rewrite channel_wire, encoding_wire.
Qed.

(** ** Reading *)

Lemma once_nodup ks l : NoDup (filter (fun k => skey_in k ks) (map fst l)) <-> fields_once ks l.
Proof.
  rewrite (NoDup_count_occ string_dec). unfold fields_once.
  assert (E : forall (xs : list string) k, count_occ string_dec (filter (fun k => skey_in k ks) xs) k =
    if skey_in k ks then count_occ string_dec xs k else O).
  { intros xs k. induction xs as [|x xs IH]; cbn [filter count_occ]; [now destruct (skey_in k ks)|].
    destruct (skey_in x ks) eqn:Ex; cbn [count_occ]; destruct (string_dec x k) as [->|]; rewrite ?IH, ?Ex; auto.
    }
  split; intros H k.
  - intro Hk. specialize (H k). rewrite E in H. apply skey_in_spec in Hk. now rewrite Hk in H.
  - rewrite E. destruct (skey_in k ks) eqn:Ek; [|lia]. apply H. now apply skey_in_spec.
Qed.

Lemma find_field {A} k (l : list (string * A)) (v : A) : (count_occ string_dec (map fst l) k <= 1)%nat ->
  (assoc_find k l = Some v <-> In (k, v) l).
Proof.
  induction l as [|[k' v'] l IH]; cbn [assoc_find map fst count_occ In]; [split; [discriminate|contradiction]|].
  destruct (string_dec k' k) as [->|N].
  - rewrite String.eqb_refl. intro H. split; [intro X; injection X as ->; now left|].
    intros [X|X]; [congruence|]. exfalso. apply (in_map fst) in X. cbn in X. apply (count_occ_In string_dec) in X. lia.
  - destruct (String.eqb_spec k' k); [contradiction|]. intro H. rewrite (IH H). intuition congruence.
Qed.
Lemma find_none {A} k (l : list (string * A)) : assoc_find k l = None <-> ~ In k (map fst l).
Proof.
  induction l as [|[k' v'] l IH]; cbn [assoc_find map fst In]; [intuition|].
  destruct (String.eqb_spec k' k) as [->|N]; [split; [discriminate|tauto]|]. rewrite IH. tauto.
Qed.

Lemma struct_reads {A} (o : ocodec A) j a : jdec (jc_struct true o) j = Some a <->
  exists l, j = JObj l /\ fields_once (okeys o) l /\ closed (okeys o) l /\ odec o l = Some a.
Proof.
  cbn [jdec jc_struct]. destruct j as [| | | | |l]; try (split; [discriminate|intros (? & ? & _); discriminate]).
  cbn [negb orb]. destruct (nodupb _) eqn:E1; cbn [andb].
  - apply nodupb_spec, once_nodup in E1. destruct (forallb _ _) eqn:E2.
    + rewrite forallb_forall in E2. split.
      * intro H. exists l. split; [reflexivity|]. split; [exact E1|]. split; [|exact H].
        intros k Hk. apply skey_in_spec, E2, Hk.
      * intros (l' & E & _ & _ & H). injection E as <-. exact H.
    + split; [discriminate|]. intros (l' & E & _ & C & _). injection E as <-. exfalso.
      assert (forallb (fun k => skey_in k (okeys o)) (map fst l) = true); [|congruence].
      apply forallb_forall. intros k Hk. apply skey_in_spec, C, Hk.
  - split; [discriminate|]. intros (l' & E & O & _ & _). injection E as <-.
    apply once_nodup, nodupb_spec in O. congruence.
Qed.
Lemma open_struct_reads {A} (o : ocodec A) j a : jdec (jc_struct false o) j = Some a <->
  exists l, j = JObj l /\ fields_once (okeys o) l /\ odec o l = Some a.
Proof.
  cbn [jdec jc_struct]. destruct j as [| | | | |l]; try (split; [discriminate|intros (? & ? & _); discriminate]).
  cbn [negb orb]. destruct (nodupb _) eqn:E1; cbn [andb].
  - apply nodupb_spec, once_nodup in E1. split; [eauto|]. intros (l' & E & _ & H). injection E as <-. exact H.
  - split; [discriminate|]. intros (l' & E & O & _). injection E as <-.
    apply once_nodup, nodupb_spec in O. congruence.
Qed.

Lemma req_reads {A} k (c : jcodec A) (P : json -> A -> Prop) ks l a : fields_once ks l -> In k ks ->
  (forall j, jdec c j = Some a <-> P j a) -> (odec (o_req k c) l = Some a <-> field l k P a).
Proof.
  intros O Hk HP. cbn [odec o_req]. unfold field. split.
  - intro H. apply obind_some in H as (v & H1 & H2). apply (find_field k l v (O k Hk)) in H1.
    apply HP in H2. eauto.
  - intros (v & H1 & H2). apply (find_field k l v (O k Hk)) in H1. rewrite H1. cbn [obind]. now apply HP.
Qed.
Lemma maybe_reads {A} k (c : jcodec A) (P : json -> A -> Prop) ks l o : fields_once ks l -> In k ks ->
  (forall j a, jdec c j = Some a <-> P j a) ->
  (match assoc_find k l with None => Some None | Some j => jdec (jc_opt c) j end = Some o <-> maybe l k P o).
Proof.
  intros O Hk HP. pose proof (fun v => find_field k l v (O k Hk)) as F. destruct (assoc_find k l) as [j|] eqn:E.
  - assert (I : In (k, j) l) by now apply F.
    assert (U : forall v, In (k, v) l -> v = j) by (intros v Hv; apply F in Hv; congruence).
    destruct o as [a|]; cbn [maybe jdec jc_opt].
    + destruct j; (split;
        [ intro H; first [discriminate | destruct (jdec c _) eqn:D; [|discriminate]; injection H as <-; apply HP in D; eexists; split; [exact I|split; [discriminate|exact D]]]
        | intros (v & H1 & H2 & H3); rewrite (U v H1) in *; first [contradiction | apply HP in H3; rewrite H3; reflexivity]]).
    + split.
      * destruct j; intro H; first [now right | destruct (jdec c _); discriminate].
      * intros [H|H]; [elim H; apply (in_map fst) in I; exact I|]. rewrite <- (U _ H). reflexivity.
  - assert (N : ~ In k (map fst l)) by now apply find_none.
    destruct o as [a|]; cbn [maybe].
    + split; [discriminate|]. intros (v & H1 & _). elim N. apply (in_map fst) in H1. exact H1.
    + split; [now left|reflexivity].
Qed.

Lemma enum_reads {A} (v : vcodec A) j a : jdec (jc_enum v) j = Some a <->
  (exists k j', j = tagged k j' /\ vuntag v k (Some j') = Some a) \/ (exists k, j = JStr k /\ vuntag v k None = Some a).
Proof.
  cbn [jdec jc_enum]. unfold tagged. split.
  - destruct j as [| | |s| |[|[k j'] [|]]]; try discriminate; eauto.
  - intros [(k & j' & -> & H)|(k & -> & H)]; exact H.
Qed.

Lemma str_reads j s : jdec jc_str j = Some s <-> reads_str j s.
Proof. unfold reads_str. destruct j; cbn; split; intro H; congruence. Qed.
Lemma u64_reads j n : jdec (jc_uint u64_lim) j = Some n <-> reads_u64 j n.
Proof.
  unfold reads_u64. change (2 ^ 64) with u64_lim. destruct j as [| |m| | |]; cbn [jdec jc_uint];
    try (split; [discriminate|intros [? _]; discriminate]).
  destruct (N.ltb_spec m u64_lim); split; intro X; try discriminate; try (destruct X; congruence).
  - injection X as <-. auto.
  - destruct X as [X Y]. injection X as <-. lia.
Qed.
(** Take apart a tag. *)
Ltac tags H := repeat match type of H with
  | context [String.eqb ?a ?b] => destruct (String.eqb_spec a b) as [?E|?E]; [subst|]; cbn [orb] in H
  end.

Lemma order_reads j o : jdec jc_order j = Some o <-> reads_order j o.
Proof.
  unfold reads_order, reads_unit, tagged. split.
  - destruct j as [| | |s| |[|[k j'] [|]]]; try discriminate; cbn [jc_order jc_map jdec jc_enum v_sum vuntag v_unit vkeys skey_in existsb option_map].
    + intro H. cbn [orb] in H. tags H; cbn in H; try discriminate; injection H as <-; auto.
    + intro H. cbn [orb] in H. tags H; cbn in H; destruct j'; try discriminate; injection H as <-; auto.
  - destruct o; intros [-> | ->]; reflexivity.
Qed.

Lemma map_reads {A B} (c : jcodec A) (to : B -> A) (from : A -> B) j b :
  jdec (jc_map c to from) j = Some b <-> exists a, jdec c j = Some a /\ from a = b.
Proof.
  cbn [jdec jc_map]. destruct (jdec c j) as [a|]; cbn [option_map]; split.
  - intro H. injection H as <-. eauto.
  - intros (a' & H & <-). congruence.
  - discriminate.
  - intros (a' & H & _). discriminate.
Qed.
Lemma pair_reads {A B} (a : ocodec A) (b : ocodec B) l x y :
  odec (o_pair a b) l = Some (x, y) <-> odec a l = Some x /\ odec b l = Some y.
Proof.
  cbn [odec o_pair]. destruct (odec a l), (odec b l); cbn [obind]; split; intro H;
    first [discriminate | destruct H; discriminate | injection H as <- <-; auto | destruct H; congruence].
Qed.
Lemma opt_reads {A} k (c : jcodec A) (P : json -> A -> Prop) ks l o : fields_once ks l -> In k ks ->
  (forall j a, jdec c j = Some a <-> P j a) -> (odec (o_opt k c) l = Some o <-> maybe l k P o).
Proof. apply maybe_reads. Qed.
Lemma skip_reads {A} k (c : jcodec A) (P : json -> A -> Prop) ks l o : fields_once ks l -> In k ks ->
  (forall j a, jdec c j = Some a <-> P j a) -> (odec (o_skip k c) l = Some o <-> maybe l k P o).
Proof. apply maybe_reads. Qed.
Ltac known := cbn [In okeys o_pair o_req o_opt o_skip o_vec_null o_vec_skip app]; tauto.

Lemma options_reads j o : jdec jc_options j = Some o <-> reads_options j o.
Proof.
  unfold jc_options. rewrite map_reads. unfold reads_options.
  split.
  - intros ((a & b & d & e) & H & <-). apply open_struct_reads in H as (l & -> & O & H).
    apply pair_reads in H as [H1 H]. apply pair_reads in H as [H2 H]. apply pair_reads in H as [H3 H4].
    exists l. split; [reflexivity|]. split; [exact O|].
    split; [refine (proj1 (req_reads _ _ _ _ _ _ O _ (fun j => str_reads j _)) H1); known|].
    split; [refine (proj1 (req_reads _ _ _ _ _ _ O _ (fun j => str_reads j _)) H2); known|].
    split; [refine (proj1 (opt_reads _ _ _ _ _ _ O _ str_reads) H3); known|].
    refine (proj1 (opt_reads _ _ _ _ _ _ O _ order_reads) H4); known.
  - intros (l & -> & O & H1 & H2 & H3 & H4). destruct o as [a b d e].
    exists (a, (b, (d, e))). split; [|reflexivity]. apply open_struct_reads. exists l.
    split; [reflexivity|]. split; [exact O|]. rewrite !pair_reads.
    split; [refine (proj2 (req_reads _ _ _ _ _ _ O _ (fun j => str_reads j _)) H1); known|].
    split; [refine (proj2 (req_reads _ _ _ _ _ _ O _ (fun j => str_reads j _)) H2); known|].
    split; [refine (proj2 (opt_reads _ _ _ _ _ _ O _ str_reads) H3); known|].
    refine (proj2 (opt_reads _ _ _ _ _ _ O _ order_reads) H4); known.
Qed.

Lemma instantiate_reads j m : jdec jc_instantiate_msg j = Some m <-> reads_instantiate j m.
Proof.
  unfold jc_instantiate_msg. rewrite map_reads. unfold reads_instantiate. split.
  - intros ((a & b & d) & H & <-). apply struct_reads in H as (l & -> & O & C & H).
    apply pair_reads in H as [H1 H]. apply pair_reads in H as [H2 H3].
    exists l. split; [reflexivity|]. split; [exact O|]. split; [exact C|].
    split; [refine (proj1 (skip_reads _ _ _ _ _ _ O _ str_reads) H1); known|].
    split; [refine (proj1 (req_reads _ _ _ _ _ _ O _ (fun j => options_reads j _)) H2); known|].
    refine (proj1 (skip_reads _ _ _ _ _ _ O _ str_reads) H3); known.
  - intros (l & -> & O & C & H1 & H2 & H3). destruct m as [a b d].
    exists (a, (b, d)). split; [|reflexivity]. apply struct_reads. exists l.
    split; [reflexivity|]. split; [exact O|]. split; [exact C|]. rewrite !pair_reads.
    split; [refine (proj2 (skip_reads _ _ _ _ _ _ O _ str_reads) H1); known|].
    split; [refine (proj2 (req_reads _ _ _ _ _ _ O _ (fun j => options_reads j _)) H2); known|].
    refine (proj2 (skip_reads _ _ _ _ _ _ O _ str_reads) H3); known.
Qed.

(** An enum without unit variants, by its tag. *)
Lemma sum_left {A B} (a : vcodec A) (b : vcodec B) k j x :
  vuntag (v_sum a b) k j = Some (inl x) <-> In k (vkeys a) /\ vuntag a k j = Some x.
Proof.
  cbn [vuntag v_sum]. destruct (skey_in k (vkeys a)) eqn:E.
  - apply skey_in_spec in E. destruct (vuntag a k j); cbn [option_map]; split; intro H; try discriminate; try (destruct H; congruence).
    injection H as ->. auto.
  - split; [destruct (vuntag b k j); discriminate|]. intros [H _]. apply skey_in_spec in H. congruence.
Qed.
Lemma sum_right {A B} (a : vcodec A) (b : vcodec B) k j y :
  vuntag (v_sum a b) k j = Some (inr y) <-> ~ In k (vkeys a) /\ vuntag b k j = Some y.
Proof.
  cbn [vuntag v_sum]. destruct (skey_in k (vkeys a)) eqn:E.
  - apply skey_in_spec in E. split; [destruct (vuntag a k j); discriminate|]. intros [H _]. contradiction.
  - assert (N : ~ In k (vkeys a)) by (intro H; apply skey_in_spec in H; congruence).
    destruct (vuntag b k j); cbn [option_map]; split; intro H; try discriminate; try (destruct H; congruence).
    injection H as ->. auto.
Qed.
Lemma one_reads {A} k (c : jcodec A) k' j a :
  vuntag (v_one k c) k' j = Some a <-> k' = k /\ exists v, j = Some v /\ jdec c v = Some a.
Proof.
  cbn [vuntag v_one]. destruct (String.eqb_spec k k') as [E|E].
  - subst k'. destruct j as [v|]; cbn [obind]; split.
    + eauto.
    + intros (_ & v' & X & H). congruence.
    + discriminate.
    + intros (_ & v' & X & _). discriminate.
  - split; [discriminate|]. intros [X _]. congruence.
Qed.
Lemma unit_reads k k' j : vuntag (v_unit k) k' j = Some tt <-> k' = k /\ (j = None \/ j = Some JNull).
Proof.
  cbn [vuntag v_unit]. destruct (String.eqb_spec k k') as [E|E].
  - subst k'. destruct j as [[]|]; split; intro H; try discriminate; auto; try (destruct H as (_ & [H|H]); discriminate).
  - split; [discriminate|]. intros [X _]. congruence.
Qed.

Lemma nothing_reads j : jdec (jc_struct true o_unit) j = Some tt <-> j = JObj [].
Proof.
  rewrite struct_reads. split.
  - intros (l & -> & _ & C & _). destruct l as [|[k v] l]; [reflexivity|]. elim (C k). now left.
  - intros ->. exists []. split; [reflexivity|]. split; [intros k []|]. split; [intros k []|reflexivity].
Qed.

(** Take apart, and put together, a variant. *)
Ltac variant H := repeat first
  [ apply sum_left in H as [_ H] | apply sum_right in H as [_ H] ];
  first [ apply one_reads in H as (-> & ?v & ?E & H); try discriminate; match goal with E : Some _ = Some _ |- _ => injection E as -> end
        | apply unit_reads in H as (-> & H) ].
Ltac not_key := cbn [vkeys v_one v_unit v_sum In app]; intuition discriminate.
Ltac choose_variant := repeat first
  [ apply sum_left; split; [cbn [vkeys v_one v_unit v_sum In app]; auto|] | apply sum_right; split; [not_key|] ];
  first [ apply one_reads; split; [reflexivity|]; eexists; split; [reflexivity|] | apply unit_reads; split; [reflexivity|] ].
Ltac in_object k := apply enum_reads; left; exists k; eexists; split; [reflexivity|]; choose_variant.

Lemma expiration_reads j e : jdec jc_expiration j = Some e <-> reads_expiration j e.
Proof.
  unfold jc_expiration. rewrite map_reads. split.
  - intros ([h|[t|[]]] & H & <-); apply enum_reads in H as [(k & j' & -> & H)|(k & -> & H)]; variant H; cbn [reads_expiration].
    + exists v. split; [reflexivity|]. now apply u64_reads.
    + destruct v as [| | |s| |]; try discriminate. exists s. split; [reflexivity|]. now apply C67_integers.
    + apply nothing_reads in H as ->. reflexivity.
  - destruct e as [h|t|]; cbn [reads_expiration].
    + intros (v & -> & H). exists (inl h). split; [|reflexivity]. in_object "at_height". now apply u64_reads.
    + intros (s & -> & H). exists (inr (inl t)). split; [|reflexivity]. in_object "at_time". now apply C67_integers.
    + intros ->. exists (inr (inr tt)). split; [|reflexivity]. in_object "never". now apply nothing_reads.
Qed.

Lemma action_reads j a : jdec jc_action j = Some a <-> reads_action j a.
Proof.
  unfold jc_action. rewrite map_reads. split.
  - intros ([[n e]|[[]|[]]] & H & <-); apply enum_reads in H as [(k & j' & -> & H)|(k & -> & H)]; variant H; cbn [reads_action];
      unfold reads_unit; try (destruct H; try discriminate; auto; fail).
    + apply struct_reads in H as (l & -> & O & C & H). apply pair_reads in H as [H1 H2].
      exists l. split; [reflexivity|]. split; [exact O|]. split; [exact C|].
      split; [refine (proj1 (req_reads _ _ _ _ _ _ O _ (fun j => str_reads j _)) H1); known|].
      refine (proj1 (opt_reads _ _ _ _ _ _ O _ expiration_reads) H2); known.
    + destruct H as [H|H]; [discriminate|]. injection H as ->. now right.
    + destruct H as [H|H]; [discriminate|]. injection H as ->. now right.
  - destruct a as [n e| |]; cbn [reads_action]; unfold reads_unit.
    + intros (l & -> & O & C & H1 & H2). exists (inl (n, e)). split; [|reflexivity]. in_object "transfer_ownership".
      apply struct_reads. exists l. split; [reflexivity|]. split; [exact O|]. split; [exact C|]. apply pair_reads.
      split; [refine (proj2 (req_reads _ _ _ _ _ _ O _ (fun j => str_reads j _)) H1); known|].
      refine (proj2 (opt_reads _ _ _ _ _ _ O _ expiration_reads) H2); known.
    + intros H. exists (inr (inl tt)). split; [|reflexivity]. apply enum_reads.
      destruct H as [-> | ->]; [right; eexists|left; eexists _, _]; (split; [reflexivity|]); choose_variant; auto.
    + intros H. exists (inr (inr tt)). split; [|reflexivity]. apply enum_reads.
      destruct H as [-> | ->]; [right; eexists|left; eexists _, _]; (split; [reflexivity|]); choose_variant; auto.
Qed.

Lemma list_reads {A} (c : jcodec A) l xs : omap (jdec c) l = Some xs <-> Forall2 (fun j x => jdec c j = Some x) l xs.
Proof.
  revert xs. induction l as [|j l IH]; intro xs; cbn [omap].
  - split; [intro H; injection H as <-; constructor|]. intro H. inversion H. reflexivity.
  - split.
    + intro H. apply obind_some in H as (x & H1 & H). apply obind_some in H as (r & H2 & H). injection H as <-.
      constructor; [exact H1|]. now apply IH.
    + intro H. inversion H as [|? x ? r H1 H2]; subst. rewrite H1. cbn [obind]. apply IH in H2. rewrite H2. reflexivity.
Qed.
Lemma vec_null_reads {A} k (c : jcodec A) ks l xs : fields_once ks l -> In k ks ->
  (odec (o_vec_null k c) l = Some xs <->
   In (k, JNull) l /\ xs = [] \/ exists v, In (k, JArr v) l /\ Forall2 (fun j x => jdec c j = Some x) v xs).
Proof.
  intros O Hk. pose proof (fun v => find_field k l v (O k Hk)) as F. cbn [odec o_vec_null]. split.
  - destruct (assoc_find k l) as [j|] eqn:E; [|discriminate]. assert (E' := proj1 (F j) eq_refl). destruct j; try discriminate.
    + intro H. injection H as <-. auto.
    + intro H. right. eexists. split; [exact E'|]. now apply list_reads.
  - intros [[H ->]|(v & H1 & H2)].
    + apply F in H. now rewrite H.
    + apply F in H1. rewrite H1. now apply list_reads.
Qed.
Lemma vec_skip_reads {A} k (c : jcodec A) ks l xs : fields_once ks l -> In k ks ->
  (odec (o_vec_skip k c) l = Some xs <->
   (~ In k (map fst l) \/ In (k, JNull) l) /\ xs = [] \/
   exists v, In (k, JArr v) l /\ Forall2 (fun j x => jdec c j = Some x) v xs).
Proof.
  intros O Hk. pose proof (fun v => find_field k l v (O k Hk)) as F. cbn [odec o_vec_skip]. split.
  - destruct (assoc_find k l) as [j|] eqn:E.
    + assert (E' := proj1 (F j) eq_refl). destruct j; try discriminate.
      * intro H. injection H as <-. auto.
      * intro H. right. eexists. split; [exact E'|]. now apply list_reads.
    + intro H. injection H as <-. left. split; [|reflexivity]. left. now apply find_none.
  - intros [[[H|H] ->]|(v & H1 & H2)].
    + apply find_none in H. now rewrite H.
    + apply F in H. now rewrite H.
    + apply F in H1. rewrite H1. now apply list_reads.
Qed.

Definition read_msg (j : json) (m : cosmos_msg) : Prop := jdec jc_cosmos_msg j = Some m.
Definition read_query (j : json) (q : query_request) : Prop := jdec jc_query_request j = Some q.
Lemma execute_reads j m : jdec jc_execute_msg j = Some m <-> reads_execute read_msg read_query j m.
Proof.
  unfold jc_execute_msg. rewrite map_reads. split.
  - intros ([o|[[]|[(ms & qs & memo & t)|[cb|a]]]] & H & <-);
      apply enum_reads in H as [(k & j' & -> & H)|(k & -> & H)]; variant H; cbn [reads_execute].
    + apply struct_reads in H as (l & -> & O & C & H). exists l. split; [reflexivity|]. split; [exact O|]. split; [exact C|].
      refine (proj1 (skip_reads _ _ _ _ _ _ O _ options_reads) H); known.
    + apply nothing_reads in H as ->. reflexivity.
    + apply struct_reads in H as (l & -> & O & C & H). exists l. split; [reflexivity|]. split; [exact O|]. split; [exact C|].
      apply pair_reads in H as [H1 H]. apply pair_reads in H as [H2 H]. apply pair_reads in H as [H3 H4].
      split; [refine (proj1 (vec_null_reads _ _ _ _ _ O _) H1); known|].
      split; [refine (proj1 (vec_skip_reads _ _ _ _ _ O _) H2); known|].
      split; [refine (proj1 (skip_reads _ _ _ _ _ _ O _ str_reads) H3); known|].
      refine (proj1 (skip_reads _ _ _ _ _ _ O _ u64_reads) H4); known.
    + apply struct_reads in H as (l & -> & O & C & H). exists l. split; [reflexivity|]. split; [exact O|]. split; [exact C|].
      refine (proj1 (opt_reads _ _ _ _ _ _ O _ str_reads) H); known.
    + exists v. split; [reflexivity|]. now apply action_reads.
  - destruct m as [o| |ms qs memo t|cb|a]; cbn [reads_execute].
    + intros (l & -> & O & C & H). exists (inl o). split; [|reflexivity]. in_object "create_channel".
      apply struct_reads. exists l. split; [reflexivity|]. split; [exact O|]. split; [exact C|].
      refine (proj2 (skip_reads _ _ _ _ _ _ O _ options_reads) H); known.
    + intros ->. exists (inr (inl tt)). split; [|reflexivity]. in_object "close_channel". now apply nothing_reads.
    + intros (l & -> & O & C & H1 & H2 & H3 & H4). exists (inr (inr (inl (ms, (qs, (memo, t)))))). split; [|reflexivity].
      in_object "send_cosmos_msgs". apply struct_reads. exists l. split; [reflexivity|]. split; [exact O|]. split; [exact C|].
      rewrite !pair_reads.
      split; [refine (proj2 (vec_null_reads _ _ _ _ _ O _) H1); known|].
      split; [refine (proj2 (vec_skip_reads _ _ _ _ _ O _) H2); known|].
      split; [refine (proj2 (skip_reads _ _ _ _ _ _ O _ str_reads) H3); known|].
      refine (proj2 (skip_reads _ _ _ _ _ _ O _ u64_reads) H4); known.
    + intros (l & -> & O & C & H). exists (inr (inr (inr (inl cb)))). split; [|reflexivity]. in_object "update_callback_address".
      apply struct_reads. exists l. split; [reflexivity|]. split; [exact O|]. split; [exact C|].
      refine (proj2 (opt_reads _ _ _ _ _ _ O _ str_reads) H); known.
    + intros (v & -> & H). exists (inr (inr (inr (inr a)))). split; [|reflexivity]. in_object "update_ownership".
      now apply action_reads.
Qed.
Lemma query_reads j q : jdec jc_query_msg j = Some q <-> j = wire_query q.
Proof.
  unfold jc_query_msg. rewrite map_reads. split.
  - intros ([[]|[[]|[]]] & H & <-); apply enum_reads in H as [(k & j' & -> & H)|(k & -> & H)]; variant H;
      apply nothing_reads in H as ->; reflexivity.
  - intros ->. destruct q; [exists (inl tt)|exists (inr (inl tt))|exists (inr (inr tt))]; (split; [|reflexivity]);
      [in_object "get_channel"|in_object "get_contract_state"|in_object "ownership"]; now apply nothing_reads.
Qed.

Lemma encoding_reads j e : jdec jc_encoding j = Some e <-> reads_encoding j e.
Proof.
  unfold reads_encoding, reads_unit, tagged. split.
  - destruct j as [| | |s| |[|[k j'] [|]]]; try discriminate; cbn [jc_encoding jc_map jdec jc_enum v_sum vuntag v_unit vkeys skey_in existsb option_map].
    + intro H. cbn [orb] in H. tags H; cbn in H; try discriminate; injection H as <-; auto.
    + intro H. cbn [orb] in H. tags H; cbn in H; destruct j'; try discriminate; injection H as <-; auto.
  - destruct e; intros [-> | ->]; reflexivity.
Qed.
Lemma metadata_reads j m : jdec jc_metadata j = Some m <-> reads_metadata j m.
Proof.
  unfold jc_metadata. rewrite map_reads. unfold reads_metadata. split.
  - intros ((a & b & d & e & f & g) & H & <-). apply struct_reads in H as (l & -> & O & C & H).
    apply pair_reads in H as [H1 H]. apply pair_reads in H as [H2 H]. apply pair_reads in H as [H3 H].
    apply pair_reads in H as [H4 H]. apply pair_reads in H as [H5 H6].
    exists l. split; [reflexivity|]. split; [exact O|]. split; [exact C|].
    split; [refine (proj1 (req_reads _ _ _ _ _ _ O _ (fun j => str_reads j _)) H1); known|].
    split; [refine (proj1 (req_reads _ _ _ _ _ _ O _ (fun j => str_reads j _)) H2); known|].
    split; [refine (proj1 (req_reads _ _ _ _ _ _ O _ (fun j => str_reads j _)) H3); known|].
    split; [refine (proj1 (req_reads _ _ _ _ _ _ O _ (fun j => str_reads j _)) H4); known|].
    split; [refine (proj1 (req_reads _ _ _ _ _ _ O _ (fun j => encoding_reads j _)) H5); known|].
    refine (proj1 (req_reads _ _ _ _ _ _ O _ (fun j => str_reads j _)) H6); known.
  - intros (l & -> & O & C & H1 & H2 & H3 & H4 & H5 & H6). destruct m as [a b d e f g].
    exists (a, (b, (d, (e, (f, g))))). split; [|reflexivity]. apply struct_reads. exists l.
    split; [reflexivity|]. split; [exact O|]. split; [exact C|]. rewrite !pair_reads.
    split; [refine (proj2 (req_reads _ _ _ _ _ _ O _ (fun j => str_reads j _)) H1); known|].
    split; [refine (proj2 (req_reads _ _ _ _ _ _ O _ (fun j => str_reads j _)) H2); known|].
    split; [refine (proj2 (req_reads _ _ _ _ _ _ O _ (fun j => str_reads j _)) H3); known|].
    split; [refine (proj2 (req_reads _ _ _ _ _ _ O _ (fun j => str_reads j _)) H4); known|].
    split; [refine (proj2 (req_reads _ _ _ _ _ _ O _ (fun j => encoding_reads j _)) H5); known|].
    refine (proj2 (req_reads _ _ _ _ _ _ O _ (fun j => str_reads j _)) H6); known.
Qed.
Lemma ack_reads j a : jdec jc_ack j = Some a <-> reads_ack j a.
Proof.
  unfold jc_ack. rewrite map_reads. split.
  - intros ([d|e] & H & <-); apply enum_reads in H as [(k & j' & -> & H)|(k & -> & H)]; variant H; cbn [reads_ack].
    + destruct v as [| | |s| |]; try discriminate. exists s. split; [reflexivity|]. now apply C67_base64.
    + apply str_reads in H as ->. reflexivity.
  - destruct a as [d|e]; cbn [reads_ack].
    + intros (s & -> & H). exists (inl d). split; [|reflexivity]. in_object "result". now apply C67_base64.
    + intros ->. exists (inr e). split; [|reflexivity]. in_object "error". reflexivity.
Qed.

Lemma text_reads {A} (c : jcodec A) (P : json -> A -> Prop) t a : (forall j, jdec c j = Some a <-> P j a) ->
  (from_json c t = Some a <-> exists j, jparse t = Some j /\ P j a).
Proof.
  intro HP. unfold from_json. split.
  - intro H. apply obind_some in H as (j & H1 & H2). exists j. split; [exact H1|]. now apply HP.
  - intros (j & -> & H). now apply HP.
Qed.

(** ** C62: the JSON of the interface *)

(** Fields in another order, a null and white space; an unknown field; a field twice. *)
Example C62_case :
  from_json jc_instantiate_msg "{ ""send_callbacks_to"" : null, ""channel_open_init_options"": {""counterparty_connection_id"":""b"",""connection_id"":""a"", ""extra"":1 } , ""owner"":""me"" }" =
    Some (InstantiateMsg (Some "me") (OpenOptions "a" "b" None None) None) /\
  from_json jc_execute_msg "{""update_callback_address"":{""callback_addr"":""x""}}" = None /\
  from_json jc_execute_msg "{""update_callback_address"":{""callback_address"":""x"",""callback_address"":""x""}}" = None /\
  from_json jc_execute_msg "{""update_callback_address"":{}}" = Some (XUpdateCallbackAddress None).
Proof. repeat split; vm_compute; reflexivity. Qed.

(** In particular every message can be sent, also those with Cosmos messages and
    queries, as the text of its tree.  ([jval]: strings are UTF-8 and numbers
    are in the range of their Rust type.) *)
Theorem C62_messages_sent :
  (forall m, jval jc_instantiate_msg m -> from_json jc_instantiate_msg (jprint (wire_instantiate m)) = Some m) /\
  (forall m, jval jc_execute_msg m -> from_json jc_execute_msg (jprint (wire_execute m)) = Some m) /\
  (forall q, from_json jc_query_msg (jprint (wire_query q)) = Some q) /\
  from_json jc_migrate_msg (jprint wire_migrate) = Some tt /\
  (forall m, jval jc_metadata m -> from_json jc_metadata (jprint (wire_metadata m)) = Some m).
Proof.
  split; [|split; [|split; [|split]]].
  - intros m H. rewrite <- instantiate_wire. now apply json_roundtrip; [apply jc_instantiate_msg_ok|].
  - intros m H. rewrite <- execute_wire. now apply json_roundtrip; [apply jc_execute_msg_ok|].
  - intros []; reflexivity.
  - reflexivity.
  - intros m H. rewrite <- metadata_wire. now apply json_roundtrip; [apply jc_metadata_ok|].
Qed.

(** The answers to the three queries. *)
Theorem C62_answers : forall c w, cfg_ok c -> visited c w ->
  (forall ch st, channel_reported w ch st ->
     ask w (jprint (wire_query QGetChannel)) = Some (jprint (wire_channel_state (ChannelState ch st)))) /\
  (forall st, state_reported w st ->
     ask w (jprint (wire_query QGetContractState)) = Some (jprint (wire_contract_state st))) /\
  (forall o, owner_reported w o ->
     ask w (jprint (wire_query QOwnership)) = Some (jprint (wire_ownership o))).
Proof.
  intros c w Hc V. split; [|split].
  - intros ch st H. destruct (channel_reported_log c w ch st Hc V H) as (Hl & b & R & ->).
    pose proof (ask_channel_text c w Hc V Hl) as T. rewrite R in T. destruct T as [T _].
    rewrite <- channel_state_wire. exact T.
  - intros st H. destruct (state_reported_log c w st Hc V H) as (Hl & ->).
    rewrite <- contract_state_wire. apply (ask_state_text c w Hc V Hl).
  - intros o H. assert (Hl : w_log w <> []) by apply (owner_reported_log c w o Hc V H).
    destruct (ask_ownership_text c w Hc V Hl) as [T1 T2]. destruct H as (t & A & D).
    rewrite <- ownership_wire. change (ask w get_ownership = Some (to_json jc_ownership o)).
    rewrite T1 in A. injection A as <-. rewrite T2 in D. injection D as <-. exact T1.
Qed.

(** Every message the callback contract is called with. *)
Theorem C62_callbacks : forall c w addr msg, cfg_ok c -> visited c w -> In (LCall addr msg) (w_log w) ->
  exists m, msg = jprint (wire_callback m) /\ from_json jc_receiver msg = Some m.
Proof.
  intros c w addr msg Hc V H. destruct (C34_every_call c w addr msg Hc V H) as (m & D & E).
  exists m. split; [|exact D]. rewrite <- callback_wire. exact E.
Qed.

(** The version a channel is proposed with. *)
Theorem C62_C07_proposed_version : forall a e s o s1 r,
  requests a e s o s1 r -> utf8 (env_contract e) ->
  exists bytes, r_msgs r = [SubMsg (MStargate "/ibc.core.channel.v1.MsgChannelOpenInit" bytes) None] /\
    (slen bytes < u64_lim -> exists oi, core_open_init bytes = Some oi /\
      jparse (oi_version oi) = Some (JObj
        [("version", JStr "ics27-1"); ("controller_connection_id", JStr (oo_connection o));
         ("host_connection_id", JStr (oo_cp_connection o)); ("address", JStr "");
         ("encoding", JStr "proto3"); ("tx_type", JStr "sdk_multi_msg")])).
Proof.
  intros a e s o s1 r H He. destruct (requests_msg _ _ _ _ _ _ H) as (Hu & _ & _ & Hm & Hev).
  exists (open_init_bytes (env_contract e) o). split; [exact Hm|]. intro Hl.
  eexists. split; [now apply open_init_decodes|]. cbn [oi_version].
  match goal with |- jparse ?t = _ => change t with (jprint (jenc jc_metadata (Metadata "ics27-1" (oo_connection o) (oo_cp_connection o) "" Protobuf "sdk_multi_msg"))) end.
  rewrite jparse_print; [reflexivity|]. apply jc_metadata_ok. apply fresh_jval; apply Hu.
Qed.

Print Assumptions C62_messages_sent.
Print Assumptions C62_answers.
Print Assumptions C62_callbacks.
Print Assumptions C62_C07_proposed_version.
