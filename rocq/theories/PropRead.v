(** * PropRead: the texts that are read as messages, down to the last field (C62). *)

From Verif Require Import Base Text Utf8 Base64 Json JsonCodec Types JsonTypes WireSpec TextSpec ReadSpec PropWire PropText.
Local Open Scope string_scope.
Local Open Scope list_scope.
Local Open Scope N_scope.

(** ** Leaves *)

Lemma bin_reads j d : jdec jc_bin j = Some d <-> reads_bin j d.
Proof.
  unfold reads_bin. destruct j as [| | |s| |]; cbn [jdec jc_bin]; try (split; [discriminate|intros (? & E & _); discriminate E]).
  rewrite C67_base64. split; [eauto|]. intros (t & E & H). injection E as <-. exact H.
Qed.
Lemma decimal_reads j n : jdec jc_decimal j = Some n <-> reads_decimal j n.
Proof.
  unfold reads_decimal. destruct j as [| | |s| |]; cbn [jdec jc_decimal]; try (split; [discriminate|intros (? & E & _); discriminate E]).
  rewrite C67_decimals. split; [eauto|]. intros (t & E & H). injection E as <-. exact H.
Qed.
Lemma uint_text_reads lim j n : jdec (jc_uint_str lim) j = Some n <-> reads_uint_text lim j n.
Proof.
  unfold reads_uint_text. destruct j as [| | |s| |]; cbn [jdec jc_uint_str]; try (split; [discriminate|intros (? & E & _); discriminate E]).
  rewrite C67_integers. split; [eauto|]. intros (t & E & H). injection E as <-. exact H.
Qed.
Lemma uint_reads lim j n : jdec (jc_uint lim) j = Some n <-> reads_uint lim j n.
Proof.
  unfold reads_uint. destruct j as [| |m| | |]; cbn [jdec jc_uint]; try (split; [discriminate|intros [E _]; discriminate E]).
  destruct (N.ltb_spec m lim) as [L|L]; split.
  - intro E. injection E as <-. auto.
  - intros [E _]. injection E as ->. reflexivity.
  - discriminate.
  - intros [E X]. injection E as ->. lia.
Qed.
Lemma bool_reads j b : jdec jc_bool j = Some b <-> reads_bool j b.
Proof. unfold reads_bool. destruct j; cbn; split; intro H; congruence. Qed.
Lemma Forall2_iff {A B} (P Q : A -> B -> Prop) l m : (forall x y, P x y <-> Q x y) -> (Forall2 P l m <-> Forall2 Q l m).
Proof. intro H. split; induction 1; constructor; auto; now apply H. Qed.
Lemma list_of_reads {A} (c : jcodec A) (P : json -> A -> Prop) : (forall j a, jdec c j = Some a <-> P j a) ->
  forall j l, jdec (jc_list c) j = Some l <-> reads_list P j l.
Proof.
  intros H j l. unfold reads_list. destruct j as [| | | | v |]; cbn [jdec jc_list]; try (split; [discriminate|intros (? & E & _); discriminate E]).
  rewrite list_reads, (Forall2_iff _ P) by (intros; apply H). split; [eauto|]. intros (t & E & X). injection E as <-. exact X.
Qed.

(** ** Structs and enums *)

Lemma map_iff {A B} (c : jcodec A) (to : B -> A) (from : A -> B) j b :
  (forall b, from (to b) = b) -> (forall a, to (from a) = a) ->
  (jdec (jc_map c to from) j = Some b <-> jdec c j = Some (to b)).
Proof.
  intros H1 H2. rewrite map_reads. split.
  - intros (a & H & <-). now rewrite H2.
  - intro H. exists (to b). auto.
Qed.
Lemma object_iff {A} (o : ocodec A) (P : list (string * json) -> Prop) j a :
  (forall l, fields_once (okeys o) l -> (odec o l = Some a <-> P l)) ->
  (jdec (jc_struct false o) j = Some a <-> object (okeys o) P j).
Proof.
  intro H. rewrite open_struct_reads. unfold object. split; intros (l & -> & O & X); exists l; (split; [reflexivity|]); (split; [exact O|]); now apply (H l O).
Qed.

Lemma exact_iff {A} (o : ocodec A) (P : list (string * json) -> Prop) j a :
  (forall l, fields_once (okeys o) l -> (odec o l = Some a <-> P l)) ->
  (jdec (jc_struct true o) j = Some a <-> exact_object (okeys o) P j).
Proof.
  intro H. rewrite struct_reads. unfold exact_object. split; intros (l & -> & O & C & X); exists l;
    (split; [reflexivity|]); (split; [exact O|]); (split; [exact C|]); now apply (H l O).
Qed.
Lemma opt_of_reads {A} (c : jcodec A) (P : json -> A -> Prop) : (forall j a, jdec c j = Some a <-> P j a) ->
  forall j o, jdec (jc_opt c) j = Some o <-> reads_opt P j o.
Proof.
  intros H j o. destruct o as [a|]; cbn [reads_opt jdec jc_opt].
  - rewrite <- H. destruct j; try (split; [discriminate|intros [X _]; now elim X]);
      (destruct (jdec c _) as [?|]; cbn [option_map]; split; [intro E; injection E as ->; split; [discriminate|reflexivity]| intros [_ E]; now injection E as -> |discriminate|intros [_ E]; discriminate]).
  - destruct j; try (split; [reflexivity|reflexivity]); (destruct (jdec c _); cbn [option_map]; split; discriminate).
Qed.
Lemma vector_reads {A} k (c : jcodec A) (P : json -> A -> Prop) ks l xs : fields_once ks l -> In k ks ->
  (forall j a, jdec c j = Some a <-> P j a) -> (odec (o_vec_null k c) l = Some xs <-> vector l k P xs).
Proof.
  intros O I H. rewrite (vec_null_reads k c ks l xs O I). unfold vector.
  split; (intros [X|(v & X & F)]; [now left|right; exists v; split; [exact X|]]); revert F; apply Forall2_iff; intros; first [apply H|symmetry; apply H].
Qed.

(** [s] is the value [x] of the variant [k] of the enum [v]. *)
Definition at_key {A B} (v : vcodec A) (s : A) (k : string) (c : jcodec B) (x : B) : Prop :=
  In k (vkeys v) /\ forall k' j, vuntag v k' j = Some s <-> vuntag (v_one k c) k' j = Some x.
Definition vgood {A} (v : vcodec A) : Prop := forall k j x, vuntag v k j = Some x -> In k (vkeys v).
Lemma vgood_one {A} k (c : jcodec A) : vgood (v_one k c).
Proof. intros k' j x H. apply one_reads in H as [-> _]. now left. Qed.
Lemma at_one {B} k (c : jcodec B) x : at_key (v_one k c) x k c x.
Proof. split; [now left|]. reflexivity. Qed.
Lemma at_left {A A' B} (v : vcodec A) (w : vcodec A') s k (c : jcodec B) x : at_key v s k c x -> at_key (v_sum v w) (inl s) k c x.
Proof.
  intros [I H]. split; [cbn [vkeys v_sum]; apply in_app_iff; now left|]. intros k' j. rewrite sum_left, H. split; [now intros [_ X]|].
  intro X. split; [|exact X]. apply one_reads in X as [-> _]. exact I.
Qed.
Lemma at_right {A A' B} (v : vcodec A) (w : vcodec A') s k (c : jcodec B) x :
  skey_in k (vkeys v) = false -> at_key w s k c x -> at_key (v_sum v w) (inr s) k c x.
Proof.
  intros D [I H]. split; [cbn [vkeys v_sum]; apply in_app_iff; now right|]. intros k' j. rewrite sum_right, H. split; [now intros [_ X]|].
  intro X. split; [|exact X]. apply one_reads in X as [-> _]. intro Y. apply skey_in_spec in Y. congruence.
Qed.
Lemma variant_iff {A B} (v : vcodec A) (s : A) k (c : jcodec B) x (P : json -> Prop) j :
  at_key v s k c x -> (forall j, jdec c j = Some x <-> P j) -> (jdec (jc_enum v) j = Some s <-> variant k P j).
Proof.
  intros [_ H] HP. rewrite enum_reads. unfold variant. split.
  - intros [(k' & j' & -> & X)|(k' & -> & X)]; apply H in X; apply one_reads in X as (-> & y & E & X).
    + injection E as ->. exists y. split; [reflexivity|]. now apply HP.
    + discriminate E.
  - intros (y & -> & X). left. exists k, y. split; [reflexivity|]. apply H. apply one_reads. split; [reflexivity|].
    exists y. split; [reflexivity|]. now apply HP.
Qed.
Lemma and_iff (A B C D : Prop) : (A <-> C) -> (B <-> D) -> (A /\ B <-> C /\ D).
Proof. tauto. Qed.
Lemma unit_anything l : odec o_unit l = Some tt <-> anything l.
Proof. cbn. unfold anything. intuition. Qed.
Lemma n64_reads j n : jdec (jc_uint u64_lim) j = Some n <-> reads_uint (2 ^ 64) j n.
Proof. apply uint_reads. Qed.
Lemma n32_reads j n : jdec (jc_uint u32_lim) j = Some n <-> reads_uint (2 ^ 32) j n.
Proof. apply uint_reads. Qed.
Lemma t128_reads j n : jdec (jc_uint_str u128_lim) j = Some n <-> reads_uint_text (2 ^ 128) j n.
Proof. apply uint_text_reads. Qed.
Lemma t64_reads j n : jdec jc_timestamp j = Some n <-> reads_uint_text (2 ^ 64) j n.
Proof. apply uint_text_reads. Qed.
Global Hint Resolve str_reads bin_reads decimal_reads n64_reads n32_reads t128_reads t64_reads bool_reads order_reads encoding_reads ack_reads list_of_reads opt_of_reads : reads.
Ltac at_it := repeat first [apply at_left | apply at_right; [reflexivity|]]; apply at_one.
Ltac fields := repeat match goal with
  | |- odec (o_pair _ _) _ = Some (_, _) <-> _ => rewrite pair_reads; apply and_iff
  | O : fields_once ?ks _ |- odec (o_req _ _) _ = Some _ <-> _ => eapply req_reads; [exact O|known|intro; solve [eauto with reads]]
  | O : fields_once ?ks _ |- odec (o_opt _ _) _ = Some _ <-> _ => eapply opt_reads; [exact O|known|intros; solve [eauto with reads]]
  | O : fields_once ?ks _ |- odec (o_skip _ _) _ = Some _ <-> _ => eapply skip_reads; [exact O|known|intros; solve [eauto with reads]]
  | O : fields_once ?ks _ |- odec (o_vec_null _ _) _ = Some _ <-> _ => eapply vector_reads; [exact O|known|intros; solve [eauto with reads]]
  | |- odec o_unit _ = Some _ <-> _ => apply unit_anything
  end.
Ltac struct := first [refine (object_iff _ _ _ _ _) | refine (exact_iff _ _ _ _ _)]; intros ? ?; fields.
Ltac bij := let x := fresh in intro x; repeat match goal with
  | x : (_ + _)%type |- _ => destruct x | x : (_ * _)%type |- _ => destruct x | x : unit |- _ => destruct x end;
  try reflexivity; destruct x; reflexivity.
Ltac enum := rewrite map_iff by bij; match goal with |- _ <-> ?R ?j ?m => destruct m end;
  cbv beta iota; (eapply variant_iff; [at_it|]); intro; first [solve [eauto with reads] | struct].

Lemma coin_reads j c : jdec jc_coin j = Some c <-> reads_coin j c.
Proof. unfold jc_coin. rewrite map_iff by bij. struct. Qed.
Lemma coins_reads j c : jdec (jc_list jc_coin) j = Some c <-> reads_coins j c.
Proof. apply list_of_reads. exact coin_reads. Qed.
Lemma timeout_block_reads j c : jdec jc_timeout_block j = Some c <-> reads_timeout_block j c.
Proof. unfold jc_timeout_block. rewrite map_iff by bij. struct. Qed.
Global Hint Resolve coin_reads coins_reads timeout_block_reads : reads.
Lemma timeout_reads j c : jdec jc_timeout j = Some c <-> reads_timeout j c.
Proof. unfold jc_timeout. rewrite map_iff by bij. struct. Qed.
Global Hint Resolve timeout_reads : reads.
Lemma bank_msg_reads j m : jdec jc_bank_msg j = Some m <-> reads_bank_msg j m.
Proof. unfold jc_bank_msg. enum. Qed.
Lemma ibc_msg_reads j m : jdec jc_ibc_msg j = Some m <-> reads_ibc_msg j m.
Proof. unfold jc_ibc_msg. enum. Qed.
Lemma wasm_msg_reads j m : jdec jc_wasm_msg j = Some m <-> reads_wasm_msg j m.
Proof. unfold jc_wasm_msg. enum. Qed.
Lemma vote_reads j o : jdec jc_vote_option j = Some o <-> reads_vote j o.
Proof.
  unfold reads_vote, reads_unit, tagged. split.
  - destruct j as [| | |s| |[|[k j'] [|]]]; try discriminate; cbn [jc_vote_option jc_map jdec jc_enum v_sum vuntag v_unit vkeys skey_in existsb option_map app].
    + intro H. cbn [orb] in H. tags H; cbn in H; try discriminate; injection H as <-; auto.
    + intro H. cbn [orb] in H. tags H; cbn in H; destruct j'; try discriminate; injection H as <-; auto.
  - destruct o; intros [-> | ->]; reflexivity.
Qed.
Global Hint Resolve bank_msg_reads ibc_msg_reads wasm_msg_reads vote_reads : reads.
Lemma weighted_vote_reads j w : jdec jc_weighted_vote j = Some w <-> reads_weighted_vote j w.
Proof. unfold jc_weighted_vote. rewrite map_iff by bij. struct. Qed.
Global Hint Resolve weighted_vote_reads : reads.
Lemma gov_msg_reads j m : jdec jc_gov_msg j = Some m <-> reads_gov_msg j m.
Proof. unfold jc_gov_msg. enum. Qed.
Lemma staking_msg_reads j m : jdec jc_staking_msg j = Some m <-> reads_staking_msg j m.
Proof. unfold jc_staking_msg. enum. Qed.
Lemma dist_msg_reads j m : jdec jc_dist_msg j = Some m <-> reads_dist_msg j m.
Proof. unfold jc_dist_msg. enum. Qed.
Global Hint Resolve gov_msg_reads staking_msg_reads dist_msg_reads : reads.
Lemma cosmos_msg_reads j m : jdec jc_cosmos_msg j = Some m <-> reads_cosmos_msg j m.
Proof. unfold jc_cosmos_msg. enum. Qed.

Lemma page_reads j p : jdec jc_page_request j = Some p <-> reads_page j p.
Proof. unfold jc_page_request. rewrite map_iff by bij. struct. Qed.
Global Hint Resolve page_reads : reads.
Lemma bank_query_reads j q : jdec jc_bank_query j = Some q <-> reads_bank_query j q.
Proof. unfold jc_bank_query. enum. Qed.
Lemma wasm_query_reads j q : jdec jc_wasm_query j = Some q <-> reads_wasm_query j q.
Proof. unfold jc_wasm_query. enum. Qed.
Lemma staking_query_reads j q : jdec jc_staking_query j = Some q <-> reads_staking_query j q.
Proof. unfold jc_staking_query. enum. Qed.
Lemma dist_query_reads j q : jdec jc_dist_query j = Some q <-> reads_dist_query j q.
Proof. unfold jc_dist_query. enum. Qed.
Lemma ibc_query_reads j q : jdec jc_ibc_query j = Some q <-> reads_ibc_query j q.
Proof. unfold jc_ibc_query. enum. Qed.
Global Hint Resolve bank_query_reads wasm_query_reads staking_query_reads dist_query_reads ibc_query_reads : reads.
Lemma query_request_reads j q : jdec jc_query_request j = Some q <-> reads_query_request j q.
Proof. unfold jc_query_request. enum. Qed.

Lemma endpoint_reads j e : jdec jc_endpoint j = Some e <-> reads_endpoint j e.
Proof. unfold jc_endpoint. rewrite map_iff by bij. struct. Qed.
Global Hint Resolve endpoint_reads : reads.
Lemma channel_reads j e : jdec jc_channel j = Some e <-> reads_channel j e.
Proof. unfold jc_channel. rewrite map_iff by bij. struct. Qed.
Lemma packet_reads j e : jdec jc_packet j = Some e <-> reads_packet j e.
Proof. unfold jc_packet. rewrite map_iff by bij. struct. Qed.
Lemma denom_unit_reads j e : jdec jc_denom_unit j = Some e <-> reads_denom_unit j e.
Proof. unfold jc_denom_unit. rewrite map_iff by bij. struct. Qed.
Global Hint Resolve channel_reads packet_reads denom_unit_reads : reads.
Lemma denom_metadata_reads j e : jdec jc_denom_metadata j = Some e <-> reads_denom_metadata j e.
Proof. unfold jc_denom_metadata. rewrite map_iff by bij. struct. Qed.
Lemma contract_info_reads j e : jdec jc_contract_info j = Some e <-> reads_contract_info j e.
Proof. unfold jc_contract_info. rewrite map_iff by bij. struct. Qed.
Lemma validator_reads j e : jdec jc_validator j = Some e <-> reads_validator j e.
Proof. unfold jc_validator. rewrite map_iff by bij. struct. Qed.
Lemma delegation_reads j e : jdec jc_delegation j = Some e <-> reads_delegation j e.
Proof. unfold jc_delegation. rewrite map_iff by bij. struct. Qed.
Global Hint Resolve denom_metadata_reads contract_info_reads validator_reads delegation_reads : reads.
Lemma bank_response_reads j r : jdec jc_bank_response j = Some r <-> reads_bank_response j r.
Proof. unfold jc_bank_response. enum. Qed.
Lemma wasm_response_reads j r : jdec jc_wasm_response j = Some r <-> reads_wasm_response j r.
Proof. unfold jc_wasm_response. enum. Qed.
Lemma staking_response_reads j r : jdec jc_staking_response j = Some r <-> reads_staking_response j r.
Proof. unfold jc_staking_response. enum. Qed.
Global Hint Resolve bank_response_reads wasm_response_reads staking_response_reads : reads.
Lemma query_response_reads j r : jdec jc_query_response j = Some r <-> reads_query_response j r.
Proof. unfold jc_query_response. enum. Qed.
Global Hint Resolve query_response_reads : reads.
Lemma query_result_reads j r : jdec jc_query_result j = Some r <-> reads_query_result j r.
Proof. unfold jc_query_result. enum. Qed.
Global Hint Resolve query_result_reads : reads.
Lemma callback_reads j m : jdec jc_receiver j = Some m <-> reads_callback j m.
Proof.
  unfold jc_receiver, reads_callback. eapply variant_iff; [at_it|]. intro v. unfold jc_callback.
  rewrite map_iff by bij. destruct m; cbv beta iota; (eapply variant_iff; [at_it|]); intro; struct.
Qed.
Lemma execute_all_reads j m : jdec jc_execute_msg j = Some m <-> reads_execute reads_cosmos_msg reads_query_request j m.
Proof.
  rewrite execute_reads. destruct m as [o| |ms qs memo t|cb|a]; try reflexivity. cbn [reads_execute].
  assert (E1 : forall v, Forall2 read_msg v ms <-> Forall2 reads_cosmos_msg v ms) by (intro; apply Forall2_iff, cosmos_msg_reads).
  assert (E2 : forall v, Forall2 read_query v qs <-> Forall2 reads_query_request v qs) by (intro; apply Forall2_iff, query_request_reads).
  split; intros (l & Ej & O & C & H1 & H2 & H3); exists l; (split; [exact Ej|]); (split; [exact O|]); (split; [exact C|]);
    (split; [destruct H1 as [H1|(v & H1 & F)]; [now left|right; exists v; split; [exact H1|now apply E1]]|]);
    (split; [destruct H2 as [H2|(v & H2 & F)]; [now left|right; exists v; split; [exact H2|now apply E2]]|exact H3]).
Qed.
Lemma from_text {A} (c : jcodec A) (P : json -> A -> Prop) t a : (forall j, jdec c j = Some a <-> P j a) ->
  (from_json c t = Some a <-> text_of P t a).
Proof.
  intro HP. rewrite (text_reads c P t a HP). unfold text_of.
  split; intros (j & H1 & H2); exists j; (split; [now apply C67_json|exact H2]).
Qed.

(** ** C62: the texts that are read *)

(** Exactly these texts are read as these messages; by the contract, and, for
    callbacks, by contracts that use its library. *)
Theorem C62_messages_read : forall t,
  (forall m, from_json jc_instantiate_msg t = Some m <-> text_of reads_instantiate t m) /\
  (forall m, from_json jc_execute_msg t = Some m <-> text_of (reads_execute reads_cosmos_msg reads_query_request) t m) /\
  (forall q, from_json jc_query_msg t = Some q <-> json_text t (wire_query q)) /\
  (from_json jc_migrate_msg t = Some tt <-> json_text t wire_migrate) /\
  (forall m, from_json jc_metadata t = Some m <-> text_of reads_metadata t m) /\
  (forall a, from_json jc_ack t = Some a <-> text_of reads_ack t a) /\
  (forall m, from_json jc_receiver t = Some m <-> text_of reads_callback t m).
Proof.
  intro t. split; [|split; [|split; [|split; [|split; [|split]]]]].
  - intro m. apply from_text. intro. apply instantiate_reads.
  - intro m. apply from_text. intro. apply execute_all_reads.
  - intro q. rewrite (from_text _ (fun j q => j = wire_query q)) by (intro; apply query_reads).
    split; [intros (j & H & ->); exact H|]. intro H. now exists (wire_query q).
  - rewrite (from_text _ (fun j _ => j = wire_migrate)) by apply nothing_reads.
    split; [intros (j & H & ->); exact H|]. intro H. now exists wire_migrate.
  - intro m. apply from_text. intro. apply metadata_reads.
  - intro a. apply from_text. intro. apply ack_reads.
  - intro m. apply from_text. intro. apply callback_reads.
Qed.

(** A message as a user might write it, with fields in another order, a
    field that the type does not have, and a plus sign. *)
Example C62_read_case : text_of (reads_execute reads_cosmos_msg reads_query_request)
  "{""send_cosmos_msgs"": {""timeout_seconds"": null, ""messages"": [ {""bank"":{""send"":{""amount"":[{""amount"":""+05"",""denom"":""atom"",""x"":[]}],""to_address"":""cosmos1""}}} ]}}"
  (XSendCosmosMsgs [MBank (BankSend "cosmos1" [Coin "atom" 5])] [] None None).
Proof. apply C62_messages_read. vm_compute. reflexivity. Qed.

Print Assumptions C62_messages_read.
