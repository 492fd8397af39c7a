(** * JsonSound: whatever the JSON decoders accept is a value of the Rust type.

    [jval] holds of every value read from JSON text: its strings are UTF-8 and
    its integers are in range. *)

From Verif Require Import Base Utf8 Text Base64 Json JsonCodec Types JsonTypes.
Local Open Scope string_scope.
Local Open Scope N_scope.

(** ** The parser only yields well-formed values *)

Lemma pjstr_valid s x r : pjstr s = Some (x, r) -> utf8_valid x = true.
Proof.
  unfold pjstr. destruct (pstr s) as [[y r']|]; cbn; [|discriminate].
  destruct (utf8_valid y) eqn:E; [|discriminate]. intro H; inversion H; subst; exact E.
Qed.

Lemma pval_wf fuel :
  (forall s j r, pval fuel s = Some (j, r) -> jwf j = true) /\
  (forall s l r, parr fuel s = Some (l, r) -> forallb jwf l = true) /\
  (forall s l r, pobj fuel s = Some (l, r) ->
     forallb (fun kv => utf8_valid (fst kv) && jwf (snd kv)) l = true).
Proof.
  induction fuel as [|f (IHv & IHa & IHo)]; (split; [|split]); try discriminate.
  - intros s j r. cbn [pval]. destruct (skip_ws s) as [|c t]; [discriminate|].
    destruct (bn c =? 34).
    { destruct (pjstr t) as [[x r1]|] eqn:E; cbn; [|discriminate].
      intro H; inversion H; subst. cbn. eapply pjstr_valid; eauto. }
    destruct (bn c =? 91).
    { destruct (eat "]" (skip_ws t)) as [r1|].
      { intro H; inversion H; reflexivity. }
      destruct (parr f t) as [[l r1]|] eqn:E; cbn [obind]; [|discriminate].
      intro H; inversion H; subst. rewrite jwf_arr. eapply IHa; eauto. }
    destruct (bn c =? 123).
    { destruct (eat "}" (skip_ws t)) as [r1|].
      { intro H; inversion H; reflexivity. }
      destruct (pobj f t) as [[l r1]|] eqn:E; cbn [obind]; [|discriminate].
      intro H; inversion H; subst. rewrite jwf_obj. eapply IHo; eauto. }
    destruct (is_digit c).
    { destruct (pnum c t) as [n r1]. intro H; inversion H; reflexivity. }
    destruct (bn c =? 110).
    { destruct (eat "ull" t); cbn [obind]; [|discriminate]. intro H; inversion H; reflexivity. }
    destruct (bn c =? 116).
    { destruct (eat "rue" t); cbn [obind]; [|discriminate]. intro H; inversion H; reflexivity. }
    destruct (bn c =? 102); [|discriminate].
    destruct (eat "alse" t); cbn [obind]; [|discriminate]. intro H; inversion H; reflexivity.
  - intros s l r. cbn [parr]. destruct (pval f s) as [[v r1]|] eqn:E; cbn [obind]; [|discriminate].
    apply IHv in E. destruct (skip_ws r1) as [|c r2]; [discriminate|].
    destruct (bn c =? 44).
    { destruct (parr f r2) as [[l' r3]|] eqn:E2; cbn [obind]; [|discriminate].
      intro H; inversion H; subst. cbn. rewrite E. eapply IHa; eauto. }
    destruct (bn c =? 93); [|discriminate]. intro H; inversion H; subst. cbn. now rewrite E.
  - intros s l r. cbn [pobj]. destruct (skip_ws s) as [|q t]; [discriminate|].
    destruct (bn q =? 34); [|discriminate].
    destruct (pjstr t) as [[k r1]|] eqn:Ek; cbn [obind]; [|discriminate]. apply pjstr_valid in Ek.
    destruct (eat ":" (skip_ws r1)) as [r2|]; cbn [obind]; [|discriminate].
    destruct (pval f r2) as [[v r3]|] eqn:E; cbn [obind]; [|discriminate]. apply IHv in E.
    destruct (skip_ws r3) as [|c r4]; [discriminate|].
    destruct (bn c =? 44).
    { destruct (pobj f r4) as [[l' r5]|] eqn:E2; cbn [obind]; [|discriminate].
      intro H; inversion H; subst. cbn. rewrite Ek, E. cbn. eapply IHo; eauto. }
    destruct (bn c =? 125); [|discriminate].
    intro H; inversion H; subst. cbn. now rewrite Ek, E.
Qed.

Lemma jparse_wf s j : jparse s = Some j -> jwf j = true.
Proof.
  unfold jparse. destruct (pval _ s) as [[v r]|] eqn:E; cbn [obind]; [|discriminate].
  destruct (sempty (skip_ws r)); [|discriminate]. intro H; inversion H; subst.
  eapply (proj1 (pval_wf _)); eauto.
Qed.

(** ** Soundness of the combinators *)

Definition jsound {A} (c : jcodec A) : Prop :=
  forall j a, jwf j = true -> jdec c j = Some a -> jval c a.
Definition jnn {A} (c : jcodec A) : Prop := forall a, jenc c a <> JNull.
Definition owf (l : list (string * json)) : Prop := forall k j, In (k, j) l -> jwf j = true.
Definition osound {A} (o : ocodec A) : Prop := forall l a, owf l -> odec o l = Some a -> oval o a.
Definition vsound {A} (v : vcodec A) : Prop :=
  forall k j a, (forall j', j = Some j' -> jwf j' = true) -> vuntag v k j = Some a -> vval v a.

Theorem from_json_valid {A} (c : jcodec A) s a :
  jsound c -> from_json c s = Some a -> jval c a.
Proof.
  intro Hs. unfold from_json. destruct (jparse s) as [j|] eqn:E; cbn [obind]; [|discriminate].
  intro H. eapply Hs; eauto. eapply jparse_wf; eauto.
Qed.

Lemma jc_str_sound : jsound jc_str.
Proof. intros [] a Hw H; inversion H; subst; exact Hw. Qed.
Lemma jc_bool_sound : jsound jc_bool.
Proof. intros j a _ _. exact I. Qed.
Lemma jc_bin_sound : jsound jc_bin.
Proof. intros j a _ _. exact I. Qed.
Lemma jc_uint_sound lim : jsound (jc_uint lim).
Proof.
  intros [] a Hw H; try discriminate. cbn in *. destruct (N.ltb_spec n lim); [|discriminate].
  now inversion H; subst.
Qed.
Lemma parse_uint_lt lim s n : parse_uint lim s = Some n -> n < lim.
Proof.
  unfold parse_uint. cbv zeta. match goal with |- obind ?e _ = _ -> _ => destruct e as [m|] end;
    cbn [obind]; [|discriminate].
  destruct (N.ltb_spec m lim); [|discriminate]. intro E; now inversion E; subst.
Qed.
Lemma jc_uint_str_sound lim : jsound (jc_uint_str lim).
Proof. intros [] a Hw H; try discriminate. cbn in *. eapply parse_uint_lt; eauto. Qed.
Lemma decimal_lt s n : decimal_from_string s = Some n -> n < u128_lim.
Proof.
  unfold decimal_from_string. destruct (split_on "." s) as [|w [|f [|g r]]]; try discriminate.
  - destruct (parse_u128 w) as [a|]; cbn [obind]; [|discriminate].
    destruct (N.ltb_spec (a * e18) u128_lim); [|discriminate]. intro E; now inversion E; subst.
  - destruct (parse_u128 w) as [a|]; cbn [obind]; [|discriminate].
    destruct (N.ltb_spec (a * e18) u128_lim); [|discriminate].
    destruct (parse_u128 f) as [b|]; cbn [obind]; [|discriminate].
    destruct (String.length f <=? 18)%nat; [|discriminate]. cbv zeta.
    match goal with |- (if ?x <? _ then _ else _) = _ -> _ => destruct (N.ltb_spec x u128_lim) end;
      [|discriminate]. intro E; now inversion E; subst.
Qed.
Lemma jc_decimal_sound : jsound jc_decimal.
Proof. intros [] a Hw H; try discriminate. cbn in *. eapply decimal_lt; eauto. Qed.

Lemma jc_list_sound {A} (c : jcodec A) : jsound c -> jsound (jc_list c).
Proof.
  intros Hc [] a Hw H; try discriminate. rewrite jwf_arr in Hw. cbn in *.
  revert a H. induction l as [|x l IH]; cbn in *; intros a H.
  - inversion H. constructor.
  - apply andb_prop in Hw as [Hx Hl].
    destruct (jdec c x) as [y|] eqn:Ey; cbn in H; [|discriminate].
    destruct (omap (jdec c) l) as [ys|] eqn:Eys; cbn in H; [|discriminate].
    inversion H; subst. constructor; [eapply Hc; eauto|]. apply IH; auto.
Qed.
Lemma jc_tup_sound {A B} (c : jcodec A) (d : jcodec B) : jsound c -> jsound d -> jsound (jc_tup c d).
Proof.
  intros Hc Hd [] a Hw H; try discriminate. rewrite jwf_arr in Hw.
  destruct l as [|x [|y [|z l]]]; try discriminate. cbn in *.
  rewrite !andb_true_r in Hw. apply andb_prop in Hw as [Hx Hy].
  destruct (jdec c x) eqn:E1; cbn in H; [|discriminate].
  destruct (jdec d y) eqn:E2; cbn in H; [|discriminate]. inversion H; subst. cbn. eauto.
Qed.
Lemma jc_opt_sound {A} (c : jcodec A) : jsound c -> jnn c -> jsound (jc_opt c).
Proof.
  intros Hc Hn j a Hw H. destruct a as [a|]; [|exact I]. cbn in *.
  destruct j; try discriminate;
    (destruct (jdec c _) as [x|] eqn:E; cbn in H; [|discriminate]; inversion H; subst; eauto).
Qed.
Lemma jc_map_sound {A B} (c : jcodec A) (to : B -> A) (from : A -> B) :
  (forall a, to (from a) = a) -> jsound c -> jsound (jc_map c to from).
Proof.
  intros Hi Hc j b Hw H. cbn in *. destruct (jdec c j) as [a|] eqn:E; [|discriminate].
  inversion H; subst. rewrite Hi. eauto.
Qed.

Lemma assoc_find_in {A} k (l : list (string * A)) v : assoc_find k l = Some v -> exists k', In (k', v) l.
Proof.
  induction l as [|[k' x] l IH]; cbn; [discriminate|].
  destruct (String.eqb k' k).
  - intro H; inversion H; subst. eauto.
  - intro H. apply IH in H as [k2 H]. eauto.
Qed.
Lemma o_req_sound {A} k (c : jcodec A) : jsound c -> osound (o_req k c).
Proof.
  intros Hc l a Hl H. cbn in *. destruct (assoc_find k l) as [j|] eqn:E; cbn in H; [|discriminate].
  apply assoc_find_in in E as [k' E]. eauto.
Qed.
Lemma o_opt_sound {A} k (c : jcodec A) : jsound c -> jnn c -> osound (o_opt k c).
Proof.
  intros Hc Hn l a Hl H. cbn [odec o_opt] in *. destruct (assoc_find k l) as [j|] eqn:E.
  - apply assoc_find_in in E as [k' E]. cbn [oval]. eapply jc_opt_sound; eauto.
  - inversion H; subst. exact I.
Qed.
Lemma o_skip_sound {A} k (c : jcodec A) : jsound c -> jnn c -> osound (o_skip k c).
Proof.
  intros Hc Hn l a Hl H. cbn [odec o_skip] in *. destruct (assoc_find k l) as [j|] eqn:E.
  - apply assoc_find_in in E as [k' E]. cbn [oval]. eapply jc_opt_sound; eauto.
  - inversion H; subst. exact I.
Qed.
Lemma o_vec_null_sound {A} k (c : jcodec A) : jsound c -> osound (o_vec_null k c).
Proof.
  intros Hc l a Hl H. cbn [odec o_vec_null oval] in *.
  destruct (assoc_find k l) as [j|] eqn:E; [|discriminate].
  apply assoc_find_in in E as [k' E].
  assert (D : Some a = Some [] \/ jdec (jc_list c) j = Some a) by (destruct j; auto).
  destruct D as [D|D]; [inversion D; constructor|]. eapply jc_list_sound; eauto.
Qed.
Lemma o_vec_skip_sound {A} k (c : jcodec A) : jsound c -> osound (o_vec_skip k c).
Proof.
  intros Hc l a Hl H. cbn [odec o_vec_skip oval] in *.
  destruct (assoc_find k l) as [j|] eqn:E; [|inversion H; constructor].
  apply assoc_find_in in E as [k' E].
  assert (D : Some a = Some [] \/ jdec (jc_list c) j = Some a) by (destruct j; auto).
  destruct D as [D|D]; [inversion D; constructor|]. eapply jc_list_sound; eauto.
Qed.
Lemma o_unit_sound : osound o_unit.
Proof. intros l a _ _. exact I. Qed.
Lemma o_pair_sound {A B} (a : ocodec A) (b : ocodec B) : osound a -> osound b -> osound (o_pair a b).
Proof.
  intros Ha Hb l x Hl H. cbn in *. destruct (odec a l) eqn:E1; cbn in H; [|discriminate].
  destruct (odec b l) eqn:E2; cbn in H; [|discriminate]. inversion H; subst. cbn. eauto.
Qed.
Lemma jc_struct_sound {A} deny (o : ocodec A) : osound o -> jsound (jc_struct deny o).
Proof.
  intros Ho [] a Hw H; try discriminate. rewrite jwf_obj in Hw. cbn [jdec jc_struct jval] in *.
  match type of H with (if ?b then _ else _) = _ => destruct b end; [|discriminate].
  eapply Ho; [|exact H]. intros k j Hin. rewrite forallb_forall in Hw.
  specialize (Hw _ Hin). cbn in Hw. now apply andb_prop in Hw.
Qed.
Lemma v_one_sound {A} k (c : jcodec A) : jsound c -> vsound (v_one k c).
Proof.
  intros Hc k' j a Hj H. cbn in *. destruct (String.eqb k k'); [|discriminate].
  destruct j as [j|]; cbn in H; [|discriminate]. eauto.
Qed.
Lemma v_unit_sound k : vsound (v_unit k).
Proof. intros k' j a _ _. exact I. Qed.
Lemma v_sum_sound {A B} (a : vcodec A) (b : vcodec B) : vsound a -> vsound b -> vsound (v_sum a b).
Proof.
  intros Ha Hb k j x Hj H. cbn in *. destruct (skey_in k (vkeys a)).
  - destruct (vuntag a k j) eqn:E; [|discriminate]. inversion H; subst. eauto.
  - destruct (vuntag b k j) eqn:E; [|discriminate]. inversion H; subst. eauto.
Qed.
Lemma jc_enum_sound {A} (v : vcodec A) : vsound v -> jsound (jc_enum v).
Proof.
  intros Hv j a Hw H. cbn [jval jc_enum]. destruct j; try discriminate.
  - eapply Hv; [|exact H]. discriminate.
  - destruct l as [|[k j'] [|? ?]]; try discriminate. rewrite jwf_obj in Hw.
    cbn [jdec jc_enum] in H. eapply Hv; [|exact H].
    intros j2 E; inversion E; subst. cbn in Hw. rewrite andb_true_r in Hw.
    now apply andb_prop in Hw.
Qed.

(** ** Not null *)
Lemma jnn_str : jnn jc_str. Proof. discriminate. Qed.
Lemma jnn_bin : jnn jc_bin. Proof. discriminate. Qed.
Lemma jnn_uint l : jnn (jc_uint l). Proof. discriminate. Qed.
Lemma jnn_uint_str l : jnn (jc_uint_str l). Proof. discriminate. Qed.
Lemma jnn_struct {A} d (o : ocodec A) : jnn (jc_struct d o). Proof. discriminate. Qed.
Lemma jnn_enum {A} (v : vcodec A) : jnn (jc_enum v).
Proof. intros a. cbn. destruct (vtag v a) as [k [j|]]; discriminate. Qed.
Lemma jnn_map {A B} (c : jcodec A) (t : B -> A) f : jnn c -> jnn (jc_map c t f).
Proof. intros H b. apply H. Qed.

Create HintDb jsound.
Global Hint Resolve jc_str_sound jc_bool_sound jc_bin_sound jc_uint_sound jc_uint_str_sound
  jc_decimal_sound o_unit_sound v_unit_sound : jsound.

Ltac jnn_tac := repeat first
  [ apply jnn_str | apply jnn_bin | apply jnn_uint | apply jnn_uint_str | apply jnn_struct
  | apply jnn_enum | apply jnn_map
  | match goal with |- jnn ?c => unfold c end ].
Ltac jsnd := repeat first
  [ apply o_pair_sound | apply v_sum_sound | apply o_req_sound
  | apply o_opt_sound; [|jnn_tac] | apply o_skip_sound; [|jnn_tac]
  | apply o_vec_skip_sound | apply o_vec_null_sound | apply v_one_sound | apply v_unit_sound
  | apply jc_struct_sound | apply jc_enum_sound | apply jc_list_sound | apply jc_tup_sound
  | apply jc_opt_sound; [|jnn_tac]
  | solve [eauto 2 with jsound] ].
Ltac iso := repeat match goal with
  | |- forall _, _ => intro
  | x : (_ + _)%type |- _ => destruct x
  | x : (_ * _)%type |- _ => destruct x
  | x : unit |- _ => destruct x
  end; reflexivity.
Ltac jmaps := apply jc_map_sound; [ iso | jsnd ].

Lemma jc_coin_sound : jsound jc_coin. Proof. jmaps. Qed.
Lemma jc_bytes_sound : jsound jc_bytes.
Proof.
  intros j a Hw H. cbn [jval jc_bytes jc_map jc_list]. clear. induction a as [|c a IH]; cbn; constructor.
  - apply bn_lt.
  - exact IH.
Qed.
Lemma jc_order_sound : jsound jc_order. Proof. jmaps. Qed.
Global Hint Resolve jc_coin_sound jc_bytes_sound jc_order_sound : jsound.
Lemma jc_endpoint_sound : jsound jc_endpoint. Proof. jmaps. Qed.
Global Hint Resolve jc_endpoint_sound : jsound.
Lemma jc_channel_sound : jsound jc_channel. Proof. jmaps. Qed.
Lemma jc_timestamp_sound : jsound jc_timestamp. Proof. apply jc_uint_str_sound. Qed.
Lemma jc_timeout_block_sound : jsound jc_timeout_block. Proof. jmaps. Qed.
Global Hint Resolve jc_channel_sound jc_timestamp_sound jc_timeout_block_sound : jsound.
Lemma jc_timeout_sound : jsound jc_timeout. Proof. jmaps. Qed.
Global Hint Resolve jc_timeout_sound : jsound.
Lemma jc_packet_sound : jsound jc_packet. Proof. jmaps. Qed.
Lemma jc_encoding_sound : jsound jc_encoding. Proof. jmaps. Qed.
Global Hint Resolve jc_packet_sound jc_encoding_sound : jsound.
Lemma jc_metadata_sound : jsound jc_metadata. Proof. jmaps. Qed.
Lemma jc_ica_packet_sound : jsound jc_ica_packet. Proof. jmaps. Qed.
Lemma jc_ack_sound : jsound jc_ack. Proof. jmaps. Qed.
Lemma jc_ica_info_sound : jsound jc_ica_info. Proof. jmaps. Qed.
Global Hint Resolve jc_metadata_sound jc_ica_packet_sound jc_ack_sound jc_ica_info_sound : jsound.
Lemma jc_contract_state_sound : jsound jc_contract_state. Proof. jmaps. Qed.
Lemma jc_status_sound : jsound jc_status. Proof. jmaps. Qed.
Global Hint Resolve jc_contract_state_sound jc_status_sound : jsound.
Lemma jc_channel_state_sound : jsound jc_channel_state. Proof. jmaps. Qed.
Lemma jc_options_sound : jsound jc_options. Proof. jmaps. Qed.
Lemma jc_expiration_sound : jsound jc_expiration. Proof. jmaps. Qed.
Global Hint Resolve jc_channel_state_sound jc_options_sound jc_expiration_sound : jsound.
Lemma jc_ownership_sound : jsound jc_ownership. Proof. jmaps. Qed.
Lemma jc_action_sound : jsound jc_action. Proof. jmaps. Qed.
Lemma jc_denom_unit_sound : jsound jc_denom_unit. Proof. jmaps. Qed.
Global Hint Resolve jc_ownership_sound jc_action_sound jc_denom_unit_sound : jsound.
Lemma jc_denom_metadata_sound : jsound jc_denom_metadata. Proof. jmaps. Qed.
Lemma jc_contract_info_sound : jsound jc_contract_info. Proof. jmaps. Qed.
Lemma jc_validator_sound : jsound jc_validator. Proof. jmaps. Qed.
Lemma jc_delegation_sound : jsound jc_delegation. Proof. jmaps. Qed.
Global Hint Resolve jc_denom_metadata_sound jc_contract_info_sound jc_validator_sound jc_delegation_sound : jsound.
Lemma jc_bank_response_sound : jsound jc_bank_response. Proof. jmaps. Qed.
Lemma jc_wasm_response_sound : jsound jc_wasm_response. Proof. jmaps. Qed.
Lemma jc_staking_response_sound : jsound jc_staking_response. Proof. jmaps. Qed.
Global Hint Resolve jc_bank_response_sound jc_wasm_response_sound jc_staking_response_sound : jsound.
Lemma jc_query_response_sound : jsound jc_query_response. Proof. jmaps. Qed.
Global Hint Resolve jc_query_response_sound : jsound.
Lemma jc_query_result_sound : jsound jc_query_result. Proof. jmaps. Qed.
Global Hint Resolve jc_query_result_sound : jsound.
Lemma jc_callback_sound : jsound jc_callback. Proof. jmaps. Qed.
Global Hint Resolve jc_callback_sound : jsound.
Lemma jc_receiver_sound : jsound jc_receiver. Proof. unfold jc_receiver. jsnd. Qed.
Lemma jc_paths_sound : jsound jc_paths. Proof. unfold jc_paths. jsnd. Qed.
Lemma jc_version_sound : jsound jc_version. Proof. unfold jc_version. jsnd. Qed.
Lemma jc_bank_msg_sound : jsound jc_bank_msg. Proof. jmaps. Qed.
Lemma jc_ibc_msg_sound : jsound jc_ibc_msg. Proof. jmaps. Qed.
Lemma jc_wasm_msg_sound : jsound jc_wasm_msg. Proof. jmaps. Qed.
Lemma jc_vote_option_sound : jsound jc_vote_option. Proof. jmaps. Qed.
Global Hint Resolve jc_bank_msg_sound jc_ibc_msg_sound jc_wasm_msg_sound jc_vote_option_sound : jsound.
Lemma jc_weighted_vote_sound : jsound jc_weighted_vote. Proof. jmaps. Qed.
Global Hint Resolve jc_weighted_vote_sound : jsound.
Lemma jc_gov_msg_sound : jsound jc_gov_msg. Proof. jmaps. Qed.
Lemma jc_staking_msg_sound : jsound jc_staking_msg. Proof. jmaps. Qed.
Lemma jc_dist_msg_sound : jsound jc_dist_msg. Proof. jmaps. Qed.
Global Hint Resolve jc_gov_msg_sound jc_staking_msg_sound jc_dist_msg_sound : jsound.
Lemma jc_cosmos_msg_sound : jsound jc_cosmos_msg. Proof. jmaps. Qed.
Lemma jc_page_request_sound : jsound jc_page_request. Proof. jmaps. Qed.
Global Hint Resolve jc_cosmos_msg_sound jc_page_request_sound : jsound.
Lemma jc_bank_query_sound : jsound jc_bank_query. Proof. jmaps. Qed.
Lemma jc_wasm_query_sound : jsound jc_wasm_query. Proof. jmaps. Qed.
Lemma jc_staking_query_sound : jsound jc_staking_query. Proof. jmaps. Qed.
Lemma jc_dist_query_sound : jsound jc_dist_query. Proof. jmaps. Qed.
Lemma jc_ibc_query_sound : jsound jc_ibc_query. Proof. jmaps. Qed.
Global Hint Resolve jc_bank_query_sound jc_wasm_query_sound jc_staking_query_sound jc_dist_query_sound jc_ibc_query_sound : jsound.
Lemma jc_query_request_sound : jsound jc_query_request. Proof. jmaps. Qed.
Lemma jc_instantiate_msg_sound : jsound jc_instantiate_msg. Proof. jmaps. Qed.
Global Hint Resolve jc_query_request_sound jc_instantiate_msg_sound : jsound.
Lemma jc_execute_msg_sound : jsound jc_execute_msg. Proof. jmaps. Qed.
Lemma jc_query_msg_sound : jsound jc_query_msg. Proof. jmaps. Qed.

(** ** Printed documents are valid UTF-8 *)

Lemma esc_high c : 128 <= bn c -> esc_char c = String c "".
Proof.
  intro H. unfold esc_char. rewrite !(proj2 (N.eqb_neq (bn c) _)) by lia.
  now rewrite (proj2 (N.ltb_ge _ _)) by lia.
Qed.

Lemma esc_low c : bn c < 128 -> ascii_only (esc_char c) = true.
Proof.
  intro H. rewrite <- (nb_bn c).
  apply (below_all (fun n => ascii_only (esc_char (nb n))) 128); [vm_compute; reflexivity|lia].
Qed.

Lemma esc_valid_n n : forall s, (String.length s <= n)%nat ->
  utf8_valid s = true -> utf8_valid (esc s) = true.
Proof.
  induction n as [|n IH]; intros s Hn Hs.
  - destruct s; [reflexivity|cbn in Hn; lia].
  - destruct s as [|a s]; [reflexivity|]. cbn [String.length] in Hn.
    unfold utf8_valid in Hs. cbn [utf8_cps] in Hs.
    assert (K : forall v r, (String.length r <= n)%nat ->
      is_some (option_map (cons v) (utf8_cps r)) = true -> utf8_valid (esc r) = true).
    { intros v r Hr E. apply IH; [exact Hr|]. unfold utf8_valid.
      now destruct (utf8_cps r). }
    assert (J : forall x t, utf8_valid (esc t) = true -> forall u,
       esc u = x +++ esc t -> utf8_valid x = true -> utf8_valid (esc u) = true).
    { intros x t Ht u Hu Hx. rewrite Hu. now apply utf8_valid_app. }
    destruct (bn a <? 128) eqn:E1.
    { cbn [esc]. apply utf8_valid_app; [apply ascii_only_valid, esc_low; lia|].
      eapply K; [|exact Hs]. lia. }
    destruct (between 194 223 (bn a)) eqn:E2.
    { destruct s as [|b s]; [discriminate|]. cbn [String.length] in Hn.
      destruct (cont b) eqn:Cb; [|discriminate].
      eapply (J (String a (String b ""))); [eapply K; [|exact Hs]; lia| |].
      - cbn [esc]. unfold cont, between in *. rewrite !esc_high by lia. reflexivity.
      - unfold utf8_valid. cbn [utf8_cps]. now rewrite E1, E2, Cb. }
    destruct (between 224 239 (bn a)) eqn:E3.
    { destruct s as [|b [|c s]]; try discriminate. cbn [String.length] in Hn.
      match type of Hs with is_some (if ?g then _ else _) = _ => destruct g eqn:G; [|discriminate] end.
      eapply (J (String a (String b (String c "")))); [eapply K; [|exact Hs]; lia| |].
      - cbn [esc]. rewrite !andb_true_iff in G. unfold cont, between in *.
        rewrite !esc_high by lia. reflexivity.
      - unfold utf8_valid. cbn [utf8_cps]. now rewrite E1, E2, E3, G. }
    destruct (between 240 244 (bn a)) eqn:E4; [|discriminate].
    destruct s as [|b [|c [|d s]]]; try discriminate. cbn [String.length] in Hn.
    match type of Hs with is_some (if ?g then _ else _) = _ => destruct g eqn:G; [|discriminate] end.
    eapply (J (String a (String b (String c (String d ""))))); [eapply K; [|exact Hs]; lia| |].
    + cbn [esc]. rewrite !andb_true_iff in G. unfold cont, between in *.
      rewrite !esc_high by lia. reflexivity.
    + unfold utf8_valid. cbn [utf8_cps]. now rewrite E1, E2, E3, E4, G.
Qed.

Lemma jstr_valid s : utf8_valid s = true -> utf8_valid (jstr_print s) = true.
Proof.
  intro H. unfold jstr_print. apply utf8_valid_cons; [reflexivity|].
  apply utf8_valid_app; [eapply esc_valid_n; [reflexivity|exact H]|reflexivity].
Qed.

Lemma jarr_tail_valid l : Forall (fun j => jwf j = true -> utf8_valid (jprint j) = true) l ->
  forallb jwf l = true -> utf8_valid (jarr_tail l) = true.
Proof.
  induction 1 as [|j l Hj _ IH]; [reflexivity|]. cbn [forallb jarr_tail].
  rewrite andb_true_iff. intros [H1 H2].
  apply utf8_valid_app; [reflexivity|]. apply utf8_valid_app; auto.
Qed.

Lemma jprint_valid j : jwf j = true -> utf8_valid (jprint j) = true.
Proof.
  induction j as [|b|n|s|l IH|l IH] using json_ind'; intro H.
  - reflexivity.
  - destruct b; reflexivity.
  - apply dec_valid.
  - apply jstr_valid. exact H.
  - rewrite jwf_arr in H. destruct l as [|x l]; [reflexivity|].
    inversion IH as [|? ? Hx Hl]; subst. cbn [forallb] in H. apply andb_true_iff in H as [H1 H2].
    rewrite jprint_arr. apply utf8_valid_app; [reflexivity|]. apply utf8_valid_app; [auto|].
    now apply jarr_tail_valid.
  - assert (T : forall l, Forall (fun kv => jwf (snd kv) = true -> utf8_valid (jprint (snd kv)) = true) l ->
       jwf (JObj l) = true -> utf8_valid (jobj_tail l) = true).
    { clear. induction 1 as [|[k v] l Hv _ IH]; [reflexivity|]. cbn [jobj_tail].
      intro H. cbn [jwf] in H. rewrite !andb_true_iff in H. destruct H as [[H1 H2] H3].
      repeat (apply utf8_valid_app; [first [reflexivity | now apply jstr_valid | now apply Hv]|]).
      apply IH. exact H3. }
    destruct l as [|[k v] l]; [reflexivity|]. inversion IH as [|? ? Hx Hl]; subst.
    cbn [jwf] in H. rewrite !andb_true_iff in H. destruct H as [[H1 H2] H3].
    rewrite jprint_obj.
    repeat (apply utf8_valid_app; [first [reflexivity | now apply jstr_valid | now apply Hx]|]).
    apply T; [exact Hl|exact H3].
Qed.

Lemma to_json_utf8 {A} (c : jcodec A) a : jcodec_ok c -> jval c a -> utf8_valid (to_json c a) = true.
Proof. intros H1 H2. apply jprint_valid. now apply H1. Qed.
