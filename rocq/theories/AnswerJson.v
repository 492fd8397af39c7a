(** * AnswerJson: every query result can be written as JSON and read back. *)

From Verif Require Import Base Utf8 Text Json JsonCodec JsonTypes JsonSound Proto ProtoFacts ProtoSound Schemas Types
  QueryMsg HostSpec HostFacts PacketFacts AnswerSpec AnswerFacts.
Local Open Scope string_scope.
Local Open Scope list_scope.
Local Open Scope N_scope.

Lemma omap_Forall {A B} (f : A -> option B) (P : A -> Prop) (Q : B -> Prop) l r :
  (forall x y, P x -> f x = Some y -> Q y) -> Forall P l -> omap f l = Some r -> Forall Q r.
Proof.
  intros H Hl. revert r. induction Hl as [|x l Hx _ IH]; intros r E.
  - injection E as <-. constructor.
  - cbn [omap] in E. apply obind_some in E as (y & Ey & E). apply obind_some in E as (ys & Eys & E).
    injection E as <-. constructor; eauto.
Qed.

Lemma rd_amount_jval v c : val_ok (KMsg h_coin) v = true -> rd_amount v = Some c -> jval jc_coin c.
Proof.
  intros H E. destruct v as [| | |m]; try discriminate. cbn [val_ok] in H.
  change (msg_ok h_coin m = true) in H. unfold h_coin, s_ in H. shape.
  cbn [rd_amount] in E. apply obind_some in E as (n & En & E). injection E as <-.
  split; [assumption|]. eapply parse_uint_lt. exact En.
Qed.

Lemma rd_amount_opt_jval l c : slot_ok val_ok Single (KMsg h_coin) l = true ->
  rd_amount_opt l = Some c -> jval jc_coin c.
Proof.
  intros H E. destruct l as [ | v [ | ]]; try discriminate.
  - injection E as <-. split; reflexivity.
  - eapply rd_amount_jval; eassumption.
Qed.

Lemma rd_text_utf8 v s : val_ok KStr v = true -> rd_text v = Some s -> utf8 s.
Proof. destruct v; try discriminate. cbn [val_ok rd_text]. intros H E. injection E as <-. exact H. Qed.

Lemma forallb_Forall {A} (p : A -> bool) l : forallb p l = true -> Forall (fun x => p x = true) l.
Proof. rewrite forallb_forall, Forall_forall. auto. Qed.

Lemma rd_unit_jval v u : val_ok (KMsg h_denom_unit) v = true -> rd_unit v = Some u -> jval jc_denom_unit u.
Proof.
  intros H E. destruct v as [| | |m]; try discriminate. change (msg_ok h_denom_unit m = true) in H.
  unfold h_denom_unit, s_, i_, ss_ in H. shape. cbn [rd_unit] in E.
  rewrite omap_map in E. cbn [rd_text] in E. rewrite omap_some in E. cbn [obind] in E. injection E as <-.
  rewrite map_id. split; [assumption|]. split; [assumption|]. assumption.
Qed.

Lemma rd_metadata_jval v u : val_ok (KMsg h_denom_metadata) v = true -> rd_metadata v = Some u ->
  jval jc_denom_metadata u.
Proof.
  intros H E. destruct v as [| | |m]; try discriminate. change (msg_ok h_denom_metadata m = true) in H.
  unfold h_denom_metadata, s_, ms_ in H. shape. cbn [rd_metadata] in E.
  apply obind_some in E as (us & Eu & E). injection E as <-.
  split; [assumption|]. split; [|cbn; repeat split; assumption].
  rewrite omap_map in Eu. change (Forall (jval jc_denom_unit) us). eapply omap_Forall; [|eassumption|exact Eu].
  cbn beta. intros y u Hx. now apply rd_unit_jval.
Qed.

Lemma rd_validator_jval v u : val_ok (KMsg h_validator) v = true -> rd_validator v = Some u -> jval jc_validator u.
Proof.
  intros H E. destruct v as [| | |m]; try discriminate. change (msg_ok h_validator m = true) in H.
  unfold h_validator in H. apply ok_cons in H as (l & ? & -> & Hl & H). apply ok_str in Hl as (op & -> & Ho).
  repeat (apply ok_cons in H as (? & ? & -> & ? & H)). apply ok_nil in H. subst.
  cbn [rd_validator] in E.
  match type of E with (let '(p, cc) := ?X in _) = _ => destruct X as [[ra rb] rc] end.
  apply obind_some in E as (y1 & E1 & E). apply obind_some in E as (y2 & E2 & E).
  apply obind_some in E as (y3 & E3 & E). injection E as <-.
  split; [assumption|]. cbn -[u128_lim]. repeat split; eapply decimal_lt; eassumption.
Qed.

Lemma rd_delegation_jval v u : val_ok (KMsg h_delegation_response) v = true -> rd_delegation v = Some (Some u) ->
  jval jc_delegation u.
Proof.
  intros H E. destruct v as [| | |m]; try discriminate. change (msg_ok h_delegation_response m = true) in H.
  unfold h_delegation_response, m_ in H. apply ok_cons in H as (l & ? & -> & Hl & H).
  apply ok_cons in H as (bal & ? & -> & Hb & H). apply ok_nil in H. subst.
  apply ok_msg in Hl as [->|(d & -> & Hd)]; [discriminate|]. 
  unfold s_ in Hd. apply ok_cons in Hd as (? & ? & -> & H1 & Hd). apply ok_cons in Hd as (? & ? & -> & H2 & Hd).
  apply ok_cons in Hd as (? & ? & -> & H3 & Hd). apply ok_nil in Hd. subst.
  apply ok_str in H1 as (? & -> & H1). apply ok_str in H2 as (? & -> & H2).
  cbn [rd_delegation] in E. apply obind_some in E as (c & Ec & E). injection E as <-.
  split; [assumption|]. split; [assumption|].
  destruct bal as [ | b [ | ]]; try discriminate. eapply rd_amount_jval; eassumption.
Qed.

Lemma somes_Forall {A} (P : A -> Prop) l : Forall (fun o => forall x, o = Some x -> P x) l -> Forall P (somes l).
Proof.
  induction 1 as [|[x|] l Hx _ IH]; cbn [somes]; [constructor| |assumption]. constructor; auto.
Qed.

Ltac no_null := let H := fresh in intro H; vm_compute in H; discriminate H.

Lemma opt_text_jval d : jval (jc_opt jc_bin) (opt_text d).
Proof. unfold opt_text. destruct (String.eqb d ""); [exact I|]. split; [exact I|discriminate]. Qed.
Lemma opt_text_jval_str d : utf8 d -> jval (jc_opt jc_str) (opt_text d).
Proof. intro. unfold opt_text. destruct (String.eqb d ""); [exact I|]. split; [assumption|discriminate]. Qed.

Lemma amounts_jval l cs : slot_ok val_ok Repeated (KMsg h_coin) l = true -> omap rd_amount l = Some cs ->
  Forall (jval jc_coin) cs.
Proof.
  cbn [slot_ok]. intros H E. apply forallb_Forall in H. eapply omap_Forall; [|exact H|exact E].
  intros x y Hx. cbn beta in Hx. now apply rd_amount_jval.
Qed.

(** Every answer is a value the JSON codec writes and reads back. *)
Theorem answer_jval q b r : wf_query q -> answer q b = Some r -> jval jc_query_response r.
Proof.
  intros W E. destruct q; cbn [answer] in E; try discriminate.
  all: repeat match type of E with
    | match ?q with _ => _ end = Some _ => is_var q; destruct q; try discriminate
    end.
  all: try match type of E with match ?X with _ => _ end = _ => let D := fresh "D" in
    destruct X as [vs|] eqn:D; [apply pb_decode_ok in D; unfold ms_, m_, s_, b_ in D |discriminate] end.
  all: try (apply ok_cons in D as (sl & ? & -> & Hs & D); 
    try (apply ok_cons in D as (sl2 & ? & -> & Hs2 & D)); apply ok_nil in D; subst).
  all: try (apply obind_some in E as (x & Ex & E); injection E as <-).
  - eapply rd_amount_opt_jval; eassumption.
  - eapply rd_amount_opt_jval; eassumption.
  - eapply amounts_jval; eassumption.
  - apply ok_msg in Hs as [->|(m & -> & Hm)].
    + injection E as <-. split; [reflexivity|]. split; [constructor|]. do 5 (split; [exact eq_refl|]). exact eq_refl.
    + apply obind_some in E as (x & Ex & E); injection E as <-. eapply rd_metadata_jval; [|eassumption]; assumption.
  - apply obind_some in E as (x & Ex & E). apply obind_some in E as (k & Ek & E). injection E as <-.
    cbn [slot_ok] in Hs. apply forallb_Forall in Hs. split.
    + change (Forall (jval jc_denom_metadata) x). eapply omap_Forall; [|exact Hs|exact Ex].
      cbn beta. intros v y Hy. now apply rd_metadata_jval.
    + destruct k; [|exact I]. split; [exact I|discriminate].
  - apply ok_msg in Hs as [->|(m & -> & Hm)]; [discriminate|]. unfold h_params, m_, i_, s_ in Hm.
    apply ok_cons in Hm as (? & ? & -> & _ & Hm). shape. injection E as <-. assumption.
  - cbn [slot_ok] in Hs. apply forallb_Forall in Hs. change (Forall (jval jc_delegation) (somes x)).
    apply somes_Forall. eapply omap_Forall; [|exact Hs|exact Ex]. cbn beta. intros v y Hv Ey z ->.
    eapply rd_delegation_jval; [|eassumption]; assumption.
  - apply ok_msg in Hs as [->|(m & -> & Hm)].
    + injection E as <-. exact I.
    + apply obind_some in E as (x & Ex & E). injection E as <-. destruct x as [x|]; [|exact I].
      split; [|discriminate]. eapply rd_delegation_jval; [|eassumption]; assumption.
  - cbn [slot_ok] in Hs. apply forallb_Forall in Hs. change (Forall (jval jc_validator) x).
    eapply omap_Forall; [|exact Hs|exact Ex]. cbn beta. intros v y Hv Ey.
    eapply rd_validator_jval; [|eassumption]; assumption.
  - apply ok_msg in Hs as [->|(m & -> & Hm)].
    + injection E as <-. exact I.
    + apply obind_some in E as (x & Ex & E). injection E as <-.
      split; [|discriminate]. eapply rd_validator_jval; [|eassumption]; assumption.
  - injection E as <-. split; [exact I|]. apply W.
  - apply ok_bytes in Hs as (d & ->). injection E as <-. exact I.
  - apply ok_bytes in Hs as (d & ->). injection E as <-. apply opt_text_jval.
  - apply ok_msg in Hs2 as [->|(m & -> & Hm)].
    + injection E as <-. exact I.
    + unfold h_contract_info, u_, s_, m_ in Hm. apply ok_cons in Hm as (l1 & ? & -> & H1 & Hm).
      apply ok_cons in Hm as (l2 & ? & -> & H2 & Hm). apply ok_cons in Hm as (l3 & ? & -> & H3 & Hm).
      apply ok_cons in Hm as (l4 & ? & -> & H4 & Hm). apply ok_cons in Hm as (l5 & ? & -> & H5 & Hm).
      apply ok_cons in Hm as (l6 & ? & -> & H6 & Hm). apply ok_cons in Hm as (l7 & ? & -> & H7 & Hm).
      apply ok_nil in Hm. subst. clear H5 H7. shape. injection E as <-.
      split; [|discriminate]. split; [assumption|]. split; [assumption|].
      split; [now apply opt_text_jval_str|]. split; [exact I|now apply opt_text_jval_str].
Qed.

Lemma paired_answers qs bs rs : Forall wf_query qs ->
  Forall2 (fun qb x => answer (fst qb) (snd qb) = Some x) (combine qs bs) rs ->
  Forall (jval jc_query_response) rs.
Proof.
  intro W. revert bs rs. induction W as [|q qs Hq _ IH]; intros bs rs F.
  - inversion F. constructor.
  - destruct bs as [|b bs]; [inversion F; constructor|]. cbn [combine] in F.
    inversion F as [|qb y l1 l2 E F']; subst. constructor; [|now apply (IH bs)].
    apply (answer_jval q b); assumption.
Qed.

Lemma result_jval qs h bs r : Forall wf_query qs -> h < u64_lim -> result_spec qs h bs r ->
  (forall e, r = QRError e -> utf8 e) -> jval jc_query_result r.
Proof.
  intros W Hh [(rs & _ & F & ->)|(_ & e & ->)] He; [|exact (He e eq_refl)].
  split; [assumption|]. change (Forall (jval jc_query_response) rs). eapply paired_answers; eassumption.
Qed.

Lemma reply_height res h bs : query_safe_response res = Some (h, bs) -> h < u64_lim.
Proof.
  unfold query_safe_response. intro E.
  destruct (pb_decode h_tx_msg_data res) as [[|? [|rs [ | ]]]|]; try discriminate.
  destruct (rev rs) as [|[| | |[|? [|[|[] [ | ]] [ | ]]]] ?]; try discriminate.
  destruct (pb_decode h_query_safe_response s) as [vs|] eqn:D; [|discriminate]. apply pb_decode_ok in D.
  unfold h_query_safe_response, u_, bs_ in D. shape. apply obind_some in E as (y & _ & E). now injection E as <- _.
Qed.
