(** * AnswerHost: every answer the host can encode is shown to the user as it is. *)

From Verif Require Import Base Utf8 Text Json JsonCodec Proto ProtoFacts ProtoSound Schemas Types HostSpec HostFacts AnswerSpec
  AnswerFacts.
From Coq Require Import ZifyBool ZifyNat ZifyN.
Local Open Scope string_scope.
Local Open Scope list_scope.
Local Open Scope N_scope.

Lemma all_ok {A} (f : A -> pv) (P : A -> Prop) k l :
  (forall x, P x -> val_ok k (f x) = true) -> Forall P l -> forallb (val_ok k) (map f l) = true.
Proof.
  intros H Hl. rewrite forallb_forall. intros v Hv. apply in_map_iff in Hv as (x & <- & Hx).
  apply H. rewrite Forall_forall in Hl. auto.
Qed.

Lemma u32_ltb n : u32 n -> (n <? u32_lim) = true.
Proof. unfold u32. lia. Qed.

Ltac ok1 := cbn [val_ok slots_ok slot_ok forallb andb];
  repeat (first [ assumption | reflexivity | rewrite andb_true_iff; split | apply u64_ltb; assumption
                | apply u32_ltb; assumption | apply dec_valid ]).

Ltac unf := unfold h_params, h_validator, h_delegation_response, h_commission, h_contract_info,
  h_denom_metadata, h_denom_unit, h_page_response, h_coin, h_time, h_any, s_, b_, u_, i_, f_, m_, ms_, ss_, bs_,
  ts, tn, ti in *.

Lemma w_coin_ok c : wf_hcoin c -> val_ok (KMsg h_coin) (w_coin c) = true.
Proof. intros [H1 H2]. unfold w_coin. unf. unfold utf8 in *. ok1. Qed.
Lemma w_unit_ok u : wf_hunit u -> val_ok (KMsg h_denom_unit) (w_unit u) = true.
Proof.
  intros (H1 & H2 & H3). unfold w_unit. unf. unfold utf8 in *. ok1.
  apply (all_ok VStr utf8 KStr); [|assumption]. intros x Hx. exact Hx.
Qed.
Lemma w_metadata_ok m : wf_hmetadata m -> val_ok (KMsg h_denom_metadata) (w_metadata m) = true.
Proof.
  intros (H1 & H2 & H3 & H4 & H5 & H6 & H7 & H8). unfold w_metadata, h_denom_metadata. unf. unfold utf8 in *. ok1.
  apply (all_ok w_unit wf_hunit (KMsg h_denom_unit)); [apply w_unit_ok|assumption].
Qed.
Lemma w_page_ok p : wf_hpage p -> slot_ok val_ok Single (KMsg h_page_response) (w_page p) = true.
Proof. destruct p as [[k n]|]; intro H; [|reflexivity]. unfold w_page. unf. cbn [wf_hpage] in H. ok1. Qed.
Lemma w_any_ok p : wf_hany p -> slot_ok val_ok Single (KMsg h_any) (w_any p) = true.
Proof. destruct p as [[k n]|]; intro H; [|reflexivity]. unfold w_any. unf. cbn [wf_hany] in H. unfold utf8 in *. ok1. Qed.
Lemma w_time_ok p : wf_htime p -> slot_ok val_ok Single (KMsg h_time) (w_time p) = true.
Proof. intros [H1 H2]. unfold w_time. unf. ok1. Qed.
Lemma w_validator_ok v : wf_hvalidator v -> val_ok (KMsg h_validator) (w_validator v) = true.
Proof.
  unfold wf_hvalidator, w_validator. destruct (hv_description v) as [[[[d1 d2] d3] d4] d5].
  intros (H1 & H2 & H3 & (H4 & H5 & H6 & H7 & H8) & H9 & H10 & H11 & H12 & H13 & H14 & H15 & H16).
  assert (W1 := w_any_ok _ H2). destruct H10, H14. unfold w_time.
  assert (Hj : ((if hv_jailed v then 1 else 0) <? 2) = true) by now destruct (hv_jailed v).
  assert (Hids : forallb (fun n => n <? u64_lim) (hv_ids v) = true).
  { rewrite forallb_forall. intros n Hn. apply u64_ltb. rewrite Forall_forall in H16. auto. }
  unf. unfold utf8 in *. cbn [val_ok slots_ok]. rewrite W1. ok1.
Qed.
Lemma w_delegation_ok d b : wf_hdelegation (d, b) -> val_ok (KMsg h_delegation_response) (w_delegation d b) = true.
Proof.
  destruct d as [[x v] sh]. intros (H1 & H2 & H3). assert (W := w_coin_ok _ H3).
  unfold w_delegation. unf. unfold utf8 in *. cbn [val_ok slots_ok slot_ok forallb] in *. rewrite W. ok1.
Qed.

Lemma rd_amount_w c : wf_hcoin c -> rd_amount (w_coin c) = Some (coin_of c).
Proof.
  intros [H1 H2]. destruct c as [d n]. unfold w_coin, ts, ti, coin_of. cbn [fst snd] in *. cbn [rd_amount].
  unfold parse_u128. rewrite parse_uint_dec by assumption. reflexivity.
Qed.
Lemma omap_w {A B} (w : A -> pv) (rd : pv -> option B) (f : A -> B) (P : A -> Prop) l :
  (forall x, P x -> rd (w x) = Some (f x)) -> Forall P l -> omap rd (map w l) = Some (map f l).
Proof. intros H Hl. apply Base.omap_map. intros x Hx. rewrite Forall_forall in Hl. auto. Qed.
Lemma rd_unit_w u : rd_unit (w_unit u) = Some u.
Proof.
  unfold w_unit, rd_unit, ts, tn. rewrite (Base.omap_map rd_text VStr (fun x => x)) by reflexivity.
  rewrite map_id. destruct u; reflexivity.
Qed.
Lemma rd_metadata_w m : rd_metadata (w_metadata m) = Some m.
Proof.
  unfold w_metadata, rd_metadata, ts. rewrite (Base.omap_map rd_unit w_unit (fun x => x)) by (intros; apply rd_unit_w).
  rewrite map_id. destruct m; reflexivity.
Qed.

(** A rate the host writes as [r] is read as [r] whole units. *)
Lemma rate_scaled r : r <= 10 ^ 18 -> decimal_from_string (dec r) = Some (r * 10 ^ 18).
Proof.
  intro H. unfold decimal_from_string. rewrite split_on_none by (apply digits_no_dot, dec_digits).
  assert (r < u128_lim) by (unfold u128_lim; lia).
  unfold parse_u128. rewrite parse_uint_dec by assumption. cbn [obind].
  change (10 ^ 18) with e18 in *. destruct (N.ltb_spec (r * e18) u128_lim) as [|E]; [reflexivity|].
  unfold u128_lim, e18 in *. lia.
Qed.

Definition scaled_validator (v : host_validator) : validator :=
  Validator (hv_operator v) (hv_rate v * 10 ^ 18) (hv_max_rate v * 10 ^ 18) (hv_max_change v * 10 ^ 18).

Lemma rd_validator_w v : wf_hvalidator v -> rd_validator (w_validator v) = Some (scaled_validator v).
Proof.
  unfold wf_hvalidator, w_validator. destruct (hv_description v) as [[[[d1 d2] d3] d4] d5].
  intros (_ & _ & _ & _ & _ & _ & H1 & H2 & H3 & _).
  unfold rd_validator, ts, tn, ti, w_time. rewrite !rate_scaled by assumption. reflexivity.
Qed.
Lemma rd_delegation_w d b : wf_hdelegation (d, b) ->
  rd_delegation (w_delegation d b) =
  Some (Some (let '(x, v, _) := d in Delegation x v (coin_of b))).
Proof.
  destruct d as [[x v] sh]. intros (H1 & H2 & H3). unfold w_delegation, rd_delegation, ts, ti.
  rewrite rd_amount_w by assumption. reflexivity.
Qed.
Lemma somes_map {A B} (f : A -> B) l : somes (map (fun x => Some (f x)) l) = map f l.
Proof. induction l as [|x l IH]; [reflexivity|]. cbn. now rewrite IH. Qed.

Ltac rtb :=
  match goal with |- context [pb_decode ?h (pb_encode ?h ?m0)] =>
    rewrite (pb_roundtrip h m0); [ | reflexivity | | assumption ]
  end.

Theorem answer_shown q a : fits q a -> wf_answer a -> slen (answer_bytes a) < u64_lim ->
  exists r, answer q (answer_bytes a) = Some r /\ shows q a r.
Proof.
  intros F W L.
  destruct q as [[d|ad d|ad|d|p]| |[|dl|dl v| |ad]|d|p d|i|[ad sm|ad k|ad|c]], a; try contradiction F;
    cbn [answer_bytes wf_answer] in *; unfold answer.
  - rtb; [|unfold msg_ok, m_; cbn [slots_ok slot_ok forallb]; rewrite w_coin_ok by assumption; reflexivity].
    cbn [rd_amount_opt]. rewrite rd_amount_w by assumption. eexists; split; reflexivity.
  - rtb; [|unfold msg_ok, m_; cbn [slots_ok slot_ok forallb]; rewrite w_coin_ok by assumption; reflexivity].
    cbn [rd_amount_opt]. rewrite rd_amount_w by assumption. eexists; split; reflexivity.
  - destruct W as [W1 W2]. rtb.
    + rewrite (omap_w w_coin rd_amount coin_of wf_hcoin) by (assumption || apply rd_amount_w).
      eexists; split; reflexivity.
    + assert (X := w_page_ok _ W2). unfold msg_ok, ms_, m_. cbn [slots_ok]. rewrite X. cbn [slot_ok].
      rewrite (all_ok w_coin wf_hcoin) by (assumption || apply w_coin_ok). reflexivity.
  - rtb.
    + rewrite rd_metadata_w. eexists; split; reflexivity.
    + unfold msg_ok, m_. cbn [slots_ok slot_ok]. rewrite w_metadata_ok by assumption. reflexivity.
  - destruct W as [W1 W2]. rtb.
    + rewrite (omap_w w_metadata rd_metadata (fun x => x) wf_hmetadata) by (assumption || intros; apply rd_metadata_w).
      rewrite map_id. destruct page as [[k n]|]; eexists; split; reflexivity.
    + assert (X := w_page_ok _ W2). unfold msg_ok, ms_, m_. cbn [slots_ok]. rewrite X. cbn [slot_ok].
      rewrite (all_ok w_metadata wf_hmetadata) by (assumption || apply w_metadata_ok). reflexivity.
  - destruct W as (W1 & W2 & W3 & W4 & W5). rtb.
    + eexists; split; reflexivity.
    + destruct W1. unfold msg_ok, w_time. unf. unfold utf8 in *. ok1.
  - destruct W as [W1 W2]. rtb.
    + rewrite (omap_w (fun '(d, b) => w_delegation d b) rd_delegation
        (fun x => Some (let '(x, v, _, b) := x in Delegation x v (coin_of b))) wf_hdelegation).
      * cbn [obind]. rewrite somes_map. eexists; split; reflexivity.
      * intros [[[x v] sh] b] H. rewrite rd_delegation_w by assumption. reflexivity.
      * assumption.
    + assert (X := w_page_ok _ W2). unfold msg_ok, ms_, m_. cbn [slots_ok]. rewrite X. cbn [slot_ok].
      rewrite (all_ok (fun '(d, b) => w_delegation d b) wf_hdelegation); [reflexivity| |assumption].
      intros [d b]. apply w_delegation_ok.
  - destruct d as [[x v'] sh]. rtb.
    + rewrite rd_delegation_w by assumption. eexists; split; reflexivity.
    + unfold msg_ok, m_. cbn [slots_ok slot_ok]. rewrite w_delegation_ok by assumption. reflexivity.
  - destruct W as [W1 W2]. rtb.
    + rewrite (omap_w w_validator rd_validator scaled_validator wf_hvalidator) by (assumption || apply rd_validator_w).
      eexists; split; [reflexivity|]. eexists; split; [reflexivity|].
      clear. induction vs; constructor; [reflexivity|assumption].
    + assert (X := w_page_ok _ W2). unfold msg_ok, ms_, m_. cbn [slots_ok]. rewrite X. cbn [slot_ok].
      rewrite (all_ok w_validator wf_hvalidator) by (assumption || apply w_validator_ok). reflexivity.
  - rtb.
    + rewrite rd_validator_w by assumption. eexists; split; [reflexivity|].
      eexists; split; reflexivity.
    + unfold msg_ok, m_. cbn [slots_ok slot_ok]. rewrite w_validator_ok by assumption. reflexivity.
  - rtb; [|reflexivity]. eexists; split; reflexivity.
  - rtb; [|reflexivity]. eexists; split; reflexivity.
  - destruct W as (W1 & W2 & W3 & W4 & W5 & W6 & W7 & W8). rtb.
    + eexists; split; reflexivity.
    + destruct extension as [[eu ev]|], created as [[h i]|]; cbn [wf_hany] in W8; try destruct W6;
        unfold msg_ok, w_any, w_time; unf; unfold utf8 in *; cbn [fst snd] in *; ok1.
Qed.

(** The rates shown to the user are the true ones times 10^18. *)
Theorem validator_rates ad v : wf_hvalidator v -> slen (answer_bytes (HAValidator v)) < u64_lim ->
  answer (QStaking (QValidator ad)) (answer_bytes (HAValidator v))
  = Some (RStaking (RValidator (Some (scaled_validator v)))).
Proof.
  intros W L. cbn [answer_bytes] in *. unfold answer. rtb.
  - rewrite rd_validator_w by assumption. reflexivity.
  - unfold msg_ok, m_. cbn [slots_ok slot_ok]. rewrite w_validator_ok by assumption. reflexivity.
Qed.
