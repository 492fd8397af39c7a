(** * PropProto: property C48, protobuf encoding. *)

From Verif Require Import Base Utf8 Proto ProtoFacts ProtoSound Schemas.
From Coq Require Import ZifyBool ZifyN.
Local Open Scope string_scope.
Local Open Scope list_scope.
Local Open Scope N_scope.

(** Every message the contract writes or reads: the messages it sends in a
    packet (src/types/cosmos_msg.rs), the transaction around them and its
    response (src/ibc/types/packet.rs), the queries and their answers
    (src/types/query_msg.rs), the channel request (src/ibc/types/stargate.rs)
    and the answer to a sent packet (src/contract.rs:279-281). *)
Definition shapes : list desc :=
  [d_coin; d_any; d_page_request; d_page_response;
   d_msg_send; d_height; d_msg_transfer; d_msg_execute; d_msg_instantiate; d_msg_instantiate2; d_msg_migrate;
   d_msg_update_admin; d_msg_clear_admin; d_msg_vote; d_weighted_vote; d_msg_vote_weighted; d_msg_delegate;
   d_msg_undelegate; d_msg_redelegate; d_msg_withdraw_reward; d_msg_set_withdraw; d_msg_fund_pool;
   d_cosmos_tx; d_msg_data; d_tx_msg_data; d_counterparty; d_channel; d_msg_channel_open_init;
   d_abci_query; d_msg_module_query_safe; d_msg_module_query_safe_response;
   d_q_balance; d_q_all_balances; d_q_denom_metadata; d_q_denoms_metadata; d_q_supply_of; d_q_contract_info; d_q_raw;
   d_q_smart; d_q_validator; d_q_validators; d_q_delegation; d_q_delegator_delegations; d_q_params;
   d_r_balance; d_r_all_balances; d_denom_unit; d_metadata; d_r_denom_metadata; d_r_denoms_metadata; d_r_supply_of;
   d_absolute_tx_position; d_contract_info; d_r_contract_info; d_r_raw; d_r_smart; d_commission_rates; d_commission;
   d_description; d_validator; d_r_validator; d_r_validators; d_delegation; d_delegation_response; d_r_delegation;
   d_r_delegator_delegations; d_params; d_r_params; d_send_packet_response].

(** Decoding what was encoded gives the message back, for every message of
    every shape ([msg_ok]: it is a value of the Rust struct). *)
Theorem C48_roundtrip : forall d m, In d shapes -> msg_ok d m = true -> slen (pb_encode d m) < u64_lim ->
  pb_decode d (pb_encode d m) = Some m.
Proof.
  intros d m Hd Hm Hs. apply pb_roundtrip; try assumption.
  assert (H : forallb desc_ok shapes = true) by (vm_compute; reflexivity).
  rewrite forallb_forall in H. now apply H.
Qed.
Definition send48 : list (list pv) :=
  [[VStr "cosmos1from"]; [VStr "cosmos1to"]; [VMsg [[VStr "uatom"]; [VStr "100"]]; VMsg [[VStr "stake"]; [VStr "7"]]]].
Example C48_roundtrip_case : In d_msg_send shapes /\ msg_ok d_msg_send send48 = true /\ slen (pb_encode d_msg_send send48) < u64_lim.
Proof. split; [cbn; tauto|]. split; vm_compute; reflexivity. Qed.

(** Different messages have different encodings. *)
Theorem C48_injective : forall d m m', In d shapes -> msg_ok d m = true -> msg_ok d m' = true ->
  slen (pb_encode d m) < u64_lim -> pb_encode d m = pb_encode d m' -> m = m'.
Proof.
  intros d m m' Hd H H' Hs E. assert (R := C48_roundtrip d m Hd H Hs). rewrite E in R, Hs.
  rewrite (C48_roundtrip d m' Hd H' Hs) in R. congruence.
Qed.

(** Whatever is decoded is a value of the Rust struct. *)
Theorem C48_decoded : forall d s m, pb_decode d s = Some m -> msg_ok d m = true.
Proof. exact pb_decode_ok. Qed.

(** ** Unknown fields

    [padded d l l']: [l'] is the fields [l] with fields of numbers not in [d]
    added, also inside of nested messages. *)
Fixpoint field_of (d : desc) (t : N) : option (label * kind) :=
  match d with [] => None | (t', x) :: r => if t' =? t then Some x else field_of r t end.
Inductive padded : desc -> list (N * wv) -> list (N * wv) -> Prop :=
| pad_nil d : padded d [] []
| pad_new d t w l l' : field_of d t = None -> padded d l l' -> padded d l ((t, w) :: l')
| pad_same d t w l l' : padded d l l' -> padded d ((t, w) :: l) ((t, w) :: l')
| pad_nested d t lab k s s' a a' l l' : field_of d t = Some (lab, KMsg k) ->
    dfields s = Some a -> dfields s' = Some a' -> padded k a a' ->
    padded d l l' -> padded d ((t, WLen s) :: l) ((t, WLen s') :: l').

Lemma merge_unknown mv d t w : field_of d t = None -> forall vs, merge_field mv d vs t w = Some vs.
Proof.
  induction d as [|[t' [lab k]] d IH]; intros H vs; [destruct vs; reflexivity|]. destruct vs as [|slot vs]; [reflexivity|].
  cbn [field_of] in H. cbn [merge_field]. destruct (t' =? t); [discriminate|]. now rewrite IH.
Qed.
Lemma merge_known mv d t w w' lab k : field_of d t = Some (lab, k) -> (forall cur, mv k cur w = mv k cur w') ->
  forall vs, merge_field mv d vs t w = merge_field mv d vs t w'.
Proof.
  intros H M. induction d as [|[t' [lab' k']] d IH]; intros vs; [discriminate|]. destruct vs as [|slot vs]; [reflexivity|].
  cbn [field_of] in H. cbn [merge_field]. destruct (t' =? t).
  - injection H as -> ->. unfold merge_slot. now destruct lab; rewrite M.
  - now rewrite IH.
Qed.
Lemma padded_merge d l l' : padded d l l' -> forall vs, merge_fields merge_val d l vs = merge_fields merge_val d l' vs.
Proof.
  induction 1 as [d|d t w l l' N P IH|d t w l l' P IH|d t lab k s s' a a' l l' F E E' PA IHA P IH]; intro vs; [reflexivity| | |]; cbn [merge_fields].
  - rewrite (merge_unknown _ _ _ _ N). cbn [obind]. apply IH.
  - destruct (merge_field merge_val d vs t w); [apply IH|reflexivity].
  - rewrite (merge_known merge_val d t (WLen s) (WLen s') lab (KMsg k) F).
    + destruct (merge_field merge_val d vs t (WLen s')); [apply IH|reflexivity].
    + intro cur. cbn [merge_val]. rewrite E, E'. cbn [obind]. cbv zeta. now rewrite IHA.
Qed.

Theorem C48_unknown_fields : forall d s s' l l', dfields s = Some l -> dfields s' = Some l' -> padded d l l' ->
  pb_decode d s' = pb_decode d s.
Proof. intros d s s' l l' E E' P. unfold pb_decode. rewrite E, E'. cbn [obind]. symmetry. now apply padded_merge. Qed.

(** In particular at the level of bytes: an extra field between two runs of
    fields. *)
Theorem C48_extra_field : forall d l1 l2 t w, Forall wire_ok l1 -> Forall wire_ok l2 -> wire_ok (t, w) -> field_of d t = None ->
  pb_decode d (efields l1 +++ efield (t, w) +++ efields l2) = pb_decode d (efields l1 +++ efields l2).
Proof.
  intros d l1 l2 t w H1 H2 Hw N. rewrite <- efields_app.
  replace (efields l1 +++ efield (t, w) +++ efields l2) with (efields (l1 ++ (t, w) :: l2)) by (now rewrite efields_app).
  eapply C48_unknown_fields; [apply dfields_efields; apply Forall_app; auto|apply dfields_efields; apply Forall_app; auto|].
  clear H1. induction l1 as [|[t1 w1] l1 IH]; cbn [app]; [|now apply pad_same].
  apply pad_new; [exact N|]. clear. induction l2 as [|[t2 w2] l2 IH]; [constructor|now apply pad_same].
Qed.

(** A balance with a third field in the coin. *)
Definition coin48 : list (N * wv) := [(1, WLen "uatom"); (2, WLen "100")].
Definition coin48' : list (N * wv) := [(1, WLen "uatom"); (9, WVar 3); (2, WLen "100")].
Example C48_unknown_case :
  dfields (efields [(1, WLen (efields coin48))]) = Some [(1, WLen (efields coin48))] /\
  dfields (efields [(1, WLen (efields coin48'))]) = Some [(1, WLen (efields coin48'))] /\
  padded d_r_balance [(1, WLen (efields coin48))] [(1, WLen (efields coin48'))] /\
  pb_decode d_r_balance (efields [(1, WLen (efields coin48))]) = Some [[VMsg [[VStr "uatom"]; [VStr "100"]]]].
Proof.
  split; [vm_compute; reflexivity|]. split; [vm_compute; reflexivity|]. split; [|vm_compute; reflexivity].
  apply (pad_nested d_r_balance 1 Single d_coin (efields coin48) (efields coin48') coin48 coin48');
    [reflexivity|vm_compute; reflexivity|vm_compute; reflexivity| |constructor].
  apply pad_same, pad_new; [reflexivity|]. apply pad_same, pad_nil.
Qed.

Print Assumptions C48_roundtrip.
Print Assumptions C48_injective.
Print Assumptions C48_decoded.
Print Assumptions C48_unknown_fields.
Print Assumptions C48_extra_field.
