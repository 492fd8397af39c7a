(** * AnswerFacts: the contract's reading of answers against [AnswerSpec]. *)

From Verif Require Import Base Utf8 Text Proto ProtoFacts ProtoSound Schemas Types CosmosMsg QueryMsg
  PacketData HostSpec PacketFacts AnswerSpec.
From Coq Require Import ZifyBool ZifyNat ZifyN.
Local Open Scope string_scope.
Local Open Scope list_scope.
Local Open Scope N_scope.

(** ** Shapes of decoded messages *)

Lemma ok_nil vs : msg_ok [] vs = true -> vs = [].
Proof. destruct vs; [reflexivity|discriminate]. Qed.
Lemma ok_cons t lab k d vs : msg_ok ((t, (lab, k)) :: d) vs = true ->
  exists sl vs', vs = sl :: vs' /\ slot_ok val_ok lab k sl = true /\ msg_ok d vs' = true.
Proof.
  destruct vs as [|sl vs']; [discriminate|]. intro H.
  change (slot_ok val_ok lab k sl && msg_ok d vs' = true)%bool in H.
  apply andb_true_iff in H as [H1 H2]. eauto.
Qed.
Lemma ok_str sl : slot_ok val_ok Single KStr sl = true -> exists s, sl = [VStr s] /\ utf8 s.
Proof. destruct sl as [|[] []]; try discriminate. cbn -[utf8_valid]. intro. eexists; split; [reflexivity|assumption]. Qed.
Lemma ok_bytes sl : slot_ok val_ok Single KBytes sl = true -> exists s, sl = [VStr s].
Proof. destruct sl as [|[] []]; try discriminate. eauto. Qed.
Lemma ok_u64 sl : slot_ok val_ok Single KU64 sl = true -> exists n, sl = [VNum n] /\ n < u64_lim.
Proof. destruct sl as [|[] []]; try discriminate. cbn -[u64_lim]. intro. eexists; split; [reflexivity|lia]. Qed.
Lemma ok_u32 sl : slot_ok val_ok Single KU32 sl = true -> exists n, sl = [VNum n] /\ n < u32_lim.
Proof. destruct sl as [|[] []]; try discriminate. cbn -[u32_lim]. intro. eexists; split; [reflexivity|lia]. Qed.
Lemma ok_bool sl : slot_ok val_ok Single KBool sl = true -> exists n, sl = [VNum n] /\ n < 2.
Proof. destruct sl as [|[] []]; try discriminate. cbn. intro. eexists; split; [reflexivity|lia]. Qed.
Lemma ok_msg d sl : slot_ok val_ok Single (KMsg d) sl = true ->
  sl = [] \/ exists vs, sl = [VMsg vs] /\ msg_ok d vs = true.
Proof. destruct sl as [|[] []]; try discriminate; eauto. Qed.
Lemma ok_pack sl : slot_ok val_ok Single KPack sl = true -> exists l, sl = [VPack l] /\ Forall u64 l.
Proof.
  destruct sl as [|[] []]; try discriminate. cbn -[u64_lim]. intro H. eexists; split; [reflexivity|].
  apply Forall_forall. intros x Hx. rewrite forallb_forall in H. apply H in Hx. unfold u64. lia.
Qed.
Lemma ok_msgs d sl : slot_ok val_ok Repeated (KMsg d) sl = true ->
  exists l, sl = map VMsg l /\ Forall (fun vs => msg_ok d vs = true) l.
Proof.
  cbn [slot_ok]. induction sl as [|v sl IH]; intro H; [exists []; split; [reflexivity|constructor]|].
  cbn [forallb] in H. apply andb_true_iff in H as [H1 H2]. destruct (IH H2) as (l & -> & Hl).
  destruct v; try discriminate. exists (fields :: l). split; [reflexivity|]. constructor; assumption.
Qed.
Lemma ok_strs sl : slot_ok val_ok Repeated KStr sl = true -> exists l, sl = map VStr l /\ Forall utf8 l.
Proof.
  cbn [slot_ok]. induction sl as [|v sl IH]; intro H; [exists []; split; [reflexivity|constructor]|].
  cbn [forallb] in H. apply andb_true_iff in H as [H1 H2]. destruct (IH H2) as (l & -> & Hl).
  destruct v; try discriminate. exists (s :: l). split; [reflexivity|]. constructor; assumption.
Qed.
Lemma ok_bytess sl : slot_ok val_ok Repeated KBytes sl = true -> exists l, sl = map VStr l.
Proof.
  cbn [slot_ok]. induction sl as [|v sl IH]; intro H; [exists []; reflexivity|].
  cbn [forallb] in H. apply andb_true_iff in H as [H1 H2]. destruct (IH H2) as (l & ->).
  destruct v; try discriminate. exists (s :: l). reflexivity.
Qed.

Ltac shape :=
  repeat match goal with
  | H : msg_ok [] _ = true |- _ => apply ok_nil in H; subst
  | H : msg_ok ((_, (_, _)) :: _) _ = true |- _ => apply ok_cons in H as (? & ? & -> & ? & H)
  | H : slot_ok val_ok Single KStr _ = true |- _ => apply ok_str in H as (? & -> & ?)
  | H : slot_ok val_ok Single KBytes _ = true |- _ => apply ok_bytes in H as (? & ->)
  | H : slot_ok val_ok Single KU64 _ = true |- _ => apply ok_u64 in H as (? & -> & ?)
  | H : slot_ok val_ok Single KU32 _ = true |- _ => apply ok_u32 in H as (? & -> & ?)
  | H : slot_ok val_ok Single KBool _ = true |- _ => apply ok_bool in H as (? & -> & ?)
  | H : slot_ok val_ok Single KPack _ = true |- _ => apply ok_pack in H as (? & -> & ?)
  | H : slot_ok val_ok Single (KMsg _) _ = true |- _ => apply ok_msg in H as [->|(? & -> & H)]
  | H : slot_ok val_ok Repeated KStr _ = true |- _ => apply ok_strs in H as (? & -> & ?)
  | H : slot_ok val_ok Repeated KBytes _ = true |- _ => apply ok_bytess in H as (? & ->)
  | H : slot_ok val_ok Repeated (KMsg _) _ = true |- _ => apply ok_msgs in H as (? & -> & ?)
  end.

Ltac opt_msg d H :=
  match goal with H' : slot_ok val_ok Single (KMsg d) _ = true |- _ => rename H' into H end.

(** ** Outcomes and options *)

Definition to_opt {A} (o : outcome A) : option A := match o with Ok a => Some a | _ => None end.

Lemma to_opt_bind {A B} (o : outcome A) (f : A -> outcome B) :
  to_opt (bindo o f) = (x <-? to_opt o ;; to_opt (f x)).
Proof. destruct o; reflexivity. Qed.
Lemma to_opt_of {A} (o : option A) e : to_opt (of_option o e) = o.
Proof. destruct o; reflexivity. Qed.
Lemma to_opt_ok {A} (o : outcome A) x : to_opt o = Some x <-> o = Ok x.
Proof. destruct o; cbn; split; congruence. Qed.

Lemma to_opt_mapo {A B} (f : A -> outcome B) l : to_opt (mapo f l) = omap (fun x => to_opt (f x)) l.
Proof.
  induction l as [|x l IH]; [reflexivity|]. cbn [mapo omap]. rewrite to_opt_bind.
  destruct (to_opt (f x)); [|reflexivity]. cbn [obind]. rewrite to_opt_bind, IH.
  destruct (omap _ l); reflexivity.
Qed.

Lemma omap_map {A B C} (g : A -> B) (f : B -> option C) l : omap f (map g l) = omap (fun x => f (g x)) l.
Proof. induction l as [|x l IH]; [reflexivity|]. cbn [map omap]. now rewrite IH. Qed.
Lemma omap_ext_in {A B} (f g : A -> option B) l : (forall x, In x l -> f x = g x) -> omap f l = omap g l.
Proof.
  induction l as [|x l IH]; intro H; [reflexivity|]. cbn [omap]. rewrite (H x (or_introl eq_refl)).
  rewrite IH; [reflexivity|]. intros y Hy. apply H. now right.
Qed.
Lemma omap_some {A B} (f : A -> B) l : omap (fun x => Some (f x)) l = Some (map f l).
Proof. induction l as [|x l IH]; [reflexivity|]. cbn [omap map obind]. rewrite IH. reflexivity. Qed.

(** ** Parts of answers *)

Lemma coin_answer m : msg_ok d_coin m = true -> to_opt (convert_to_coin m) = rd_amount (VMsg m).
Proof.
  intro H. unfold d_coin, fstr in H. shape. unfold convert_to_coin, get_str, slot. cbn [rd_amount nth].
  rewrite to_opt_bind, to_opt_of. reflexivity.
Qed.

Lemma units_answer l : Forall (fun vs => msg_ok d_denom_unit vs = true) l ->
  omap rd_unit (map VMsg l)
  = Some (map (fun u => DenomUnit (get_str u 0) (get_num u 1) (get_strs u 2)) l).
Proof.
  intro H. rewrite omap_map. rewrite <- omap_some. apply omap_ext_in. intros x Hx.
  rewrite Forall_forall in H. specialize (H x Hx). unfold d_denom_unit, fstr, fu32, rstr in H. shape.
  unfold rd_unit. rewrite omap_map. cbn [rd_text]. rewrite omap_some. cbn [obind].
  unfold get_strs, slot. cbn [nth]. rewrite map_map. reflexivity.
Qed.

Lemma msgs_slot m i l : nth i m [] = map VMsg l -> get_msgs m i = l.
Proof. unfold get_msgs, slot. intros ->. rewrite map_map. apply map_id. Qed.

Lemma metadata_answer m : msg_ok d_metadata m = true ->
  rd_metadata (VMsg m) = Some (convert_to_metadata m).
Proof.
  intro H. unfold d_metadata, fstr, rmsg in H. shape.
  unfold rd_metadata, convert_to_metadata. 
  match goal with Hl : Forall _ ?l |- _ => rewrite (msgs_slot _ 1 l) by reflexivity end.
  rewrite units_answer by assumption. reflexivity.
Qed.

Lemma metadatas_answer l : Forall (fun m => msg_ok d_metadata m = true) l ->
  omap rd_metadata (map VMsg l) = Some (map convert_to_metadata l).
Proof.
  intro H. rewrite omap_map, <- omap_some. apply omap_ext_in. intros x Hx.
  rewrite Forall_forall in H. now apply metadata_answer, H.
Qed.

Lemma decimal_empty : decimal_from_string "" = None.
Proof. reflexivity. Qed.

Lemma validator_answer m : msg_ok Schemas.d_validator m = true ->
  to_opt (convert_to_validator m) = rd_validator (VMsg m).
Proof.
  intro H. unfold Schemas.d_validator, fstr, fmsg, fbool, fu32, fu64 in H.
  repeat (apply ok_cons in H as (? & ? & -> & ? & H)). apply ok_nil in H. subst.
  match goal with Hs : slot_ok _ _ _ ?x = true |- to_opt (convert_to_validator (?x :: _)) = _ =>
    apply ok_str in Hs as (op & -> & _) end.
  unfold convert_to_validator, rd_validator, get_msg, slot.
  opt_msg d_commission Hs; apply ok_msg in Hs as [->|(vs & -> & Hs)].
  - reflexivity.
  - unfold d_commission, fmsg in Hs. repeat (apply ok_cons in Hs as (? & ? & -> & ? & Hs)). apply ok_nil in Hs. subst.
    opt_msg d_commission_rates Hs; apply ok_msg in Hs as [->|(vs & -> & Hs)].
    + reflexivity.
    + unfold d_commission_rates, fstr in Hs. shape; cbn [nth unwrap_or]; unfold get_str, slot; cbn [nth];
      repeat (rewrite to_opt_bind, to_opt_of;
        match goal with |- context [decimal_from_string ?x] =>
          destruct (decimal_from_string x); [cbn [obind]|reflexivity] end);
      reflexivity.
Qed.

Lemma delegation_answer m : msg_ok d_delegation_response m = true ->
  match convert_to_delegation m with
  | None => rd_delegation (VMsg m) = Some None
  | Some o => rd_delegation (VMsg m) = (x <-? to_opt o ;; Some (Some x))
  end.
Proof.
  intro H. unfold d_delegation_response, fmsg in H.
  repeat (apply ok_cons in H as (? & ? & -> & ? & H)). apply ok_nil in H. subst.
  opt_msg d_delegation Hs. apply ok_msg in Hs as [->|(vs & -> & Hs)]; [reflexivity|].
  opt_msg d_coin Hc. apply ok_msg in Hc as [->|(cs & -> & Hc)];
    unfold d_delegation, fstr in Hs; shape.
  - reflexivity.
  - unfold convert_to_delegation, get_msg, slot. cbn [nth unwrap_or]. cbn [rd_delegation].
    rewrite to_opt_bind. rewrite <- coin_answer by assumption. destruct (convert_to_coin cs); reflexivity.
Qed.

Lemma delegations_answer l : Forall (fun m => msg_ok d_delegation_response m = true) l ->
  to_opt (filter_mapo convert_to_delegation l) = (x <-? omap rd_delegation (map VMsg l) ;; Some (somes x)).
Proof.
  induction 1 as [|m l Hm _ IH]; [reflexivity|]. cbn [filter_mapo map omap].
  assert (D := delegation_answer m Hm). destruct (convert_to_delegation m) as [o|].
  - rewrite D, to_opt_bind. destruct (to_opt o); [|reflexivity]. cbn [obind].
    rewrite to_opt_bind, IH. destruct (omap rd_delegation (map VMsg l)); reflexivity.
  - rewrite D. cbn [obind]. rewrite IH. destruct (omap rd_delegation (map VMsg l)); reflexivity.
Qed.

Lemma opt_text_eq s : non_empty s = opt_text s.
Proof. destruct s; reflexivity. Qed.

(** ** Answers *)

Lemma eqb_neq a b : String.eqb a b = false -> a <> b.
Proof. intros H E. subst. now rewrite String.eqb_refl in H. Qed.

Lemma pb_dec_bind {B} d s (f : list (list pv) -> outcome B) (g : list (list pv) -> option B) :
  (forall m, msg_ok d m = true -> to_opt (f m) = g m) ->
  to_opt (bindo (pb_dec d s) f) = match pb_decode d s with Some m => g m | None => None end.
Proof.
  intro H. unfold pb_dec. destruct (pb_decode d s) as [m|] eqn:E; [|reflexivity].
  cbn [of_option bindo]. apply H. eapply pb_decode_ok; exact E.
Qed.

Lemma opt_coin (l : list pv) (f : coin -> query_response) :
  slot_ok val_ok Single (KMsg d_coin) l = true ->
  to_opt (c <- match match l with VMsg m :: _ => Some m | _ => None end with
               | None => Ok coin_default | Some c => convert_to_coin c end ;; Ok (f c))
  = (x <-? rd_amount_opt l ;; Some (f x)).
Proof.
  intro H. apply ok_msg in H as [->|(m & -> & H)]; [reflexivity|]. rewrite to_opt_bind.
  rewrite coin_answer by assumption. reflexivity.
Qed.

Theorem answer_correct q path data sg b : query_to_protobuf q = Ok (path, data, sg) ->
  to_opt (response_of path b sg) = answer q b.
Proof.
  intro H.
  destruct q as [[d|a d|a|d|p]| |[|dl|dl v| |a]|d|p d|i|[a sm|a k|a|c]]; try discriminate H;
    cbn [query_to_protobuf req_bank req_wasm req_staking] in H;
    assert (E1 := f_equal (fun o => match o with Ok (p, _, _) => p | _ => "" end) H);
    assert (E2 := f_equal (fun o => match o with Ok (_, _, s) => s | _ => true end) H);
    cbn beta iota in E1, E2; clear H; subst path sg; [..|reflexivity| | |].
  - (* supply *)
    change (response_of SUPPLY b false) with
      (m <- pb_dec d_r_supply_of b ;;
       c <- match get_msg m 0 with None => Ok coin_default | Some c => convert_to_coin c end ;;
       Ok (RBank (RSupply c))).
    erewrite pb_dec_bind; [reflexivity|].
    intros m Hm. apply ok_cons in Hm as (l & ? & -> & Hl & Hm). apply ok_nil in Hm. subst.
    exact (opt_coin l (fun c => RBank (RSupply c)) Hl).
  - (* balance *)
    change (response_of BALANCE b false) with
      (m <- pb_dec d_r_balance b ;;
       c <- match get_msg m 0 with None => Ok coin_default | Some c => convert_to_coin c end ;;
       Ok (RBank (RBalance c))).
    erewrite pb_dec_bind; [reflexivity|].
    intros m Hm. apply ok_cons in Hm as (l & ? & -> & Hl & Hm). apply ok_nil in Hm. subst.
    exact (opt_coin l (fun c => RBank (RBalance c)) Hl).
  - (* all balances *)
    change (response_of ALL_BALANCES b false) with
      (m <- pb_dec d_r_all_balances b ;;
       cs <- mapo convert_to_coin (get_msgs m 0) ;; Ok (RBank (RAllBalances cs))).
    erewrite pb_dec_bind; [reflexivity|].
    intros m Hm. apply ok_cons in Hm as (l & ? & -> & Hl & Hm).
    apply ok_cons in Hm as (p & ? & -> & Hp & Hm). apply ok_nil in Hm. subst.
    apply ok_msgs in Hl as (cs & -> & Hl). rewrite (msgs_slot _ 0 cs) by reflexivity.
    rewrite to_opt_bind, to_opt_mapo, omap_map. rewrite Forall_forall in Hl.
    rewrite (omap_ext_in _ (fun x => rd_amount (VMsg x)) cs); [reflexivity|].
    intros x Hx. now apply coin_answer, Hl.
  - (* metadata *)
    change (response_of DENOM_METADATA b false) with
      (m <- pb_dec d_r_denom_metadata b ;;
       Ok (RBank (RDenomMetadata
         (match get_msg m 0 with None => metadata_default | Some x => convert_to_metadata x end)))).
    erewrite pb_dec_bind; [reflexivity|].
    intros m Hm. apply ok_cons in Hm as (l & ? & -> & Hl & Hm). apply ok_nil in Hm. subst.
    apply ok_msg in Hl as [->|(x & -> & Hx)]; [reflexivity|].
    rewrite metadata_answer by assumption. reflexivity.
  - (* all metadata *)
    change (response_of ALL_DENOM_METADATA b false) with
      (m <- pb_dec d_r_denoms_metadata b ;;
       Ok (RBank (RAllDenomMetadata (map convert_to_metadata (get_msgs m 0))
         (option_map (fun p => get_str p 0) (get_msg m 1))))).
    erewrite pb_dec_bind; [reflexivity|].
    intros m Hm. apply ok_cons in Hm as (l & ? & -> & Hl & Hm).
    apply ok_cons in Hm as (pg & ? & -> & Hp & Hm). apply ok_nil in Hm. subst.
    apply ok_msgs in Hl as (cs & -> & Hl). rewrite (msgs_slot _ 0 cs) by reflexivity.
    rewrite metadatas_answer by assumption.
    apply ok_msg in Hp as [->|(x & -> & Hx)]; [reflexivity|].
    unfold d_page_response, fbytes, fu64 in Hx. shape. reflexivity.
  - (* bonded denom *)
    change (response_of STAKING_PARAMS b false) with
      (m <- pb_dec d_r_params b ;; p <- of_option (get_msg m 0) (EEmptyResponse STAKING_PARAMS) ;;
       Ok (RStaking (RBondedDenom (get_str p 4)))).
    erewrite pb_dec_bind; [reflexivity|].
    intros m Hm. apply ok_cons in Hm as (l & ? & -> & Hl & Hm). apply ok_nil in Hm. subst.
    apply ok_msg in Hl as [->|(x & -> & Hx)]; [reflexivity|].
    unfold d_params, fstr, fu32, fmsg in Hx. shape; reflexivity.
  - (* all delegations *)
    change (response_of ALL_DELEGATIONS b false) with
      (m <- pb_dec d_r_delegator_delegations b ;;
       ds <- filter_mapo convert_to_delegation (get_msgs m 0) ;; Ok (RStaking (RAllDelegations ds))).
    erewrite pb_dec_bind; [reflexivity|].
    intros m Hm. apply ok_cons in Hm as (l & ? & -> & Hl & Hm).
    apply ok_cons in Hm as (p & ? & -> & Hp & Hm). apply ok_nil in Hm. subst.
    apply ok_msgs in Hl as (cs & -> & Hl). rewrite (msgs_slot _ 0 cs) by reflexivity.
    rewrite to_opt_bind, delegations_answer by assumption.
    destruct (omap rd_delegation (map VMsg cs)); reflexivity.
  - (* delegation *)
    change (response_of DELEGATION b false) with
      (m <- pb_dec d_r_delegation b ;;
       d <- otranspose (r <-? get_msg m 0 ;; convert_to_delegation r) ;;
       Ok (RStaking (RDelegation d))).
    erewrite pb_dec_bind; [reflexivity|].
    intros m Hm. apply ok_cons in Hm as (l & ? & -> & Hl & Hm). apply ok_nil in Hm. subst.
    apply ok_msg in Hl as [->|(x & -> & Hx)]; [reflexivity|].
    assert (D := delegation_answer x Hx). unfold get_msg, slot. cbn [nth obind].
    destruct (convert_to_delegation x) as [o|]; rewrite D; [|reflexivity].
    destruct o; reflexivity.
  - (* all validators *)
    change (response_of ALL_VALIDATORS b false) with
      (m <- pb_dec d_r_validators b ;;
       vs <- mapo convert_to_validator (get_msgs m 0) ;; Ok (RStaking (RAllValidators vs))).
    erewrite pb_dec_bind; [reflexivity|].
    intros m Hm. apply ok_cons in Hm as (l & ? & -> & Hl & Hm).
    apply ok_cons in Hm as (p & ? & -> & Hp & Hm). apply ok_nil in Hm. subst.
    apply ok_msgs in Hl as (cs & -> & Hl). rewrite (msgs_slot _ 0 cs) by reflexivity.
    rewrite to_opt_bind, to_opt_mapo, omap_map. rewrite Forall_forall in Hl.
    rewrite (omap_ext_in _ (fun x => rd_validator (VMsg x)) cs); [reflexivity|].
    intros x Hx. now apply validator_answer, Hl.
  - (* validator *)
    change (response_of VALIDATOR b false) with
      (m <- pb_dec d_r_validator b ;;
       v <- otranspose (option_map convert_to_validator (get_msg m 0)) ;;
       Ok (RStaking (RValidator v))).
    erewrite pb_dec_bind; [reflexivity|].
    intros m Hm. apply ok_cons in Hm as (l & ? & -> & Hl & Hm). apply ok_nil in Hm. subst.
    apply ok_msg in Hl as [->|(x & -> & Hx)]; [reflexivity|].
    rewrite <- validator_answer by assumption. unfold get_msg, slot. cbn [nth option_map].
    destruct (convert_to_validator x); reflexivity.
  - (* smart *)
    change (response_of WASM_SMART b false) with
      (m <- pb_dec d_r_smart b ;; Ok (RWasm (RSmart (get_str m 0)))).
    erewrite pb_dec_bind; [reflexivity|].
    intros m Hm. unfold d_r_smart, fbytes in Hm. shape. reflexivity.
  - (* raw *)
    change (response_of WASM_RAW b false) with
      (m <- pb_dec d_r_raw b ;; Ok (RWasm (RRaw (non_empty (get_str m 0))))).
    erewrite pb_dec_bind; [reflexivity|].
    intros m Hm. unfold d_r_raw, fbytes in Hm. shape. rewrite opt_text_eq. reflexivity.
  - (* contract info *)
    change (response_of WASM_CONTRACT_INFO b false) with
      (m <- pb_dec d_r_contract_info b ;;
       Ok (RWasm (RContractInfo (option_map (fun i =>
         ContractInfo (get_num i 0) (get_str i 1) (non_empty (get_str i 2)) false
           (non_empty (get_str i 5))) (get_msg m 1))))).
    erewrite pb_dec_bind; [reflexivity|].
    intros m Hm. apply ok_cons in Hm as (l & ? & -> & Hl & Hm).
    apply ok_cons in Hm as (p & ? & -> & Hp & Hm). apply ok_nil in Hm. subst.
    apply ok_msg in Hp as [->|(x & -> & Hx)]; [reflexivity|].
    unfold d_contract_info, fstr, fu64, fmsg in Hx. shape; cbn [get_msg slot nth option_map];
      unfold get_str, slot; cbn [nth]; rewrite !opt_text_eq; reflexivity.
Qed.

(** ** Acknowledgement results *)

Lemma last_opt_rev {A} (l : list A) : last_opt l = match rev l with [] => None | x :: _ => Some x end.
Proof.
  induction l as [|x l IH]; [reflexivity|]. cbn [last_opt rev]. destruct l as [|y l]; [reflexivity|].
  rewrite IH. cbn [rev]. destruct (rev l ++ [y]) eqn:E; [|reflexivity].
  destruct (rev l); discriminate.
Qed.

Lemma last_opt_map {A B} (f : A -> B) l : last_opt (map f l) = option_map f (last_opt l).
Proof.
  rewrite !last_opt_rev, <- map_rev. destruct (rev l); reflexivity.
Qed.

(** The host's and the contract's descriptors of the answer agree, and so does
    the choice of the last message response. *)
Theorem decode_last res :
  to_opt (decode_resp_last (AckResult res)) =
  option_map (fun hb => MqsResponse (fst hb) (snd hb)) (query_safe_response res).
Proof.
  unfold decode_resp_last, to_tx_msg_data.
  rewrite !to_opt_bind. unfold pb_dec. rewrite to_opt_of.
  unfold query_safe_response. change h_tx_msg_data with d_tx_msg_data.
  destruct (pb_decode d_tx_msg_data res) as [m|] eqn:E; [|reflexivity].
  apply pb_decode_ok in E. unfold d_tx_msg_data in E.
  apply ok_cons in E as (l0 & ? & -> & _ & E). apply ok_cons in E as (l & ? & -> & Hl & E).
  apply ok_nil in E. subst. apply ok_msgs in Hl as (anys & -> & Hl).
  cbn [obind to_opt]. rewrite (msgs_slot _ 1 anys) by reflexivity.
  rewrite <- map_rev, to_opt_bind, to_opt_of, last_opt_map, last_opt_rev.
  assert (Hr : Forall (fun vs => msg_ok d_any vs = true) (rev anys)) by now apply Forall_rev.
  destruct (rev anys) as [|a r]; [reflexivity|]. cbn [map option_map obind a_value].
  inversion Hr as [|? ? Ha _]; subst. unfold d_any, fstr, fbytes in Ha. shape.
  unfold decode_mqs_response, get_str, slot. cbn [nth]. unfold pb_dec. rewrite to_opt_bind, to_opt_of.
  change h_query_safe_response with d_msg_module_query_safe_response.
  destruct (pb_decode d_msg_module_query_safe_response _) as [m|] eqn:E2; [|reflexivity].
  apply pb_decode_ok in E2. unfold d_msg_module_query_safe_response, fu64, rbytes in E2. shape.
  cbn [obind to_opt]. rewrite omap_map. cbn [rd_text]. rewrite omap_some. cbn [obind option_map fst snd].
  rewrite map_id. unfold get_strs, slot. cbn [nth]. rewrite map_map, map_id. reflexivity.
Qed.

Lemma decode_last_ok res r : decode_resp_last (AckResult res) = Ok r <->
  query_safe_response res = Some (mq_height r, mq_responses r).
Proof.
  rewrite <- to_opt_ok, decode_last. destruct (query_safe_response res) as [[h bs]|]; cbn; split;
    intro H; try discriminate.
  - injection H as <-. reflexivity.
  - injection H as -> ->. destruct r; reflexivity.
Qed.

(** ** The query result *)

Lemma responses_spec a qs bs : length bs = length qs ->
  Forall (fun q => exists x, query_to_protobuf q = Ok x) qs ->
  match responses_of a (sent_paths qs) bs with
  | inl rs => Forall2 (fun qb x => answer (fst qb) (snd qb) = Some x) (combine qs bs) rs
  | inr _ => Exists (fun qb => answer (fst qb) (snd qb) = None) (combine qs bs)
  end.
Proof.
  intros Hl Hq. revert bs Hl. induction Hq as [|q qs [[[p d] sg] Hx] Hq IH]; intros [|b bs] Hl; try discriminate.
  - constructor.
  - cbn [sent_paths map responses_of combine]. rewrite Hx.
    assert (A := answer_correct q p d sg b Hx). specialize (IH bs (f_equal pred Hl)).
    change (map _ qs) with (sent_paths qs).
    destruct (response_of p b sg); cbn [to_opt] in A.
    + destruct (responses_of a (sent_paths qs) bs).
      * constructor; [now symmetry|exact IH].
      * now apply Exists_cons_tl.
    + apply Exists_cons_hd. now symmetry.
    + apply Exists_cons_hd. now symmetry.
Qed.

Theorem result_correct a qs h bs : Forall (fun q => exists x, query_to_protobuf q = Ok x) qs ->
  result_spec qs h bs (result_from_response a (sent_paths qs) (MqsResponse h bs)).
Proof.
  intro Hq. unfold result_from_response. cbn [mq_responses mq_height].
  assert (El : length (sent_paths qs) = length qs) by apply map_length. rewrite El.
  destruct (Nat.eqb_spec (length qs) (length bs)) as [E|E]; cbn [negb].
  - assert (R := responses_spec a qs bs (eq_sym E) Hq).
    destruct (responses_of a (sent_paths qs) bs) as [rs|e].
    + left. exists rs. now split.
    + right. split; [right; now split|now exists e].
  - right. split; [|eexists; reflexivity]. left. split; [congruence|]. unfold wrong_count. reflexivity.
Qed.

(** ** Kinds *)

Ltac kind_tac :=
  repeat match goal with
  | H : obind ?o _ = Some _ |- _ => destruct o; [cbn [obind] in H|discriminate]
  | H : match ?x with _ => _ end = Some _ |- _ => destruct x; try discriminate
  end;
  match goal with H : Some _ = Some _ |- _ => injection H as <- end; try exact I; try reflexivity.

Theorem answer_kind q b r : answer q b = Some r -> answers_kind q r.
Proof.
  intro H.
  destruct q as [[d|a d|a|d|p]| |[|dl|dl v| |a]|d|p d|i|[a sm|a k|a|c]]; try discriminate H;
    unfold answer in H; kind_tac.
Qed.
