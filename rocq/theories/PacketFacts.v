(** * PacketFacts: the packet and the channel message, read by the other side. *)

From Verif Require Import Base Utf8 Text Base64 Proto ProtoFacts Schemas Json JsonCodec Types
  JsonTypes JsonSound Store CosmosMsg QueryMsg Metadata Stargate PacketData HostSpec HostFacts.
From Coq Require Import ZifyBool ZifyNat ZifyN.
Local Open Scope string_scope.
Local Open Scope list_scope.
Local Open Scope N_scope.

(** ** Injectivity of the conversion *)

Lemma vote_number_inj a b : vote_number a = vote_number b -> a = b.
Proof. destruct a, b; intro H; try discriminate; reflexivity. Qed.

Lemma meaning_injective m m' a h : meaning m a = Some h -> meaning m' a = Some h -> same_msg m m'.
Proof.
  intros M M'.
  destruct m as [[]| |[]|[]| |[]|[]|[]]; cbn in M; inversion M; subst; clear M;
  destruct m' as [[]| |[]|[]| |[]|[]|[]]; cbn in M'; inversion M'; subst; clear M';
  repeat match goal with
  | H : map amt _ = map amt _ |- _ => apply (map_inj _ amt_inj) in H; subst
  | H : (c_denom ?c, c_amount ?c) = amt _ |- _ => apply amt_inj in H; subst
  | H : amt _ = amt _ |- _ => apply amt_inj in H; subst
  | H : vote_number _ = vote_number _ |- _ => apply vote_number_inj in H; subst
  end;
  try reflexivity; try (unfold same_msg, same_text; auto 6; fail).
  all: try (match goal with H1 : c_denom ?c = c_denom ?d, H2 : c_amount ?c = c_amount ?d |- _ =>
     assert (c = d) by (destruct c, d; cbn in *; congruence); subst end); try reflexivity.
  - unfold same_msg, same_text. repeat split; auto.
    destruct (to_block t) as [[]|], (to_block t0) as [[]|]; cbn in *; congruence.
  - unfold same_msg. f_equal. f_equal. eapply map_inj; [|symmetry; eassumption].
    intros [o1 w1] [o2 w2] E. inversion E as [[E1 E2]]. apply vote_number_inj in E1. now subst.
Qed.

Theorem convert_injective m m' a x :
  wf_msg m -> wf_msg m' -> utf8 a ->
  (forall u v, m <> MStargate u v) -> (forall u v, m' <> MStargate u v) ->
  convert_to_proto_any m a = Ok x -> convert_to_proto_any m' a = Ok x ->
  slen (a_value x) < u64_lim -> same_msg m m'.
Proof.
  intros Hw Hw' Ha Hn Hn' H H' Hs.
  assert (C := convert_carries _ _ _ Hw Ha H Hs).
  assert (C' := convert_carries _ _ _ Hw' Ha H' Hs).
  assert (E : exists h, meaning m a = Some h /\ meaning m' a = Some h).
  { destruct m; [| | | | exfalso; eapply Hn; reflexivity | | |];
    (destruct m'; [| | | | exfalso; eapply Hn'; reflexivity | | |]);
    destruct C as (h & M & D), C' as (h' & M' & D'); rewrite D in D'; inversion D'; subst; eauto. }
  destruct E as (h & M & M'). eapply meaning_injective; eassumption.
Qed.

(** ** Sizes *)

Lemma efields_len l f s : In f l -> snd f = WLen s ->
  (String.length s <= String.length (efields l))%nat.
Proof.
  intros Hin Hs. apply in_split in Hin as (l1 & l2 & ->).
  rewrite efields_app. change (efields (f :: l2)) with (efield f +++ efields l2).
  rewrite !slen_app. destruct f as [t w]. cbn [snd] in Hs. subst w.
  unfold efield. cbn [fst snd]. rewrite !slen_app. lia.
Qed.

Lemma any_len x l : In x l ->
  slen (a_value x) <= slen (pb_encode d_cosmos_tx [map proto_any l]).
Proof.
  intro Hin. unfold pb_encode, d_cosmos_tx, rmsg. cbn [wires]. rewrite app_nil_r.
  assert (H : In (1, to_wire (KMsg d_any) (proto_any x))
     (map (fun v => (1, to_wire (KMsg d_any) v)) (filter (written Repeated) (map proto_any l)))).
  { apply in_map_iff. exists (proto_any x). split; [reflexivity|]. apply filter_In.
    split; [now apply in_map|reflexivity]. }
  assert (L := efields_len _ _ (efields (wires to_wire d_any [str (a_url x); str (a_value x)])) H eq_refl).
  unfold slen.
  enough (String.length (a_value x) <=
     String.length (efields (wires to_wire d_any [str (a_url x); str (a_value x)])))%nat by lia.
  destruct (sempty (a_value x)) eqn:E.
  - apply sempty_spec in E. rewrite E. cbn. lia.
  - eapply (efields_len _ (2, WLen (a_value x))); [|reflexivity].
    unfold d_any, fstr, fbytes, str. cbn [wires]. apply in_or_app. right. apply in_or_app. left.
    cbn [filter written is_default]. rewrite E. now left.
Qed.

Lemma request_len a (reqs : list abci) p d sg : In (p, d, sg) reqs ->
  slen d <= slen (pb_encode d_msg_module_query_safe
    [str a; map (fun '(path, data, _) => VMsg [str path; str data]) reqs]).
Proof.
  intro Hin. unfold pb_encode, d_msg_module_query_safe, fstr, rmsg. cbn [wires].
  rewrite app_nil_r, efields_app. unfold slen. rewrite slen_app.
  assert (H : In (2, to_wire (KMsg d_abci_query) (VMsg [str p; str d]))
     (map (fun v => (2, to_wire (KMsg d_abci_query) v)) (filter (written Repeated)
        (map (fun '(path, data, _) => VMsg [str path; str data]) reqs)))).
  { apply in_map_iff. exists (VMsg [str p; str d]). split; [reflexivity|]. apply filter_In.
    split; [|reflexivity]. apply in_map_iff. now exists (p, d, sg). }
  assert (L := efields_len _ _ (efields (wires to_wire d_abci_query [str p; str d])) H eq_refl).
  enough (String.length d <=
     String.length (efields (wires to_wire d_abci_query [str p; str d])))%nat by lia.
  destruct (sempty d) eqn:E.
  - apply sempty_spec in E. rewrite E. cbn. lia.
  - eapply (efields_len _ (2, WLen d)); [|reflexivity].
    unfold d_abci_query, fstr, fbytes, str. cbn [wires]. apply in_or_app. right. apply in_or_app. left.
    cbn [filter written is_default]. rewrite E. now left.
Qed.

(** ** mapo *)

Lemma mapo_Forall2 {A B} (f : A -> outcome B) l r :
  mapo f l = Ok r <-> Forall2 (fun x y => f x = Ok y) l r.
Proof.
  revert r. induction l as [|x l IH]; intro r; cbn [mapo].
  - split; [intro H; inversion H; constructor | intro H; inversion H; reflexivity].
  - rewrite bindo_ok. split.
    + intros (y & Hy & H). apply bindo_ok in H as (ys & Hys & H). inversion H; subst.
      constructor; [exact Hy|]. now apply IH.
    + intro H. inversion H as [|? y ? ys Hy Hys]; subst. exists y. split; [exact Hy|].
      apply IH in Hys. rewrite Hys. reflexivity.
Qed.

Lemma Forall2_impl_in {A B} (P Q : A -> B -> Prop) l r :
  Forall2 P l r -> (forall x y, In x l -> In y r -> P x y -> Q x y) -> Forall2 Q l r.
Proof.
  induction 1 as [|x y l r Hxy _ IH]; intro H; constructor.
  - apply H; [now left|now left|exact Hxy].
  - apply IH. intros. apply H; [now right|now right|assumption].
Qed.

Lemma mapo_none {A B} (f : A -> outcome B) l :
  Exists (fun x => f x = Panic) l -> (forall x, In x l -> forall e, f x <> Err e) ->
  mapo f l = Panic.
Proof.
  induction 1 as [x l H|x l _ IH]; intro He; cbn [mapo].
  - now rewrite H.
  - destruct (f x) eqn:E; cbn [bindo]; [|exfalso; eapply He; [now left|exact E]|reflexivity].
    rewrite IH; [reflexivity|]. intros y Hy. apply He. now right.
Qed.

(** ** Reading the packet *)

Lemma any_ok x : utf8 (a_url x) -> val_ok (KMsg d_any) (proto_any x) = true.
Proof.
  intro H. unfold proto_any. cbn -[utf8_valid]. unfold utf8 in H. now rewrite H.
Qed.

Lemma chars_bytes s :
  omap json_byte (map JNum (bytes_to_list s)) = Some (list_ascii_of_string s).
Proof.
  induction s as [|c s IH]; [reflexivity|].
  cbn [bytes_to_list map omap list_ascii_of_string]. unfold json_byte at 1.
  pose proof (bn_lt c). replace (bn c <? 256) with true by lia. cbn [obind].
  rewrite IH. cbn [obind]. now rewrite nb_bn.
Qed.

Lemma string_of_chars_list s : string_of_chars (list_ascii_of_string s) = s.
Proof. induction s as [|c s IH]; cbn; [reflexivity|]. now f_equal. Qed.

Lemma bytes_small s : Forall (fun n => n < 256) (bytes_to_list s).
Proof. induction s as [|c s IH]; cbn; constructor; [apply bn_lt|exact IH]. Qed.

Definition any_pair (x : any) : string * string := (a_url x, a_value x).

Theorem host_packet_anys l memo :
  Forall (fun x => utf8 (a_url x)) l -> utf8o memo ->
  slen (ip_data (from_proto_anys l memo)) < u64_lim ->
  host_packet (to_json jc_ica_packet (from_proto_anys l memo))
  = Some (map any_pair l, unwrap_or memo "").
Proof.
  intros Hl Hm Hs. unfold host_packet, to_json.
  rewrite jparse_print.
  2:{ apply jc_ica_packet_ok. cbn -[from_proto_anys bytes_to_list]. split; [reflexivity|]. split.
      - apply bytes_small.
      - destruct memo; [split; [exact Hm|discriminate]|exact I]. }
  cbn [obind]. cbn [from_proto_anys jc_ica_packet jc_map jenc jc_struct o_pair oenc o_req o_skip
    ip_type ip_data ip_memo fst snd app jc_uint jc_bytes jc_list].
  change (find_key "type" _) with (Some (JNum 1)). cbn [obind].
  change (find_key "data" _) with
    (Some (JArr (map JNum (bytes_to_list (pb_encode d_cosmos_tx [map proto_any l]))))).
  cbn [obind]. rewrite chars_bytes. cbn [obind].
  assert (E : match find_key "memo"
     (("type", JNum 1)
      :: ("data", JArr (map JNum (bytes_to_list (pb_encode d_cosmos_tx [map proto_any l]))))
      :: match memo with Some a => [("memo", jenc jc_str a)] | None => [] end) with
     | None => Some "" | Some (JStr s) => Some s | Some _ => None end
     = Some (unwrap_or memo "")) by (destruct memo; reflexivity).
  rewrite E. cbn [obind]. rewrite string_of_chars_list.
  change h_cosmos_tx with d_cosmos_tx. rewrite pb_roundtrip.
  - cbn [obind]. rewrite (omap_map _ proto_any any_pair); [reflexivity|]. intros x _. reflexivity.
  - reflexivity.
  - unfold msg_ok, d_cosmos_tx, rmsg. cbn [slots_ok slot_ok]. rewrite andb_true_r.
    apply forallb_forall. intros v Hv. apply in_map_iff in Hv as (x & <- & Hx).
    apply any_ok. rewrite Forall_forall in Hl. auto.
  - exact Hs.
Qed.

Lemma convert_url_utf8 m a x : wf_msg m -> convert_to_proto_any m a = Ok x -> utf8 (a_url x).
Proof.
  intros Hw H. destruct m as [[]| |[]|[]| |[]|[]|[]]; cbn in H; try discriminate;
    inversion H; subst; first [reflexivity | exact Hw].
Qed.

Lemma query_path_utf8 q p d sg : wf_query q -> query_to_protobuf q = Ok (p, d, sg) -> utf8 p.
Proof.
  intros Hw H. destruct q as [[]| |[]| | | |[]]; cbn in H; try discriminate;
    inversion H; subst; first [reflexivity | exact Hw].
Qed.

Lemma query_any_decode a reqs x : utf8 a -> Forall (fun r : abci => utf8 (fst (fst r))) reqs ->
  query_any a reqs = Ok x -> slen (a_value x) < u64_lim ->
  utf8 (a_url x) /\
  host_decode (a_url x) (a_value x) = Some (HQuerySafe a (map fst reqs)).
Proof.
  intros Ha Hr H Hs. unfold query_any, any_from_msg in H. inversion H; subst x; clear H.
  cbn [a_url a_value] in *. split; [reflexivity|]. unfold host_decode. cbn [String.append].
  repeat match goal with
  | |- context [String.eqb ?a ?b] => let r := eval vm_compute in (String.eqb a b) in
                                     change (String.eqb a b) with r; cbv iota
  end.
  change h_query_safe with d_msg_module_query_safe. rewrite pb_roundtrip.
  - cbn [obind]. unfold str at 1.
    rewrite (omap_map rd_request _ (fun r : abci => fst r)).
    + reflexivity.
    + intros [[p d] sg] _. reflexivity.
  - reflexivity.
  - unfold msg_ok, d_msg_module_query_safe, fstr, rmsg, str. cbn [slots_ok slot_ok val_ok].
    unfold utf8 in *. rewrite Ha. cbn [andb]. rewrite andb_true_r.
    apply forallb_forall. intros v Hv. apply in_map_iff in Hv as ([[p d] sg] & <- & Hx).
    rewrite Forall_forall in Hr. specialize (Hr _ Hx). cbn in Hr.
    cbn -[utf8_valid]. now rewrite Hr.
  - exact Hs.
Qed.

(** What from_cosmos_msgs returns. *)
Definition sent_paths (qs : list query_request) : list (string * bool) :=
  map (fun q => match query_to_protobuf q with Ok (p, _, sg) => (p, sg) | _ => ("", false) end) qs.

Lemma from_cosmos_msgs_ok s ms qs memo addr s' p :
  from_cosmos_msgs s ms qs Protobuf memo addr = Ok (s', p) ->
  exists anys, Forall2 (fun m x => convert_to_proto_any m addr = Ok x) ms anys /\
  match qs with
  | [] => s' = s /\ p = from_proto_anys anys memo
  | _ => exists reqs q, Forall2 (fun q r => query_to_protobuf q = Ok r) qs reqs /\
           query_any addr reqs = Ok q /\ p = from_proto_anys (anys ++ [q]) memo /\
           s' = set_query (Some (sent_paths qs)) s
  end.
Proof.
  unfold from_cosmos_msgs. rewrite bindo_ok. intros (anys & Hanys & H).
  exists anys. split; [now apply mapo_Forall2|].
  destruct qs as [|q0 qs]; [inversion H; auto|].
  apply bindo_ok in H as (reqs & Hreqs & H). apply bindo_ok in H as (q & Hq & H).
  apply mapo_Forall2 in Hreqs. exists reqs, q. inversion H; subst. repeat split; auto.
  f_equal. f_equal. clear - Hreqs. unfold sent_paths.
  induction Hreqs as [|x [[pp d] sg] l r E _ IH]; [reflexivity|].
  cbn [map]. rewrite E. f_equal. exact IH.
Qed.

Theorem packet_carries s ms qs memo addr s' p :
  Forall wf_msg ms -> Forall wf_query qs -> utf8 addr -> utf8o memo ->
  from_cosmos_msgs s ms qs Protobuf memo addr = Ok (s', p) ->
  slen (ip_data p) < u64_lim ->
  exists anys, host_packet (to_json jc_ica_packet p) = Some (anys, unwrap_or memo "") /\
               packet_spec addr ms qs anys.
Proof.
  intros Hms Hqs Ha Hmemo H Hs. apply from_cosmos_msgs_ok in H as (anys & Hanys & H).
  assert (Hc : forall all, (forall x, In x anys -> In x all) ->
     slen (pb_encode d_cosmos_tx [map proto_any all]) < u64_lim ->
     Forall2 (fun m x => carries addr m (fst x) (snd x)) ms (map any_pair anys)).
  { intros all Hall Hl.
    assert (F : Forall2 (fun m x => carries addr m (a_url x) (a_value x)) ms anys).
    { eapply Forall2_impl_in; [exact Hanys|]. intros m x Hm Hx E.
      apply convert_carries; auto.
      - rewrite Forall_forall in Hms. auto.
      - pose proof (any_len x all (Hall x Hx)). lia. }
    clear - F. induction F; constructor; auto. }
  assert (Hurl : Forall (fun x => utf8 (a_url x)) anys).
  { clear - Hanys Hms. induction Hanys as [|m x ms anys E _ IH]; constructor.
    - inversion Hms; subst. eapply convert_url_utf8; eauto.
    - inversion Hms; subst. auto. }
  destruct qs as [|q0 qs].
  - destruct H as [-> ->]. exists (map any_pair anys). split.
    + now apply host_packet_anys.
    + exists (map any_pair anys), []. rewrite app_nil_r. split; [reflexivity|].
      split; [|reflexivity]. apply (Hc anys); auto.
  - destruct H as (reqs & q & Hreqs & Hq & -> & _).
    cbn [from_proto_anys ip_data] in Hs.
    assert (Hlq : slen (a_value q) < u64_lim).
    { pose proof (any_len q (anys ++ [q]) ltac:(apply in_or_app; right; now left)). lia. }
    assert (Hrutf : Forall (fun r : abci => utf8 (fst (fst r))) reqs).
    { clear - Hreqs Hqs. remember (q0 :: qs) as l. clear Heql.
      induction Hreqs as [|x [[pp d] sg] l r E _ IH]; constructor.
      - inversion Hqs; subst. cbn. eapply query_path_utf8; eauto.
      - inversion Hqs; subst. auto. }
    destruct (query_any_decode _ _ _ Ha Hrutf Hq Hlq) as [Hqu Hqd].
    exists (map any_pair (anys ++ [q])). split.
    + apply host_packet_anys; auto. apply Forall_app. split; [exact Hurl|]. now constructor.
    + exists (map any_pair anys), [any_pair q]. rewrite map_app. split; [reflexivity|].
      split.
      * apply (Hc (anys ++ [q])); [|exact Hs]. intros. apply in_or_app. now left.
      * exists (a_url q), (a_value q), (map fst reqs). split; [reflexivity|]. split; [exact Hqd|].
        assert (F : Forall2 (fun q (r : abci) => qcarries q (fst (fst r)) (snd (fst r))) (q0 :: qs) reqs).
        { eapply Forall2_impl_in; [exact Hreqs|]. intros x [[pp d] sg] Hx Hr E. cbn.
          rewrite Forall_forall in Hqs.
          apply (query_carries x pp d sg); auto.
          pose proof (request_len addr _ _ _ _ Hr) as L.
          unfold query_any, any_from_msg in Hq. inversion Hq; subst q. cbn [a_value] in Hlq. lia. }
        clear - F. induction F; constructor; auto.
Qed.

(** ** The JSON text is at least as long as the bytes in it *)

Lemma dec_len_pos n : (1 <= String.length (dec n))%nat.
Proof. destruct (dec_nonempty n) as (c & r & ->). cbn. lia. Qed.

Lemma jarr_len l : (length l <= String.length (jarr_tail (map JNum l)))%nat.
Proof.
  induction l as [|n l IH]; cbn [map jarr_tail length]; [cbn; lia|].
  rewrite !slen_app. cbn [String.length jprint]. pose proof (dec_len_pos n). lia.
Qed.

Lemma bytes_length s : length (bytes_to_list s) = String.length s.
Proof. induction s; cbn; auto. Qed.

Lemma packet_json_len p : slen (ip_data p) <= slen (to_json jc_ica_packet p).
Proof.
  destruct p as [t d memo]. unfold to_json.
  assert (E : exists rest, jenc jc_ica_packet (IcaPacket t d memo)
     = JObj (("type", JNum t) :: ("data", JArr (map JNum (bytes_to_list d))) :: rest)).
  { eexists. reflexivity. }
  destruct E as [rest ->]. cbn [ip_data]. rewrite jprint_obj. cbn [jobj_tail].
  unfold slen. rewrite !slen_app, <- bytes_length.
  enough (length (bytes_to_list d) <= String.length (jprint (JArr (map JNum (bytes_to_list d)))))%nat
    by lia.
  destruct (bytes_to_list d) as [|n l]; [cbn; lia|].
  cbn [map]. rewrite jprint_arr, !slen_app. pose proof (jarr_len l).
  cbn [length String.length jprint]. pose proof (dec_len_pos n). lia.
Qed.

(** ** Messages that arrive as JSON hold Rust values *)

Ltac jv := cbn -[utf8_valid u64_lim u32_lim u128_lim N.lt] in *;
  repeat match goal with H : _ /\ _ |- _ => destruct H end.

Lemma jval_coin c : jval jc_coin c -> wf_coin c.
Proof. destruct c. intros [H1 H2]. split; assumption. Qed.
Lemma jval_coins cs : Forall (jval jc_coin) cs -> Forall wf_coin cs.
Proof. apply Forall_impl, jval_coin. Qed.
Lemma jval_timeout t : jval jc_timeout t -> wf_timeout t.
Proof.
  destruct t as [b ts]. intros [H1 H2]. split; cbn in *.
  - destruct b as [[]|]; [|exact I]. destruct H1 as [[] _]. split; assumption.
  - destruct ts; [|exact I]. destruct H2. assumption.
Qed.
Lemma jval_opt_str o : jval (jc_opt jc_str) o -> utf8o o.
Proof. destruct o; [intros []; assumption|intros _; exact I]. Qed.

Lemma jval_msg m : jval jc_cosmos_msg m -> wf_msg m.
Proof.
  intro H.
  destruct m as [[dst cs | cs] | | [v c | v c | v v2 c] | [w | v | cs] | u v |
                 [ch dst c t memo | ch d t | ch] |
                 [c msg fs | adm id msg fs l | adm id l msg fs salt | c id msg | c adm | c]|
                 [p o | p os]];
    repeat match goal with
    | H : jval jc_cosmos_msg _ |- _ => unfold jc_cosmos_msg in H; cbn -[jc_bank_msg jc_staking_msg
        jc_dist_msg jc_ibc_msg jc_wasm_msg jc_gov_msg] in H
    | H : jval jc_bank_msg _ |- _ => cbn -[jc_coin jc_str] in H
    | H : jval jc_staking_msg _ |- _ => cbn -[jc_coin jc_str] in H
    | H : jval jc_dist_msg _ |- _ => cbn -[jc_coin jc_str] in H
    | H : jval jc_ibc_msg _ |- _ => cbn -[jc_coin jc_str jc_timeout jc_opt] in H
    | H : jval jc_wasm_msg _ |- _ => cbn -[jc_coin jc_str jc_opt u64_lim] in H
    | H : jval jc_gov_msg _ |- _ => cbn -[jc_coin jc_str u64_lim u128_lim] in H
    | H : _ /\ _ |- _ => destruct H
    end; cbn [wf_msg];
    repeat first [ apply conj | assumption | exact I | apply jval_coins; assumption
                 | apply jval_coin; assumption | apply jval_timeout; assumption
                 | apply jval_opt_str; assumption ].
  eapply Forall_impl; [|eassumption]. intros w [_ Hw]. exact Hw.
Qed.

Lemma jval_query q : jval jc_query_request q -> wf_query q.
Proof.
  intro H.
  destruct q as [[d | a d | a | d | p] | | [ | a | d v | | a] | d | p d | i | [a m | a k | a | c]];
    repeat match goal with
    | H : jval jc_query_request _ |- _ => unfold jc_query_request in H;
        cbn -[jc_bank_query jc_staking_query jc_wasm_query jc_dist_query jc_ibc_query] in H
    | H : jval jc_bank_query _ |- _ => cbn -[jc_str jc_opt jc_page_request] in H
    | H : jval jc_staking_query _ |- _ => cbn -[jc_str] in H
    | H : jval jc_wasm_query _ |- _ => cbn -[jc_str u64_lim] in H
    | H : _ /\ _ |- _ => destruct H
    end; cbn [wf_query];
    repeat first [ apply conj | assumption | exact I ].
  destruct p as [p|]; [|exact I]. destruct H as [H _].
  cbn -[u32_lim] in H. tauto.
Qed.

Lemma jval_msgs l : jval (jc_list jc_cosmos_msg) l -> Forall wf_msg l.
Proof. apply Forall_impl, jval_msg. Qed.
Lemma jval_queries l : jval (jc_list jc_query_request) l -> Forall wf_query l.
Proof. apply Forall_impl, jval_query. Qed.

(** ** MsgChannelOpenInit *)

Definition utf8_options (o : open_options) : Prop :=
  utf8 (oo_connection o) /\ utf8 (oo_cp_connection o) /\ utf8o (oo_cp_port o).

(** The ICS-27 metadata proposed for a pair of connections. *)
Definition fresh_metadata (conn cp_conn : string) : metadata :=
  Metadata "ics27-1" conn cp_conn "" Protobuf "sdk_multi_msg".

Lemma metadata_roundtrip m : jval jc_metadata m -> from_json jc_metadata (to_json jc_metadata m) = Some m.
Proof. apply json_roundtrip, jc_metadata_ok. Qed.


Lemma fresh_jval c h : utf8 c -> utf8 h -> jval jc_metadata (fresh_metadata c h).
Proof. intros H1 H2. unfold utf8 in *. cbn -[utf8_valid]. repeat split; auto. Qed.

Definition order_number (o : option order) : N :=
  match o with Some Unordered => 1 | _ => 2 end.

(** The bytes of the contract's MsgChannelOpenInit. *)
Definition open_init_bytes (self : string) (o : open_options) : string :=
  pb_encode d_msg_channel_open_init
    (msg_channel_open_init self ("wasm." +++ self) (oo_connection o) (oo_cp_port o)
       (metadata_to_string (fresh_metadata (oo_connection o) (oo_cp_connection o))) (oo_ordering o)).

Theorem open_init_decodes self o : utf8 self -> utf8_options o ->
  slen (open_init_bytes self o) < u64_lim ->
  core_open_init (open_init_bytes self o) =
  Some (OpenInit ("wasm." +++ self) 1 (order_number (oo_ordering o))
          (unwrap_or (oo_cp_port o) "icahost") "" [oo_connection o]
          (to_json jc_metadata (fresh_metadata (oo_connection o) (oo_cp_connection o))) self).
Proof.
  intros Hs (H1 & H2 & H3) Hl. unfold core_open_init, open_init_bytes in *.
  change h_open_init with d_msg_channel_open_init. rewrite pb_roundtrip.
  - unfold msg_channel_open_init, str, num. cbn [obind omap].
    destruct (oo_ordering o) as [[]|]; reflexivity.
  - reflexivity.
  - unfold msg_ok, d_msg_channel_open_init, msg_channel_open_init, d_channel, d_counterparty,
      fstr, fmsg, fu32, rstr, str, num. cbn [slots_ok slot_ok val_ok forallb].
    unfold metadata_to_string.
    rewrite to_json_utf8 by (first [apply jc_metadata_ok | now apply fresh_jval]).
    assert (Hp : utf8_valid ("wasm." +++ self) = true) by (apply utf8_valid_app; [reflexivity|exact Hs]).
    rewrite Hp. unfold utf8 in *. rewrite Hs, H1.
    assert (Hc : utf8_valid (unwrap_or (oo_cp_port o) HOST_PORT_ID) = true)
      by (destruct (oo_cp_port o); [exact H3|reflexivity]).
    rewrite Hc. destruct (oo_ordering o) as [[]|]; reflexivity.
  - exact Hl.
Qed.
