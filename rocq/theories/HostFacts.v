(** * HostFacts: the contract's conversions agree with [HostSpec]. *)

From Verif Require Import Base Utf8 Text Base64 Proto ProtoFacts Schemas Json JsonCodec JsonSound Types
  JsonTypes Store CosmosMsg QueryMsg PacketData HostSpec.
From Coq Require Import ZifyBool ZifyNat ZifyN.
Local Open Scope string_scope.
Local Open Scope list_scope.
Local Open Scope N_scope.

Lemma host_int_dec n : host_int (dec n) = Some n.
Proof. unfold host_int. rewrite dec_digits. apply pdec_dec. Qed.

Lemma parse_uint_digits lim s n :
  all_chars is_digit s = true -> parse_uint lim s = Some n -> host_int s = Some n.
Proof.
  intros Hd H. unfold host_int. rewrite Hd. unfold parse_uint in H.
  assert (match s with String "+" r => r | _ => s end = s) as E.
  { destruct s as [|c s]; [reflexivity|]. cbn in Hd.
    destruct (ascii_dec c "+") as [->|Hne]; [discriminate Hd|].
    destruct c as [[] [] [] [] [] [] [] []]; try reflexivity. congruence. }
  rewrite E in H. destruct (pdec s) as [m|]; cbn [obind] in H; [|discriminate].
  destruct (m <? lim); [|discriminate]. congruence.
Qed.

Lemma host_dec_decimal a : a < u128_lim -> host_dec (decimal_to_string a) = Some a.
Proof.
  intro Ha. pose proof (decimal_roundtrip a Ha) as R.
  unfold decimal_to_string in *. unfold decimal_from_string in R. unfold host_dec.
  change (10 ^ 18) with e18.
  destruct (N.eqb_spec (a mod e18) 0) as [H0|H0].
  - rewrite split_on_none in * by (apply digits_no_dot, dec_digits).
    rewrite host_int_dec. cbn [obind].
    destruct (parse_u128 (dec (a / e18))) as [n|] eqn:E; cbn [obind] in R; [|discriminate].
    apply parse_uint_digits in E; [|apply dec_digits]. rewrite host_int_dec in E.
    inversion E; subst. destruct (_ <? u128_lim) in R; [exact R|discriminate].
  - set (f := trim0 (pad0 18 (dec (a mod e18)))) in *.
    assert (Hfd : all_chars is_digit f = true).
    { apply trim0_all. unfold pad0. rewrite all_chars_app, all_digits_zeros, dec_digits.
      reflexivity. }
    change ("." +++ f) with (String "." f) in *.
    rewrite split_on_app in * by (apply digits_no_dot, dec_digits).
    rewrite split_on_none in * by (apply digits_no_dot, Hfd).
    rewrite host_int_dec. cbn [obind].
    destruct (parse_u128 (dec (a / e18))) as [n|] eqn:E; cbn [obind] in R; [|discriminate].
    apply parse_uint_digits in E; [|apply dec_digits]. rewrite host_int_dec in E.
    inversion E; subst n. clear E. destruct (_ <? u128_lim) in R; [|discriminate].
    destruct (parse_u128 f) as [m|] eqn:E; cbn [obind] in R; [|discriminate].
    apply parse_uint_digits in E; [|exact Hfd]. rewrite E. cbn [obind].
    destruct (String.length f <=? 18)%nat; [|discriminate]. cbv zeta in R.
    destruct (_ <? u128_lim) in R; [exact R|discriminate].
Qed.

(** ** Values *)

Ltac cb := cbn -[utf8_valid dec decimal_to_string u64_lim u32_lim N.ltb pb_encode pb_decode
  proto_coin host_int host_dec unwrap_or].

Lemma coin_ok c : wf_coin c -> val_ok (KMsg d_coin) (proto_coin c) = true.
Proof.
  intros [H1 H2]. unfold proto_coin.
  cbn -[utf8_valid dec]. unfold utf8 in H1. now rewrite H1, dec_valid.
Qed.
Lemma coins_ok cs : Forall wf_coin cs ->
  forallb (val_ok (KMsg d_coin)) (map proto_coin cs) = true.
Proof.
  intro H. rewrite forallb_forall. intros v Hv. apply in_map_iff in Hv as (c & <- & Hc).
  apply coin_ok. rewrite Forall_forall in H. auto.
Qed.
Lemma rd_coin_ok c : rd_coin (proto_coin c) = Some (amt c).
Proof. unfold rd_coin, proto_coin, str. now rewrite host_int_dec. Qed.
Lemma rd_coins_ok cs : rd_coins (map proto_coin cs) = Some (map amt cs).
Proof. apply omap_map. intros. apply rd_coin_ok. Qed.

Definition proto_weighted (o : weighted_vote) : pv :=
  VMsg [num (proto_vote (wv_option o)); str (decimal_to_string (wv_weight o))].
Lemma weighted_ok os : Forall wf_weighted os ->
  forallb (val_ok (KMsg d_weighted_vote)) (map proto_weighted os) = true.
Proof.
  intro H. rewrite forallb_forall. intros v Hv. apply in_map_iff in Hv as (o & <- & Ho).
  unfold proto_weighted. cbn -[utf8_valid decimal_to_string proto_vote N.ltb u32_lim].
  rewrite decimal_valid. now destruct (wv_option o).
Qed.
Lemma rd_weighted_ok os : Forall wf_weighted os ->
  omap rd_weighted (map proto_weighted os) =
  Some (map (fun o => (vote_number (wv_option o), wv_weight o)) os).
Proof.
  intro H. apply omap_map. intros o Ho. rewrite Forall_forall in H. specialize (H o Ho).
  unfold rd_weighted, proto_weighted, num, str. rewrite host_dec_decimal by exact H.
  cbn. now destruct (wv_option o).
Qed.

Lemma utf8o_unwrap o : utf8o o -> utf8_valid (unwrap_or o "") = true.
Proof. destruct o; auto. Qed.
Lemma u64o_unwrap o : match o with Some n => u64 n | None => True end -> (unwrap_or o 0 <? u64_lim) = true.
Proof. destruct o as [n|]; cbn; [|reflexivity]. unfold u64. lia. Qed.
Lemma u64_ltb n : u64 n -> (n <? u64_lim) = true.
Proof. unfold u64; lia. Qed.

(** ** Messages *)

Theorem convert_supported m a :
  (exists x, convert_to_proto_any m a = Ok x) <-> supported m.
Proof.
  split.
  - intros [x H]. destruct m as [[]| | | | |[]| | ]; cbn in *; auto; discriminate.
  - destruct m as [[]| |[]|[]| |[]|[]|[]]; cbn; intro H; try contradiction; eexists; reflexivity.
Qed.

Theorem convert_unsupported m a : ~ supported m -> convert_to_proto_any m a = Panic.
Proof. destruct m as [[]| |[]|[]| |[]|[]|[]]; cbn; intuition. Qed.

Ltac mok := cbn [slot_ok forallb andb]; repeat (first
  [ assumption | reflexivity | rewrite andb_true_iff; split
  | apply coins_ok; assumption | apply coin_ok; assumption
  | apply weighted_ok; assumption
  | apply utf8o_unwrap; assumption | apply u64o_unwrap; assumption | apply u64_ltb; assumption ]).

Ltac rt :=
  match goal with |- context [pb_decode ?h (pb_encode ?d0 ?m0)] =>
    change h with d0;
    rewrite (pb_roundtrip d0 m0);
      [ | reflexivity
        | unfold msg_ok, d0, fstr, fbytes, fu64, fu32, fbool, fmsg, rmsg, rstr, rbytes, str, num;
          cbn [slots_ok slot_ok forallb val_ok]; mok
        | assumption ]
  end; cbn [obind]; unfold str, num.

Theorem convert_carries m a x :
  wf_msg m -> utf8 a -> convert_to_proto_any m a = Ok x -> slen (a_value x) < u64_lim ->
  carries a m (a_url x) (a_value x).
Proof.
  intros Hw Ha H Hs.
  destruct m as [[dst cs | cs] | |[v c | v c | v v2 c] |[w | v | cs] | u v |[ch dst c t memo | ch d t | ch] |
                 [c msg fs | adm id msg fs l | adm id l msg fs salt | c id msg | c adm | c]|[p o | p os]];
    try discriminate; cbn [convert_to_proto_any conv_bank conv_ibc conv_wasm conv_gov conv_staking
      conv_dist any_from_msg] in H; inversion H; subst x; clear H;
    cbn [a_url a_value] in *; cbn [wf_msg] in Hw;
    try (split; reflexivity);
    eexists; (split; [reflexivity|]); unfold host_decode;
    cbn [String.append];
    repeat match goal with
    | |- context [String.eqb ?a ?b] => let r := eval vm_compute in (String.eqb a b) in
                                       change (String.eqb a b) with r; cbv iota
    end;
    unfold utf8, wf_timeout in *;
    repeat match goal with H : _ /\ _ |- _ => destruct H end.
  - rt. rewrite rd_coins_ok. reflexivity.
  - rt. rewrite rd_coin_ok. reflexivity.
  - rt. rewrite rd_coin_ok. reflexivity.
  - rt. rewrite rd_coin_ok. reflexivity.
  - rt. reflexivity.
  - rt. reflexivity.
  - rt. rewrite rd_coins_ok. reflexivity.
  - rt.
    + rewrite rd_coin_ok. cbn [obind]. destruct (to_block t); reflexivity.
    + destruct (to_block t) as [b|]; [|reflexivity].
      match goal with H : u64 _ /\ u64 _ |- _ => destruct H as [Hr Hh] end.
      unfold d_height, fu64. cbn [val_ok slots_ok slot_ok]. mok.
  - rt. rewrite rd_coins_ok. reflexivity.
  - rt. rewrite rd_coins_ok. reflexivity.
  - rt. rewrite rd_coins_ok. reflexivity.
  - rt. reflexivity.
  - rt. reflexivity.
  - rt. reflexivity.
  - rt; [now destruct o | now destruct o].
  - fold (proto_weighted). rt. rewrite rd_weighted_ok by assumption. reflexivity.
Qed.

(** ** Queries *)

Theorem query_supported q : (exists x, query_to_protobuf q = Ok x) <-> qsupported q.
Proof.
  split.
  - intros [x H]. destruct q as [[]| |[]| | | |[]]; cbn in *; auto; discriminate.
  - destruct q as [[]| |[]| | | |[]]; cbn; intro H; try contradiction; eexists; reflexivity.
Qed.

Theorem query_unsupported q : ~ qsupported q -> query_to_protobuf q = Panic.
Proof. destruct q as [[]| |[]| | | |[]]; cbn; intuition. Qed.

Theorem query_carries q path data sg :
  wf_query q -> query_to_protobuf q = Ok (path, data, sg) -> slen data < u64_lim ->
  qcarries q path data /\ (sg = true <-> exists p d, q = QStargate p d).
Proof.
  intros Hw H Hs.
  destruct q as [[d | a d | a | d | p] | | [ | a | d v | | a] | | p d | | [a m | a k | a | c]];
    try discriminate;
    cbn [query_to_protobuf req_bank req_wasm req_staking] in H; inversion H; subst; clear H;
    (split; [ | split; [ first [discriminate | intros _; eauto]
                       | first [reflexivity | intros (? & ? & ?); discriminate ] ] ]);
    cbn [wf_query] in Hw;
    try (split; reflexivity);
    eexists; (split; [reflexivity|]); unfold host_query_decode;
    repeat match goal with
    | |- context [String.eqb ?a ?b] => let r := eval vm_compute in (String.eqb a b) in
                                       change (String.eqb a b) with r; cbv iota
    end;
    unfold utf8 in *;
    repeat match goal with H : _ /\ _ |- _ => destruct H end;
    try (rt; reflexivity).
  - rt.
    + destruct p as [p|]; [|reflexivity]. cbn. now destruct (pg_reverse p).
    + destruct p as [p|]; [|reflexivity]. unfold d_page_request, fbytes, fu64, fbool.
      cbn [val_ok slots_ok slot_ok str num]. rewrite !andb_true_iff.
      unfold u32_lim, u64_lim in *. repeat split; try (destruct (pg_reverse p); reflexivity); lia.
Qed.

(** Two different queries never give the same request, and so on for messages
    (the address of the account being the same). *)
Lemma amt_inj : forall x y, amt x = amt y -> x = y.
Proof. intros [] [] H; inversion H; reflexivity. Qed.
Lemma map_inj {A B} (f : A -> B) : (forall x y, f x = f y -> x = y) ->
  forall l l', map f l = map f l' -> l = l'.
Proof.
  intros Hf. induction l as [|x l IH]; intros [|y l'] H; try discriminate; [reflexivity|].
  inversion H. f_equal; auto.
Qed.
