(** * PropStorage: property C43, storage at the level of bytes. *)

From Verif Require Import Base Text Utf8 Base64 Proto ProtoFacts Schemas Json JsonCodec Types JsonTypes Store
  CosmosMsg QueryMsg Metadata Stargate PacketData Ownable Semver Contract JsonSound HostSpec HostFacts PacketFacts
  AnswerSpec AnswerFacts AnswerJson EntryFacts Chain ChainSpec Trans Inv HistorySpec History Queries HistFacts Enabled Witness
  PropAnswer StorageKeys.
From Coq Require Import ZifyBool ZifyN.
Local Open Scope string_scope.
Local Open Scope list_scope.
Local Open Scope N_scope.

Lemma be_len k : forall n, String.length (be k n) = k.
Proof. induction k as [|k IH]; intro n; cbn [be]; [reflexivity|]. rewrite slen_app, IH. cbn. lia. Qed.
Lemma be_inj k : forall n m, n < 256 ^ N.of_nat k -> m < 256 ^ N.of_nat k -> be k n = be k m -> n = m.
Proof.
  induction k as [|k IH]; intros n m Hn Hm H; [cbn in *; lia|]. cbn [be] in H.
  apply sapp_inj_len in H as [H1 H2]; [|now rewrite !be_len].
  assert (P : 256 ^ N.of_nat (S k) = 256 * 256 ^ N.of_nat k) by (rewrite Nnat.Nat2N.inj_succ, N.pow_succ_r'; lia).
  apply IH in H1; [|apply N.div_lt_upper_bound; lia|apply N.div_lt_upper_bound; lia].
  injection H2 as H2. apply (f_equal bn) in H2. change (bn (nb (n mod 256)) = bn (nb (m mod 256))) in H2.
  rewrite !bn_nb in H2 by (apply N.mod_lt; lia).
  rewrite (N.div_mod n 256), (N.div_mod m 256) by lia. congruence.
Qed.

Lemma part_inj a b x y : slen a < 65536 -> slen b < 65536 -> part a +++ x = part b +++ y -> a = b /\ x = y.
Proof.
  intros Ha Hb H. unfold part in H. rewrite !sapp_assoc in H. apply sapp_inj_len in H as [H1 H2]; [|now rewrite !be_len].
  apply be_inj in H1; [|exact Ha|exact Hb]. apply sapp_inj_len in H2; [exact H2|]. unfold slen in H1. lia.
Qed.

(** ** No two slots share a key *)
Theorem C43_no_alias : forall x y, slot_ok x -> slot_ok y -> slot_key x = slot_key y -> x = y.
Proof.
  intros x y Hx Hy H.
  destruct x, y; try reflexivity; try discriminate H. destruct Hx as [X1 X2], Hy as [Y1 Y2].
  cbn [slot_key] in H. apply sapp_inj_l in H. apply part_inj in H as [-> H]; [|assumption|assumption].
  apply be_inj in H; [now subst|exact X2|exact Y2].
Qed.
Example C43_no_alias_case : slot_ok (SPending "channel-1" 11) /\ slot_ok (SPending "channel-11" 1) /\
  slot_key (SPending "channel-1" 11) <> slot_key (SPending "channel-11" 1).
Proof. split; [split; reflexivity|]. split; [split; reflexivity|]. vm_compute. discriminate. Qed.

(** ** The typed store is the byte store

    [holds r s]: under the key of every slot the bytes are the JSON of the
    typed value, or nothing. *)
Definition holds (r : raw_store) (s : cstore) : Prop :=
  forall x, slot_ok x -> r (slot_key x) = option_map (to_json (slot_codec x)) (slot_get x s).

Lemma slot_eq_dec (x y : slot) : {x = y} + {x <> y}.
Proof. repeat decide equality. Qed.

Lemma get_set_same x v s : slot_get x (slot_set x v s) = v.
Proof. destruct x; try reflexivity. cbn. unfold upd_pending. now rewrite String.eqb_refl, N.eqb_refl. Qed.
Lemma get_set_other x y v s : x <> y -> slot_get y (slot_set x v s) = slot_get y s.
Proof.
  intro H. destruct x, y; try reflexivity; try (now elim H). cbn. unfold upd_pending.
  destruct (String.eqb chan chan0) eqn:E1; [|reflexivity]. destruct (seq =? seq0) eqn:E2; [|reflexivity].
  apply String.eqb_eq in E1. apply N.eqb_eq in E2. subst. now elim H.
Qed.

(** Saving and removing on bytes is saving and removing on the typed store:
    nothing else changes. *)
Theorem C43_save : forall r s x v, slot_ok x -> holds r s -> holds (raw_save x v r) (slot_set x (Some v) s).
Proof.
  intros r s x v Hx H y Hy. unfold raw_save, raw_put. destruct (slot_eq_dec x y) as [->|N].
  - rewrite String.eqb_refl, get_set_same. reflexivity.
  - rewrite get_set_other by exact N. destruct (String.eqb (slot_key x) (slot_key y)) eqn:E; [|now apply H].
    apply String.eqb_eq in E. elim N. now apply C43_no_alias.
Qed.
Theorem C43_remove : forall r s x, slot_ok x -> holds r s -> holds (raw_remove x r) (slot_set x None s).
Proof.
  intros r s x Hx H y Hy. unfold raw_remove, raw_put. destruct (slot_eq_dec x y) as [->|N].
  - rewrite String.eqb_refl, get_set_same. reflexivity.
  - rewrite get_set_other by exact N. destruct (String.eqb (slot_key x) (slot_key y)) eqn:E; [|now apply H].
    apply String.eqb_eq in E. elim N. now apply C43_no_alias.
Qed.
Example C43_save_case : holds (fun _ => None) empty_store /\
  holds (raw_save (SPending "channel-0" 7) [("/path", true)] (fun _ => None)) (set_pending "channel-0" 7 (Some [("/path", true)]) empty_store).
Proof.
  assert (H : holds (fun _ => None) empty_store) by (intros [] _; reflexivity). split; [exact H|].
  exact (C43_save _ _ (SPending "channel-0" 7) [("/path", true)] (conj eq_refl eq_refl) H).
Qed.

(** ** What was saved is what is loaded, in every history *)

Lemma codec_ok x : jcodec_ok (slot_codec x).
Proof.
  destruct x; cbn [slot_codec slot_type].
  - apply jc_version_ok.
  - apply jc_ownership_ok.
  - apply jc_contract_state_ok.
  - apply jc_channel_state_ok.
  - apply jc_options_ok.
  - apply jc_bool_ok.
  - apply jc_bool_ok.
  - apply jc_paths_ok.
  - apply jc_paths_ok.
Qed.

(** Everything stored in a history is a value of its Rust type. *)
Lemma options_jval c l o : hist c l -> options_of l = Some o -> jval jc_options o.
Proof.
  intros H. apply hist_items in H. induction H as [|i l Hi _ IH]; [discriminate|].
  destruct i; cbn [options_of]; auto.
  - destruct Hi as [_ Hm]. intro E. injection E as <-. destruct m as [ow op cb]. apply Hm.
  - destruct m as [[o'|]| | | |]; auto. intro E. injection E as <-. destruct Hi as [_ [Hm _]]. exact Hm.
Qed.

Lemma paths_jval qs : Forall (jval jc_query_request) qs -> jval jc_paths (query_paths qs).
Proof.
  intro H. unfold query_paths. apply Forall_map. eapply Forall_impl; [|exact H]. intros q Hq. split; [|exact I].
  destruct q as [[]| |[]| | | |[]]; try reflexivity; apply Hq.
Qed.

Definition version_text_ok (s : cstore) : Prop :=
  match st_version s with Some (n, v) => utf8 n /\ utf8 v | None => True end.

Lemma stored_valid c w s x v : cfg_ok c -> visited c w -> w_store w = Some s -> version_text_ok s ->
  slot_get x s = Some v -> jval (slot_codec x) v.
Proof.
  intros Hc V E Hv Hx. assert (Hh := visited_hist c w Hc V). assert (I := visited_inv c w Hc V).
  destruct x; cbn [slot_get slot_type slot_codec] in *.
  - unfold version_text_ok in Hv. rewrite Hx in Hv. destruct v. exact Hv.
  - destruct (io_owner _ _ (inv_owner _ _ I _ E)) as (o & x & O1 & O2 & O3 & O4).
    rewrite O1 in Hx. injection Hx as <-. destruct o as [a b d]. cbn in O2, O4. subst a.
    split; [split; [eapply owner_utf8; eassumption|discriminate]|].
    destruct (nominee_of (w_log w)) as [[n y]|] eqn:En; destruct O4 as [-> ->]; [|split; exact Logic.I].
    destruct (nominee_jval _ _ _ _ Hh En) as [N1 N2]. split; [split; [exact N1|discriminate]|exact N2].
  - destruct (io_callback _ _ (inv_owner _ _ I _ E)) as (st & S1 & S2).
    rewrite S1 in Hx. injection Hx as <-. split; [|cbn; rewrite S2; eapply callback_jval; exact Hh].
    pose proof (inv_recorded _ _ I _ E) as R. unfold inv_rec in R.
    destruct (st_channel s) as [cs|].
    + destruct R as (st' & info & ce & md & R1 & R2 & R3 & R4 & R5 & R6 & R7 & R8 & R9 & R10 & R11 & R12).
      rewrite S1 in R1. injection R1 as <-. cbn. rewrite R2. destruct info as [ad ch en]. cbn in *.
      split; [|discriminate]. split; [apply R12|]. split; [|rewrite R8; exact Logic.I].
      pose proof (ic_chan _ _ (inv_chans _ _ I) ch) as C. rewrite R3 in C. apply C.
    + destruct R as (R1 & st' & R2 & R3). rewrite S1 in R2. injection R2 as <-. cbn. now rewrite R3.
  - rewrite (il_rec _ (visited_log c w Hc V) _ E) in Hx. unfold recorded_state in Hx.
    pose proof (recorded_last (w_log w)) as L. destruct (recorded (w_log w)) as [[ch b]|]; [|discriminate].
    injection Hx as <-. split; [apply (proj1 (last_opened_ok _ _ _ Hh L))|destruct b; exact Logic.I].
  - destruct (io_options _ _ (inv_owner _ _ I _ E)) as (o & O1 & O2). rewrite O1 in Hx. injection Hx as <-.
    eapply options_jval; eassumption.
  - exact Logic.I.
  - exact Logic.I.
  - rewrite (C32_no_scratch c w s Hc V E) in Hx. discriminate.
  - destruct (C32_records c w s chan seq v Hc V E Hx) as (e & sd & ms & qs & memo & t & p & L & _ & _ & ->).
    apply paths_jval. apply in_split in L as (l1 & l2 & L).
    destruct (hist_item _ _ _ _ _ Hh L) as (l0 & n1 & n2 & H0 & B & _). clear -B.
    block_cases B. injection E as <- <- <- <- <- <- <-.
    match goal with J : jval jc_execute_msg _ |- _ => apply J end.
Qed.

(** Every load returns what the typed store has: what one transaction saved the
    next one finds, unchanged.  (A release installs a version text, a string.) *)
Theorem C43_loads : forall c w s r x, cfg_ok c -> visited c w -> w_store w = Some s -> version_text_ok s ->
  holds r s -> slot_ok x -> raw_load x r = Some (slot_get x s).
Proof.
  intros c w s r x Hc V E Hv H Hx. unfold raw_load. rewrite (H x Hx).
  destruct (slot_get x s) as [v|] eqn:G; [|reflexivity]. cbn [option_map].
  rewrite json_roundtrip; [reflexivity|apply codec_ok|]. eapply stored_valid; eassumption.
Qed.

(** Every store is held by some bytes. *)
Fixpoint from_be (s : string) (acc : N) : N :=
  match s with "" => acc | String c r => from_be r (acc * 256 + bn c) end.
Lemma from_be_app a b : forall n, from_be (a +++ b) n = from_be b (from_be a n).
Proof. induction a as [|x a IH]; intro n; cbn [append from_be]; auto. Qed.
Lemma from_be_be k : forall n, n < 256 ^ N.of_nat k -> from_be (be k n) 0 = n.
Proof.
  induction k as [|k IH]; intros n Hn; [cbn in *; lia|]. cbn [be]. rewrite from_be_app.
  assert (P : 256 ^ N.of_nat (S k) = 256 * 256 ^ N.of_nat k) by (rewrite Nnat.Nat2N.inj_succ, N.pow_succ_r'; lia).
  rewrite IH by (apply N.div_lt_upper_bound; lia). cbn [b1 from_be]. rewrite bn_nb by (apply N.mod_lt; lia).
  rewrite (N.div_mod n 256) at 3 by lia. lia.
Qed.

Definition raw_of (s : cstore) : raw_store := fun k =>
  match find (fun x => String.eqb (slot_key x) k) [SVersion; SOwner; SState; SChannel; SOptions; SAllowOpen; SAllowClose; SQuery] with
  | Some x => option_map (to_json (slot_codec x)) (slot_get x s)
  | None =>
      ' (_, r) <-? stake 17 k ;; ' (l, r) <-? stake 2 r ;; ' (chan, r) <-? stake (N.to_nat (from_be l 0)) r ;;
      option_map (to_json jc_paths) (st_pending s chan (from_be r 0))
  end.
Theorem C43_held : forall s, holds (raw_of s) s.
Proof.
  intros s x Hx. destruct x; try reflexivity. destruct Hx as [H1 H2]. unfold raw_of.
  replace (find _ _) with (@None slot) by reflexivity.
  cbn [slot_key]. change 17%nat with (String.length (part "pending_queries")). rewrite stake_app. cbn [obind].
  unfold part at 1. rewrite sapp_assoc. rewrite <- (be_len 2 (slen chan)) at 1. rewrite stake_app. cbn [obind].
  rewrite from_be_be by exact H1. unfold slen at 1. rewrite Nnat.Nat2N.id, stake_app. cbn [obind].
  rewrite from_be_be by exact H2. reflexivity.
Qed.

(** A contract with a query under way. *)
Definition w43 : world := world_of with_query.
Definition s43 : cstore := match w_store w43 with Some s => s | None => empty_store end.
Example C43_loads_case : visited cfg0 w43 /\ w_store w43 = Some s43 /\ version_text_ok s43 /\ holds (raw_of s43) s43 /\
  slot_ok (SPending "channel-0" 1) /\ raw_load (SPending "channel-0" 1) (raw_of s43) = Some (Some [("/cosmos.bank.v1beta1.Query/Balance", false)]).
Proof.
  split; [apply world_visited|]. split; [vm_compute; reflexivity|]. split; [vm_compute; auto|]. split; [apply C43_held|].
  split; [split; reflexivity|]. vm_compute. reflexivity.
Qed.

Print Assumptions C43_no_alias.
Print Assumptions C43_save.
Print Assumptions C43_remove.
Print Assumptions C43_loads.
Print Assumptions C43_held.
