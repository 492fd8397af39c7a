(** * Queries: the answers of the state queries in every history. *)

From Verif Require Import Base Text Utf8 Base64 Proto ProtoFacts Schemas Json JsonCodec Types JsonTypes Store
  CosmosMsg QueryMsg Metadata Stargate PacketData Ownable Semver Contract JsonSound HostSpec HostFacts PacketFacts
  AnswerSpec AnswerFacts AnswerJson EntryFacts Chain ChainSpec Trans Inv HistorySpec History.
From Coq Require Import ZifyBool ZifyN.
Local Open Scope string_scope.
Local Open Scope list_scope.
Local Open Scope N_scope.

(** ** Values in a history are Rust values *)

Definition item_ok (i : logitem) : Prop :=
  match i with
  | LInstantiated e s m => utf8 s /\ jval jc_instantiate_msg m
  | LExecuted e s m => utf8 s /\ jval jc_execute_msg m
  | LChanInit id => utf8 id
  | LChanOpen ch => jval jc_channel ch /\ exists md, from_json jc_metadata (ch_version ch) = Some md
  | LSent _ s _ p => utf8 s /\ jval jc_packet p
  | LAck p _ r | LTimeout p r => jval jc_packet p /\ utf8 r
  | _ => True
  end.

Lemma hist_items c l : hist c l -> Forall item_ok l.
Proof.
  induction 1 as [|l new Hl IH B]; [constructor|]. apply Forall_app. split; [|exact IH].
  destruct B as [B|B]; destruct B;
    repeat match goal with H : callback _ _ _ |- _ =>
      let J := fresh "J" in pose proof (proj1 H) as J; apply callback_quiet in H as [->|(? & ? & ->)] end;
    cbn [app]; repeat (apply Forall_cons; [cbn [item_ok]|]); try apply Forall_nil; auto;
    try (split; [assumption|exact I]).
  all: try (split; [|eauto]; apply J).
  all: try (split; [|assumption]; eapply hist_packet; eassumption).
Qed.

Lemma item_in c l i : hist c l -> In i l -> item_ok i.
Proof. intros H Hi. apply hist_items in H. rewrite Forall_forall in H. auto. Qed.

Lemma owner_utf8 c l x : hist c l -> owner_of l = Some x -> utf8 x.
Proof.
  intros H. apply hist_items in H. induction H as [|i l Hi _ IH]; [discriminate|].
  destruct i; cbn [owner_of]; auto.
  - destruct Hi as [Hs Hm]. intro E. injection E as <-. destruct m as [[o|] op cb]; [|exact Hs].
    apply Hm.
  - destruct m as [| | | |[]]; auto. intro E. injection E as <-. apply Hi.
Qed.

Lemma nominee_jval c l n x : hist c l -> nominee_of l = Some (n, x) -> utf8 n /\ jval (jc_opt jc_expiration) x.
Proof.
  intros H. apply hist_items in H. induction H as [|i l Hi _ IH]; [discriminate|].
  destruct i; cbn [nominee_of]; auto; try discriminate.
  destruct m as [| | | |[]]; auto; try discriminate. intro E. injection E as <- <-. apply Hi.
Qed.

Lemma callback_jval c l : hist c l -> jval (jc_opt jc_str) (callback_of l).
Proof.
  intros H. apply hist_items in H. induction H as [|i l Hi _ IH]; [exact I|].
  destruct i; cbn [callback_of]; auto.
  - destruct Hi as [_ Hm]. destruct m as [o op cb]. apply Hm.
  - destruct m as [| | | |[]]; auto. apply Hi.
Qed.

Lemma last_opened_ok c l ch : hist c l -> last_opened l = Some ch ->
  jval jc_channel ch /\ exists md, from_json jc_metadata (ch_version ch) = Some md.
Proof.
  intros H. apply hist_items in H. induction H as [|i l Hi _ IH]; [discriminate|].
  destruct i; cbn [last_opened]; auto. intro E. injection E as <-. exact Hi.
Qed.

Lemma hist_started c l : hist c l -> l <> [] -> exists x, owner_of l = Some x.
Proof.
  induction 1 as [|l new _ IH B]; [congruence|]. intros _.
  destruct B as [B|B].
  - destruct B; cbn [app owner_of]; auto; eauto.
  - assert (Hl : l <> []).
    { intros ->. destruct B; discriminate. }
    destruct (IH Hl) as [x Hx]. exists x.
    destruct B; repeat match goal with H : callback _ _ _ |- _ => apply callback_quiet in H as [->|(? & ? & ->)] end;
      exact Hx.
Qed.

Section Visited.
Variables (c : cfg) (w : world).
Hypotheses (Hc : cfg_ok c) (V : visited c w).

Lemma store_log : w_store w = None <-> w_log w = [].
Proof.
  split.
  - intro H. apply (ip_none _ (inv_pkts _ _ (visited_inv c w Hc V)) H).
  - intro H. destruct (w_store w) as [s|] eqn:E; [|reflexivity].
    destruct (io_owner _ _ (inv_owner _ _ (visited_inv c w Hc V) _ E)) as (o & x & _ & _ & H1 & _).
    rewrite H in H1. discriminate.
Qed.

Lemma asked raw q : from_json jc_query_msg raw = Some q -> w_log w = [] -> ask w raw = None.
Proof. intros _ H. unfold ask. apply store_log in H. now rewrite H. Qed.

Lemma ask_ownership_text : w_log w <> [] ->
  let o := Ownership (owner_of (w_log w)) (option_map fst (nominee_of (w_log w)))
     (n <-? nominee_of (w_log w) ;; snd n) in
  ask w get_ownership = Some (to_json jc_ownership o) /\ from_json jc_ownership (to_json jc_ownership o) = Some o.
Proof.
  intro H. destruct (w_store w) as [s|] eqn:E; [|elim H; now apply store_log].
  assert (Hh := visited_hist c w Hc V).
  destruct (io_owner _ _ (inv_owner _ _ (visited_inv c w Hc V) _ E)) as (o & x & O1 & O2 & O3 & O4).
  assert (Eo : o = Ownership (owner_of (w_log w)) (option_map fst (nominee_of (w_log w)))
     (n <-? nominee_of (w_log w) ;; snd n)).
  { destruct o as [a b d]. cbn in O2, O4. destruct (nominee_of (w_log w)) as [[n y]|]; cbn; destruct O4; congruence. }
  cbv zeta. split.
  { unfold ask. rewrite E. change (from_json jc_query_msg get_ownership) with (Some QOwnership).
    cbn [obind query load]. rewrite O1. cbn [of_option load bindo ok_of]. now rewrite Eo. }
  apply json_roundtrip; [apply jc_ownership_ok|].
  destruct (owner_of (w_log w)) as [y|] eqn:Ey; [|discriminate].
  split; [split; [eapply owner_utf8; eassumption|discriminate]|].
  destruct (nominee_of (w_log w)) as [[n z]|] eqn:En; [|split; exact I].
  destruct (nominee_jval _ _ _ _ Hh En) as [N1 N2].
  split; [split; [exact N1|discriminate]|exact N2].
Qed.
Theorem ask_ownership : w_log w <> [] ->
  owner_reported w (Ownership (owner_of (w_log w)) (option_map fst (nominee_of (w_log w)))
     (n <-? nominee_of (w_log w) ;; snd n)).
Proof. intro H. eexists. exact (ask_ownership_text H). Qed.

Lemma ask_channel_text : w_log w <> [] ->
  match recorded (w_log w) with
  | None => ask w get_channel = None
  | Some (ch, b) => let x := ChannelState ch (if b then StOpen else StClosed) in
      ask w get_channel = Some (to_json jc_channel_state x) /\
      from_json jc_channel_state (to_json jc_channel_state x) = Some x
  end.
Proof.
  intro H. destruct (w_store w) as [s|] eqn:E; [|elim H; now apply store_log].
  assert (Hh := visited_hist c w Hc V). assert (R := il_rec _ (visited_log c w Hc V) _ E).
  unfold ask. rewrite E. change (from_json jc_query_msg get_channel) with (Some QGetChannel).
  cbn [obind query load]. rewrite R. unfold recorded_state.
  pose proof (recorded_last (w_log w)) as L. destruct (recorded (w_log w)) as [[ch b]|]; [|reflexivity].
  cbn [option_map load of_option bindo ok_of]. cbv zeta. split; [reflexivity|].
  apply json_roundtrip; [apply jc_channel_state_ok|].
  split; [apply (proj1 (last_opened_ok _ _ _ Hh L))|destruct b; exact I].
Qed.
Theorem ask_channel : w_log w <> [] ->
  match recorded (w_log w) with
  | None => ask w get_channel = None
  | Some (ch, b) => channel_reported w ch (if b then StOpen else StClosed)
  end.
Proof.
  intro H. pose proof (ask_channel_text H) as T. destruct (recorded (w_log w)) as [[ch b]|]; [|exact T].
  eexists. exact T.
Qed.

Lemma ask_state_text : w_log w <> [] ->
  let x := ContractState (account_of (w_log w)) (callback_of (w_log w)) in
  ask w get_contract_state = Some (to_json jc_contract_state x) /\
  from_json jc_contract_state (to_json jc_contract_state x) = Some x.
Proof.
  intro H. destruct (w_store w) as [s|] eqn:E; [|elim H; now apply store_log].
  assert (Hh := visited_hist c w Hc V). assert (I := visited_inv c w Hc V).
  destruct (io_callback _ _ (inv_owner _ _ I _ E)) as (st & S1 & S2).
  assert (Ei : cs_ica st = account_of (w_log w) /\ jval (jc_opt jc_ica_info) (cs_ica st)).
  { pose proof (inv_recorded _ _ I _ E) as R. unfold inv_rec in R. unfold account_of.
    destruct (st_channel s) as [cs|].
    - destruct R as (st' & info & ce & md & R1 & R2 & R3 & R4 & R5 & R6 & R7 & R8 & R9 & R10 & R11 & R12).
      rewrite S1 in R1. injection R1 as <-. rewrite R5, R6. cbn [channel_of ch_version ch_endpoint e_chan].
      rewrite R9, R2, R10. destruct info as [ad ch en]. cbn in *. subst en. split; [reflexivity|].
      split; [|discriminate]. split; [apply R12|]. split; [|exact Logic.I].
      pose proof (ic_chan _ _ (inv_chans _ _ I) ch) as C. rewrite R3 in C. apply C.
    - destruct R as (R1 & st' & R2 & R3). rewrite R1. rewrite S1 in R2. injection R2 as <-. rewrite R3.
      split; [reflexivity|exact Logic.I]. }
  destruct Ei as [Ei1 Ei2].
  cbv zeta. unfold ask. rewrite E. change (from_json jc_query_msg get_contract_state) with (Some QGetContractState).
  cbn [obind query load]. rewrite S1. cbn [of_option load bindo ok_of].
  assert (Es : st = ContractState (account_of (w_log w)) (callback_of (w_log w))).
  { destruct st. cbn in *. congruence. }
  rewrite <- Es. split; [reflexivity|]. apply json_roundtrip; [apply jc_contract_state_ok|].
  split; [exact Ei2|]. cbn. rewrite S2. eapply callback_jval. exact Hh.
Qed.
Theorem ask_state : w_log w <> [] ->
  state_reported w (ContractState (account_of (w_log w)) (callback_of (w_log w))).
Proof. intro H. eexists. exact (ask_state_text H). Qed.

End Visited.
