(** * HistFacts: tools to prove properties of histories. *)

From Verif Require Import Base Text Utf8 Base64 Proto ProtoFacts Schemas Json JsonCodec Types JsonTypes Store
  CosmosMsg QueryMsg Metadata Stargate PacketData Ownable Semver Contract JsonSound HostSpec HostFacts PacketFacts
  AnswerSpec AnswerFacts AnswerJson EntryFacts Chain ChainSpec Trans Inv HistorySpec History Queries.
From Coq Require Import ZifyBool ZifyN.
Local Open Scope string_scope.
Local Open Scope list_scope.
Local Open Scope N_scope.

(** ** One action adds one block *)

Lemma act_block c w a w' b : cfg_ok c -> visited c w -> act c a w = Some (w', b) ->
  exists new, block c (w_log w) new /\ w_log w' = new ++ w_log w.
Proof.
  intros Hc V H. eapply hist_trans; [exact Hc|apply visited_inv; assumption|eapply visited_log; eassumption|
    apply visited_hist; assumption|]. eapply act_trans; [exact Hc|eapply visited_base; eassumption|exact H].
Qed.

(** ** Later worlds *)

Lemma later_visited c w w' : visited c w -> later c w w' -> visited c w'.
Proof. intros V. induction 1; [exact V|]. eapply visited_act; eassumption. Qed.

Lemma later_trans c w w1 w2 : later c w w1 -> later c w1 w2 -> later c w w2.
Proof. intros H. induction 1; [exact H|]. eapply later_act; eassumption. Qed.

Lemma visited_later c w : visited c w <-> later c init_world w.
Proof.
  split; induction 1; try constructor; [eapply later_act; eassumption|].
  eapply visited_act; eassumption.
Qed.

Lemma runs_later c (f : tx -> world -> option world) l :
  Forall (fun t => forall w w', f t w = Some w' -> later c w w') l ->
  forall w, later c w (runs f l w).
Proof.
  induction 1 as [|t l Ht Hl IH]; intros w; [constructor|]. cbn.
  destruct (f t w) as [w1|] eqn:E; [|apply IH]. eapply later_trans; [eapply Ht; exact E|apply IH].
Qed.

Fixpoint step_later c (t : tx) {struct t} : forall w w', step c t w = Some w' -> later c w w'.
Proof.
  destruct t as [a beh]. intros w w' H. cbn [step] in H.
  apply obind_some in H as ([w1 called] & HA & H).
  assert (L : later c w w1) by (eapply later_act; [constructor|eassumption]).
  destruct called; [|injection H as <-; exact L].
  destruct beh as [l|]; [|discriminate]. injection H as <-.
  eapply later_trans; [exact L|]. apply runs_later. clear -step_later. induction l as [|t l IH]; constructor.
  - exact (step_later c t).
  - exact IH.
Qed.

Theorem run_later c l w : later c w (run c l w).
Proof. apply runs_later. apply Forall_forall. intros t _. apply step_later. Qed.

(** A history of the abstract machine that continues [l]. *)
Inductive hist_from (c : cfg) (l : list logitem) : list logitem -> Prop :=
| from_refl : hist_from c l l
| from_block l' new : hist_from c l l' -> block c l' new -> hist_from c l (new ++ l').

Lemma later_hist c w w' : cfg_ok c -> visited c w -> later c w w' -> hist_from c (w_log w) (w_log w').
Proof.
  intros Hc V L. induction L as [|w1 a w2 b L IH H]; [constructor|].
  destruct (act_block c w1 a w2 b Hc (later_visited _ _ _ V L) H) as (new & B & ->). now constructor.
Qed.

Lemma hist_from_hist c l l' : hist c l -> hist_from c l l' -> hist c l'.
Proof. intro H. induction 1; [exact H|now constructor]. Qed.

Lemma hist_from_app c l l' : hist_from c l l' -> exists new, l' = new ++ l.
Proof.
  induction 1 as [|l' new H (n & ->) B]; [now exists []|]. exists (new ++ n). now rewrite app_assoc.
Qed.

Lemma later_log c w w' : cfg_ok c -> visited c w -> later c w w' -> exists new, w_log w' = new ++ w_log w.
Proof. intros. eapply hist_from_app, later_hist; eassumption. Qed.

(** ** Every item belongs to a block *)

Lemma app_split {A} (l1 : list A) : forall x l2 n l, n ++ l = l1 ++ x :: l2 ->
  (exists n2, n = l1 ++ x :: n2 /\ l2 = n2 ++ l) \/ (exists l3, l = l3 ++ x :: l2 /\ l1 = n ++ l3).
Proof.
  induction l1 as [|y l1 IH]; intros x l2 n l H.
  - destruct n as [|z n]; cbn in H; [right; now exists []|]. injection H as -> <-. left. now exists n.
  - destruct n as [|z n]; cbn in H; [right; now exists (y :: l1)|]. injection H as -> H.
    destruct (IH _ _ _ _ H) as [(n2 & -> & ->)|(l3 & -> & ->)]; [left; now exists n2|right; now exists l3].
Qed.

Lemma hist_item c l l1 x l2 : hist c l -> l = l1 ++ x :: l2 ->
  exists l0 n1 n2, hist c l0 /\ block c l0 (n1 ++ x :: n2) /\ l2 = n2 ++ l0.
Proof.
  intros H. revert l1. induction H as [|l new Hl IH B]; intros l1 E; [now destruct l1|].
  destruct (app_split _ _ _ _ _ E) as [(n2 & -> & ->)|(l3 & E' & ->)].
  - exists l, l1, n2. auto.
  - apply (IH l3 E').
Qed.

Lemma split1 {A} (a x : A) n1 n2 : [a] = n1 ++ x :: n2 -> a = x /\ n1 = [] /\ n2 = [].
Proof. destruct n1 as [|y [|]]; cbn; intro H; try discriminate. injection H as -> <-. auto. Qed.
Lemma split2 {A} (a b x : A) n1 n2 : [a; b] = n1 ++ x :: n2 ->
  a = x /\ n1 = [] /\ n2 = [b] \/ b = x /\ n1 = [a] /\ n2 = [].
Proof.
  destruct n1 as [|y n1]; cbn; intro H; injection H as -> H; [subst; auto|].
  apply split1 in H as (-> & -> & ->). auto.
Qed.
Lemma split3 {A} (a b d x : A) n1 n2 : [a; b; d] = n1 ++ x :: n2 ->
  a = x /\ n1 = [] /\ n2 = [b; d] \/ b = x /\ n1 = [a] /\ n2 = [d] \/ d = x /\ n1 = [a; b] /\ n2 = [].
Proof.
  destruct n1 as [|y n1]; cbn; intro H; injection H as -> H; [subst; auto|].
  apply split2 in H as [(-> & -> & ->)|(-> & -> & ->)]; auto 6.
Qed.

(** Take apart a block known to contain an item. *)
Ltac split_item E :=
  lazymatch type of E with
  | [_] = _ => apply split1 in E as (E & ? & ?)
  | [_; _] = _ => apply split2 in E as [(E & ? & ?)|(E & ? & ?)]
  | [_; _; _] = _ => apply split3 in E as [(E & ? & ?)|[(E & ? & ?)|(E & ? & ?)]]
  end.
Ltac block_cases B :=
  let E := fresh "E" in
  match type of B with block _ _ ?n => remember n as new_ eqn:E in B end;
  destruct B as [B|B]; destruct B;
  repeat match goal with H : callback _ _ _ |- _ =>
    let R := fresh "R" in destruct H as [H R] end;
  repeat match goal with R : ?i = match callback_of ?l with Some _ => _ | None => _ end |- _ =>
    destruct (callback_of l) eqn:?; subst i end;
  cbn [app] in E; split_item E; try discriminate E; subst.

Lemma hist_app c l1 l2 : hist c (l1 ++ l2) -> exists l0 n2, hist c l0 /\ l2 = n2 ++ l0 /\
  (n2 = [] \/ exists n1, block c l0 (n1 ++ n2)).
Proof.
  intro H. destruct l2 as [|x l2].
  - exists [], []. split; [constructor|]. auto.
  - destruct (hist_item _ _ _ _ _ H eq_refl) as (l0 & n1 & n2 & H0 & B & ->).
    exists l0, (x :: n2). split; [exact H0|]. split; [reflexivity|]. right. exists n1. exact B.
Qed.

(** ** Always *)

Lemma hist_always c (P : logitem -> list logitem -> Prop) :
  (forall l n1 x n2, hist c l -> block c l (n1 ++ x :: n2) -> P x (n2 ++ l)) ->
  forall l, hist c l -> always P l.
Proof.
  intros HB l H. apply always_split. intros l1 x l2 E.
  destruct (hist_item _ _ _ _ _ H E) as (l0 & n1 & n2 & H0 & B & ->). eapply HB; eassumption.
Qed.

Lemma always_in P l x : always P l -> In x l -> exists l2, P x l2.
Proof.
  induction l as [|y l IH]; [contradiction|]. intros [H1 H2] [->|H]; [eauto|auto].
Qed.

(** ** Which action logs which call *)

Definition quiet (i : logitem) : Prop :=
  match i with LInstantiated _ _ _ | LExecuted _ _ _ | LMigrated => False | _ => True end.
Definition call_item (c : cfg) (a : action) : list logitem :=
  match a with
  | AInstantiate _ h t sender raw _ _ =>
      match from_json jc_instantiate_msg raw with
      | Some m => [LInstantiated (Env h t (c_self c)) sender m] | None => [] end
  | AExecute h t sender raw _ _ =>
      match from_json jc_execute_msg raw with
      | Some m => [LExecuted (Env h t (c_self c)) sender m] | None => [] end
  | AMigrate _ => [LMigrated]
  | _ => []
  end.

Definition adds (w w' : world) : Prop := exists pre, w_log w' = pre ++ w_log w /\ Forall quiet pre.
Lemma adds_same w w' : w_log w' = w_log w -> adds w w'.
Proof. intro H. exists []. auto. Qed.
Lemma adds_note w w' i : adds w w' -> quiet i -> adds w (note i w').
Proof. intros (pre & H & F) Hi. exists (i :: pre). split; [cbn; now rewrite H|now constructor]. Qed.
Lemma adds_log w w1 w2 : adds w w1 -> w_log w2 = w_log w1 -> adds w w2.
Proof. intros (pre & H & F) E. exists pre. split; [congruence|exact F]. Qed.
Lemma adds_events l w w' : adds w w' -> adds w (note_events l w').
Proof. revert w'. induction l as [|ev l IH]; intros w' H; [exact H|]. cbn. apply IH. now apply adds_note. Qed.
Lemma adds_from w0 w1 w : w_log w1 = w_log w0 -> adds w1 w -> adds w0 w.
Proof. intros E (pre & H & F). exists pre. split; [congruence|exact F]. Qed.

Lemma dispatch_exec_adds c e sender m id ok r w w' : dispatch_exec c e sender m id ok r w = Some w' -> adds w w'.
Proof.
  unfold dispatch_exec. intro H.
  assert (A0 := adds_events (r_events r) w w (adds_same w w eq_refl)).
  set (w0 := note_events (r_events r) w) in *. clearbody w0.
  destruct (r_msgs r) as [|sm [|]]; [injection H as <-; exact A0| |discriminate].
  apply obind_some in H as (? & _ & H).
  destruct (sm_msg sm) as [ | | | |u v|i| | ]; try discriminate.
  - destruct (sm_reply sm); [discriminate|].
    apply obind_some in H as (? & _ & H). apply obind_some in H as (? & _ & H).
    apply obind_some in H as (oi & _ & H). apply obind_some in H as (? & _ & H).
    apply obind_some in H as (o & _ & H). destruct (oi_hops oi) as [|conn [|]]; try discriminate.
    unfold core_open in H. apply obind_some in H as (? & _ & H). apply obind_some in H as (? & _ & H).
    apply obind_some in H as (s & _ & H). apply obind_some in H as ([s' y] & _ & H). injection H as <-.
    apply adds_note; [|exact I]. eapply adds_log; [exact A0|reflexivity].
  - destruct i as [ |chan data t|chan]; try discriminate.
    + apply obind_some in H as (mm & _ & H). apply obind_some in H as ([w1 n] & H1 & H).
      unfold core_send in H1. apply obind_some in H1 as (? & _ & H1). apply obind_some in H1 as (? & _ & H1).
      apply obind_some in H1 as (? & _ & H1). injection H1 as <- <-.
      assert (A1 : adds w (note (LSent e sender mm (Packet data (Endpoint (port c) chan) (ce_cp x0) (w_nextseq w0 chan) t))
         (put_commit chan (w_nextseq w0 chan) (Some (Packet data (Endpoint (port c) chan) (ce_cp x0) (w_nextseq w0 chan) t))
           (put_nextseq chan (w_nextseq w0 chan + 1) w0)))).
      { apply adds_note; [|exact I]. eapply adds_log; [exact A0|reflexivity]. }
      destruct (sm_reply sm); [|injection H as <-; exact A1].
      apply obind_some in H as (s & _ & H). apply obind_some in H as ([s' rr] & _ & H).
      apply obind_some in H as (? & _ & H). injection H as <-. apply adds_events. eapply adds_log; [exact A1|reflexivity].
    + destruct (sm_reply sm); [discriminate|]. unfold core_close_init in H.
      apply obind_some in H as (ce & _ & H). apply obind_some in H as (s & _ & H).
      apply obind_some in H as ([s' rr] & _ & H). apply obind_some in H as (? & _ & H).
      apply obind_some in H as (? & _ & H). injection H as <-.
      apply adds_note; [|exact I]. eapply adds_log; [apply adds_events|reflexivity].
      apply (adds_log w w0); [exact A0|reflexivity].
Qed.

Lemma dispatch_call_adds r w w' b : dispatch_call r w = Some (w', b) -> adds w w'.
Proof.
  unfold dispatch_call. intro H.
  assert (A0 := adds_events (r_events r) w w (adds_same w w eq_refl)).
  set (w0 := note_events (r_events r) w) in *. clearbody w0.
  destruct (r_msgs r) as [|sm [|]]; [injection H as <- _; exact A0| |discriminate].
  destruct (sm_msg sm) as [ | | | | | |[ ? ? [|] | | | | | ]| ]; try discriminate.
  destruct (sm_reply sm); [discriminate|]. injection H as <- _. now apply adds_note.
Qed.

Lemma act_log c a w w' b : act c a w = Some (w', b) ->
  exists pre, w_log w' = pre ++ call_item c a ++ w_log w /\ Forall quiet pre.
Proof.
  intro H. destruct a; cbn [act call_item] in *;
  repeat match type of H with
    | obind _ _ = Some _ => apply obind_some in H; destruct H as [? [? H]]
    | (let '(_, _) := ?p in _) = Some _ => destruct p
    | match ?p with (_, _) => _ end = Some _ => is_var p; destruct p
    | dispatch_call _ _ = Some _ => apply dispatch_call_adds in H as (pre & H & F)
    | Some _ = Some _ => injection H as <- <-
    end.
  1,2: match goal with H : from_json _ _ = _, D : dispatch_exec _ _ _ _ _ _ _ _ = _ |- _ =>
    rewrite H; apply dispatch_exec_adds in D as (pre & D & F); exists pre; auto end.
  - exists []. auto.
  - match goal with H : core_open _ _ _ _ _ _ _ = _ |- _ => rename H into HO end. unfold core_open in HO.
    apply obind_some in HO as (? & _ & H). apply obind_some in H as (? & _ & H).
    apply obind_some in H as (s & _ & H). apply obind_some in H as ([s' y] & _ & H). injection H as <-.
    exists [LChanInit id]. split; [reflexivity|]. repeat constructor.
  - exists []. auto.
  - exists (pre ++ [LChanOpen (channel_of c id (ChanEnd COpen (ce_order x0) (Endpoint (e_port (ce_cp x0)) cp_chan) (ce_conn x0) cp_version))]).
    split; [rewrite H; cbn; now rewrite <- app_assoc|]. apply Forall_app. split; [exact F|]. repeat constructor.
  - exists pre. auto.
  - match goal with H : core_close_init _ _ _ = _ |- _ => rename H into HO end. unfold core_close_init in HO.
    apply obind_some in HO as (ce & _ & H). apply obind_some in H as (s & _ & H).
    apply obind_some in H as ([s' rr] & _ & H). apply obind_some in H as (? & _ & H).
    apply obind_some in H as (? & _ & H). injection H as <-.
    assert (A : adds w (note (LChanClosed id) (put_chan id (ChanEnd CClosed (ce_order ce) (ce_cp ce) (ce_conn ce) (ce_version ce))
       (note_events (r_events rr) (put_store s' w))))).
    { apply adds_note; [|exact I]. eapply adds_log; [apply adds_events|reflexivity]. now apply adds_same. }
    destruct A as (pre & A & F). exists pre. auto.
  - exists (pre ++ [LChanClosed id]). split; [rewrite H; cbn; now rewrite <- app_assoc|].
    apply Forall_app. split; [exact F|]. repeat constructor.
  - exists (pre ++ [LAck x2 ack relayer]). split.
    + rewrite H. cbn. rewrite <- app_assoc. destruct (ce_order x0); reflexivity.
    + apply Forall_app. split; [exact F|]. repeat constructor.
  - exists (pre ++ [LTimeout x1 relayer]). split.
    + rewrite H. cbn. rewrite <- app_assoc. destruct (ce_order x0); reflexivity.
    + apply Forall_app. split; [exact F|]. repeat constructor.
  - exists pre. auto.
Qed.

(** The block of an action ends with its call. *)
Lemma act_block_call c w a w' b : cfg_ok c -> visited c w -> act c a w = Some (w', b) ->
  exists pre, Forall quiet pre /\ block c (w_log w) (pre ++ call_item c a) /\
    w_log w' = (pre ++ call_item c a) ++ w_log w.
Proof.
  intros Hc V H. destruct (act_block c w a w' b Hc V H) as (new & B & E).
  destruct (act_log c a w w' b H) as (pre & E' & F).
  assert (En : new = pre ++ call_item c a).
  { rewrite E in E'. rewrite app_assoc in E'. now apply app_inv_tail in E'. }
  subst new. exists pre. auto.
Qed.
