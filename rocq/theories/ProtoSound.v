(** * ProtoSound: whatever decodes is a value of the Rust type. *)

From Verif Require Import Base Utf8 Proto ProtoFacts.
From Coq Require Import ZifyBool ZifyNat ZifyN.
Local Open Scope string_scope.
Local Open Scope list_scope.
Local Open Scope N_scope.

Lemma dvar_f_bound k : forall s n r, dvar_f (S k) s = Some (n, r) -> n < 2 * 128 ^ N.of_nat k.
Proof.
  induction k as [|k IH]; intros s n r H.
  - destruct s as [|ch s]; [discriminate|]. cbn [dvar_f] in H. destruct (bn ch <? 128); [|discriminate].
    cbn [Nat.eqb andb] in H. destruct (2 <=? bn ch) eqn:E; [discriminate|]. inversion H; subst.
    change (N.of_nat 0) with 0. rewrite N.pow_0_r. lia.
  - destruct s as [|ch s]; [discriminate|]. remember (S k) as k1. cbn [dvar_f] in H.
    pose proof (bn_lt ch). rewrite Heqk1, Nat2N.inj_succ, N.pow_succ_r'.
    assert (Hp : 1 <= 128 ^ N.of_nat k) by (pose proof (N.pow_nonzero 128 (N.of_nat k)); lia).
    destruct (bn ch <? 128) eqn:E.
    + replace (k1 =? 0)%nat with false in H by (destruct k1; [lia|reflexivity]).
      cbn [andb] in H. inversion H; subst. lia.
    + apply obind_some in H as ([m r1] & Hm & H). assert (E1 : bn ch - 128 + 128 * m = n) by congruence.
      apply IH in Hm. rewrite <- E1. lia.
Qed.

Lemma dvar_bound s n r : dvar s = Some (n, r) -> n < u64_lim.
Proof. intro H. apply dvar_f_bound in H. exact H. Qed.

Definition num_ok (w : wv) : Prop := match w with WVar n => n < u64_lim | _ => True end.

Lemma dwire_ok wt s w r : dwire wt s = Some (w, r) -> num_ok w.
Proof.
  unfold dwire. intro H.
  repeat match type of H with (if ?b then _ else _) = _ => destruct b end; try discriminate;
    apply obind_some in H as ([n r1] & Hn & H).
  - inversion H; subst. cbn. eapply dvar_bound; eassumption.
  - inversion H; subst. exact I.
  - apply obind_some in H as ([b r2] & _ & H). inversion H; subst. exact I.
  - inversion H; subst. exact I.
Qed.

Lemma dfields_ok s l : dfields s = Some l -> Forall (fun f => num_ok (snd f)) l.
Proof.
  unfold dfields. generalize (String.length s) as k. intro k. revert s l.
  induction k as [|k IH]; intros s l H; destruct s as [|ch s]; cbn [dfields_f] in H;
    try discriminate; try (inversion H; constructor).
  apply obind_some in H as ([[t w] r] & Hf & H). apply obind_some in H as (l' & Hl & H).
  inversion H; subst. constructor; [|eapply IH; eassumption]. cbn [snd].
  unfold dfield in Hf. apply obind_some in Hf as ([[t' wt] r1] & _ & Hf).
  destruct (wt =? 3).
  - apply obind_some in Hf as (r2 & _ & Hf). inversion Hf; subst. exact I.
  - apply obind_some in Hf as ([w' r2] & Hw & Hf). inversion Hf; subst. eapply dwire_ok; eassumption.
Qed.

Lemma dvars_ok k : forall s l, dvars_f k s = Some l -> forallb (fun n => n <? u64_lim) l = true.
Proof.
  induction k as [|k IH]; intros s l H; destruct s as [|ch s]; cbn [dvars_f] in H;
    try discriminate; try (inversion H; reflexivity).
  apply obind_some in H as ([n r] & Hn & H). apply obind_some in H as (l' & Hl & H).
  inversion H; subst. cbn [forallb]. apply dvar_bound in Hn. rewrite (IH _ _ Hl).
  apply andb_true_iff. split; [lia|reflexivity].
Qed.

(** Merging a field keeps a value of the type. *)
Definition sound (k : kind) : Prop := forall cur w v,
  val_ok k cur = true -> num_ok w -> merge_val k cur w = Some v -> val_ok k v = true.

Lemma default_slots d : Forall (fun f => val_ok (snd (snd f)) (default_val (snd (snd f))) = true) d ->
  msg_ok d (default_msg d) = true.
Proof.
  induction 1 as [|[t [lab k]] d H _ IH]; [reflexivity|]. cbn [snd] in H.
  change (msg_ok ((t, (lab, k)) :: d) (default_msg ((t, (lab, k)) :: d)))
    with (slot_ok val_ok lab k (default_slot (lab, k)) && msg_ok d (default_msg d))%bool.
  rewrite IH, andb_true_r. destruct lab, k; try reflexivity.
Qed.

Lemma default_ok k : val_ok k (default_val k) = true.
Proof.
  induction k using kind_ind'; try reflexivity.
  change (msg_ok fs (default_msg fs) = true). now apply default_slots.
Qed.

Lemma default_msg_ok d : msg_ok d (default_msg d) = true.
Proof. exact (default_ok (KMsg d)). Qed.

Lemma merge_slot_ok lab k slot w slot' : sound k -> num_ok w ->
  slot_ok val_ok lab k slot = true -> merge_slot merge_val lab k slot w = Some slot' ->
  slot_ok val_ok lab k slot' = true.
Proof.
  intros Hk Hw Hs H. unfold merge_slot in H. destruct lab.
  - apply obind_some in H as (v & Hv & H). inversion H; subst. clear H.
    assert (V : val_ok k v = true).
    { eapply Hk; [|exact Hw|exact Hv]. destruct slot as [|x rest]; [apply default_ok|].
      destruct k; cbn in Hs |- *; try (destruct rest; [exact Hs|discriminate]). }
    destruct k; exact V.
  - apply obind_some in H as (v & Hv & H). inversion H; subst.
    assert (V : val_ok k v = true) by (eapply Hk; [apply default_ok|exact Hw|exact Hv]).
    assert (G : forallb (val_ok k) (slot ++ [v]) = true).
    { rewrite forallb_app. cbn [forallb]. rewrite V. assert (forallb (val_ok k) slot = true)
        by (destruct k; exact Hs). now rewrite H0. }
    destruct k; exact G.
Qed.

Lemma merge_field_ok d : Forall (fun f => sound (snd (snd f))) d -> forall vs t w vs',
  num_ok w -> msg_ok d vs = true -> merge_field merge_val d vs t w = Some vs' -> msg_ok d vs' = true.
Proof.
  induction 1 as [|[t0 [lab k]] d Hk _ IH]; intros vs t w vs' Hw Hv H.
  - destruct vs; inversion H; subst; exact Hv.
  - destruct vs as [|slot vs]; [discriminate|].
    change (msg_ok ((t0, (lab, k)) :: d) (slot :: vs))
      with (slot_ok val_ok lab k slot && msg_ok d vs)%bool in Hv.
    apply andb_true_iff in Hv as [H1 H2]. cbn [merge_field] in H. destruct (t0 =? t).
    + apply obind_some in H as (s' & Hs & H). inversion H; subst.
      change (slot_ok val_ok lab k s' && msg_ok d vs = true)%bool. rewrite H2, andb_true_r.
      eapply merge_slot_ok; eassumption.
    + apply obind_some in H as (r & Hr & H). inversion H; subst.
      change (slot_ok val_ok lab k slot && msg_ok d r = true)%bool. rewrite H1. cbn [andb].
      eapply IH; eassumption.
Qed.

Lemma merge_fields_ok d : Forall (fun f => sound (snd (snd f))) d -> forall l vs vs',
  Forall (fun f => num_ok (snd f)) l -> msg_ok d vs = true ->
  merge_fields merge_val d l vs = Some vs' -> msg_ok d vs' = true.
Proof.
  intros Hd l. induction l as [|[t w] l IH]; intros vs vs' Hl Hv H.
  - inversion H; subst; exact Hv.
  - inversion Hl; subst. cbn [merge_fields] in H. apply obind_some in H as (v1 & H1 & H).
    eapply IH; [eassumption| |exact H]. eapply merge_field_ok; eassumption.
Qed.

Lemma sound_all k : sound k.
Proof.
  induction k as [| | | | | |fs IHf] using kind_ind'; intros cur w v Hc Hw H; cbn [merge_val] in H.
  - destruct w; try discriminate. destruct (utf8_valid s) eqn:E; inversion H; subst. exact E.
  - destruct w; inversion H; subst. reflexivity.
  - destruct w; inversion H; subst. cbn in Hw |- *. lia.
  - destruct w; inversion H; subst. cbn [val_ok]. apply N.ltb_lt. apply N.mod_lt. discriminate.
  - destruct w; inversion H; subst. cbn [val_ok]. destruct (n =? 0); reflexivity.
  - destruct w; try discriminate.
    + inversion H; subst. cbn [val_ok]. destruct cur; cbn in Hc; try discriminate.
      rewrite forallb_app, Hc. cbn [forallb]. cbn in Hw. replace (n <? u64_lim) with true by lia. reflexivity.
    + apply obind_some in H as (l & Hl & H). inversion H; subst. cbn [val_ok].
      destruct cur; cbn in Hc; try discriminate. rewrite forallb_app, Hc. cbn [andb].
      eapply dvars_ok; exact Hl.
  - destruct w; try discriminate. apply obind_some in H as (l & Hl & H).
    apply obind_some in H as (vs & Hv & H). inversion H; subst.
    change (msg_ok fs vs = true). eapply merge_fields_ok; [exact IHf|eapply dfields_ok; exact Hl| |exact Hv].
    destruct cur; try discriminate Hc. exact Hc.
Qed.

Theorem pb_decode_ok d s m : pb_decode d s = Some m -> msg_ok d m = true.
Proof.
  unfold pb_decode. intro H. apply obind_some in H as (l & Hl & H).
  eapply merge_fields_ok; [|eapply dfields_ok; exact Hl|apply default_msg_ok|exact H].
  apply Forall_forall. intros f _. apply sound_all.
Qed.
