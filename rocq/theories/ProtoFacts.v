(** * ProtoFacts: decoding inverts encoding, for every descriptor. *)

From Verif Require Import Base Utf8 Proto.
From Coq Require Import ZifyBool ZifyNat ZifyN.
Local Open Scope string_scope.
Local Open Scope list_scope.
Local Open Scope N_scope.
Ltac Zify.zify_post_hook ::= Z.div_mod_to_equations.

Section KindInd.
  Variable P : kind -> Prop.
  Hypothesis H1 : P KStr. Hypothesis H2 : P KBytes. Hypothesis H3 : P KU64.
  Hypothesis H4 : P KU32. Hypothesis H5 : P KBool. Hypothesis H6 : P KPack.
  Hypothesis H7 : forall fs, Forall (fun f => P (snd (snd f))) fs -> P (KMsg fs).
  Fixpoint kind_ind' (k : kind) : P k :=
    match k with
    | KStr => H1 | KBytes => H2 | KU64 => H3 | KU32 => H4 | KBool => H5 | KPack => H6
    | KMsg fs => H7 fs ((fix go fs : Forall (fun f => P (snd (snd f))) fs :=
        match fs with
        | [] => Forall_nil _
        | f :: r => Forall_cons f
            (match f as f0 return P (snd (snd f0)) with (_, (_, k')) => kind_ind' k' end) (go r)
        end) fs)
    end.
End KindInd.

(** ** Varints *)

Lemma dvar_evar_f k : forall n rest,
  n < 128 ^ N.of_nat k -> (0 < k <= 9)%nat -> forall j, (k <= j)%nat -> (j <= 9)%nat ->
  dvar_f (S j) (evar_f (S j) n +++ rest) = Some (n, rest).
Proof.
  induction k as [|k IH]; intros n rest Hn Hk j Hj Hj9; [lia|].
  cbn [evar_f]. destruct (N.ltb_spec n 128) as [H|H].
  - unfold b1. cbn [String.append dvar_f]. rewrite bn_nb by lia.
    rewrite (proj2 (N.ltb_lt _ _) H).
    destruct j as [|j]; [lia|]. cbn [Nat.eqb andb]. reflexivity.
  - cbn [String.append dvar_f]. rewrite bn_nb by lia.
    rewrite (proj2 (N.ltb_ge _ _)) by lia.
    rewrite Nat2N.inj_succ, N.pow_succ_r' in Hn.
    destruct k as [|k]; [cbn in Hn; lia|].
    destruct j as [|j]; [lia|].
    rewrite IH by lia. cbn [obind]. do 2 f_equal. lia.
Qed.

Lemma pow128_9 : 128 ^ 9 = 9223372036854775808. Proof. reflexivity. Qed.

(** [dvar] reads back what [evar] wrote, up to 64 bits. *)
Lemma dvar_evar n rest : n < u64_lim -> dvar (evar n +++ rest) = Some (n, rest).
Proof.
  intro Hn. unfold dvar, evar.
  destruct (N.lt_ge_cases n (128 ^ 9)) as [H|H].
  - apply (dvar_evar_f 9 n rest); [exact H|lia|lia|lia].
  - (* ten bytes: the last one is 1 *)
    rewrite pow128_9 in H. unfold u64_lim in Hn.
    assert (G : forall j m, (j <= 8)%nat ->
       128 ^ N.of_nat (S j) <= m -> m < 2 * 128 ^ N.of_nat (S j) ->
       dvar_f (S (S j)) (evar_f (S (S j)) m +++ rest) = Some (m, rest)).
    { clear n Hn H. induction j as [|j IH]; intros m Hj Hlo Hhi.
      - cbn in Hlo, Hhi. cbn [evar_f]. rewrite (proj2 (N.ltb_ge _ _)) by lia.
        rewrite (proj2 (N.ltb_lt (m / 128) _)) by lia. unfold b1.
        cbn [String.append dvar_f]. rewrite !bn_nb by lia.
        rewrite (proj2 (N.ltb_ge _ _)) by lia.
        rewrite (proj2 (N.ltb_lt (m / 128) _)) by lia. cbn [Nat.eqb andb].
        rewrite (proj2 (N.leb_gt 2 (m / 128))) by lia.
        cbn [obind]. do 2 f_equal. lia.
      - rewrite Nat2N.inj_succ, N.pow_succ_r' in Hlo, Hhi.
        assert (128 <= m).
        { pose proof (N.pow_nonzero 128 (N.of_nat (S j)) ltac:(discriminate)). lia. }
        remember (S j) as j1 eqn:Hj1.
        change (evar_f (S (S j1)) m) with
          (if m <? 128 then b1 m else String (nb (128 + m mod 128)) (evar_f (S j1) (m / 128))).
        rewrite (proj2 (N.ltb_ge _ _)) by lia.
        cbn [String.append].
        change (dvar_f (S (S j1)) (String (nb (128 + m mod 128)) (evar_f (S j1) (m / 128) +++ rest)))
          with (let c := nb (128 + m mod 128) in
            if bn c <? 128 then
              (if Nat.eqb (S j1) 0 && (2 <=? bn c) then None
               else Some (bn c, evar_f (S j1) (m / 128) +++ rest))
            else ' (q, r1) <-? dvar_f (S j1) (evar_f (S j1) (m / 128) +++ rest) ;;
                 Some (bn c - 128 + 128 * q, r1)).
        cbv zeta. rewrite bn_nb by lia.
        rewrite (proj2 (N.ltb_ge _ _)) by lia.
        subst j1. rewrite IH; [|lia| |].
        + cbn [obind]. do 2 f_equal. lia.
        + apply N.div_le_lower_bound; lia.
        + apply N.div_lt_upper_bound; lia. }
    apply (G 8%nat); [lia| |].
    + change (128 ^ N.of_nat 9) with 9223372036854775808. exact H.
    + change (2 * 128 ^ N.of_nat 9) with 18446744073709551616. exact Hn.
Qed.

Lemma evar_nonempty n : exists c r, evar n = String c r.
Proof.
  unfold evar, b1.
  change (evar_f 10 n) with
    (if n <? 128 then b1 n else String (nb (128 + n mod 128)) (evar_f 9 (n / 128))).
  destruct (n <? 128); unfold b1; eauto.
Qed.

Lemma evar_len n : (1 <= String.length (evar n))%nat.
Proof. destruct (evar_nonempty n) as (c & r & ->). cbn. lia. Qed.

(** ** Fields *)

Definition wire_ok (f : N * wv) : Prop :=
  1 <= fst f < 536870912 /\
  match snd f with
  | WVar n => n < u64_lim
  | WLen s => slen s < u64_lim
  | W64 s => slen s = 8
  | W32 s => slen s = 4
  | WGroup => False
  end.

Lemma take_len_app n s rest : slen s = n -> take_len n (s +++ rest) = Some (s, rest).
Proof.
  intros <-. unfold take_len, slen. rewrite slen_app.
  rewrite (proj2 (N.ltb_ge _ _)) by lia. rewrite Nat2N.id. apply stake_app.
Qed.

Lemma dkey_evar t wt rest : 1 <= t < 536870912 -> wt < 8 ->
  dkey (evar (t * 8 + wt) +++ rest) = Some (t, wt, rest).
Proof.
  intros Ht Hw. unfold dkey. rewrite dvar_evar by (unfold u64_lim; lia).
  cbn [obind]. rewrite (proj2 (N.ltb_lt _ _)) by (unfold u32_lim; lia).
  replace ((t * 8 + wt) / 8) with t by lia.
  replace ((t * 8 + wt) mod 8) with wt by lia.
  rewrite (proj2 (N.eqb_neq _ _)) by lia. reflexivity.
Qed.

Lemma dfield_efield f rest : wire_ok f -> dfield (efield f +++ rest) = Some (f, rest).
Proof.
  destruct f as [t w]. intros [Ht Hw]. cbn [fst snd] in *. unfold efield, dfield. cbn [fst snd].
  destruct w as [n|s|s|s|]; cbn [snd] in *.
  - rewrite sapp_assoc. rewrite <- (N.add_0_r (t * 8)).
    rewrite dkey_evar by lia. cbn [obind]. change (0 =? 3) with false. cbn iota.
    unfold dwire. change (0 =? 0) with true. cbn iota.
    now rewrite dvar_evar by exact Hw.
  - rewrite sapp_assoc, dkey_evar by lia. cbn [obind]. change (1 =? 3) with false. cbn iota.
    unfold dwire. change (1 =? 0) with false. change (1 =? 1) with true. cbn iota.
    now rewrite take_len_app.
  - rewrite !sapp_assoc, dkey_evar by lia. cbn [obind]. change (2 =? 3) with false. cbn iota.
    unfold dwire. change (2 =? 0) with false. change (2 =? 1) with false.
    change (2 =? 2) with true. cbn iota.
    rewrite dvar_evar by exact Hw. cbn [obind]. now rewrite take_len_app.
  - rewrite sapp_assoc, dkey_evar by lia. cbn [obind]. change (5 =? 3) with false. cbn iota.
    unfold dwire. change (5 =? 0) with false. change (5 =? 1) with false.
    change (5 =? 2) with false. change (5 =? 5) with true. cbn iota.
    now rewrite take_len_app.
  - destruct Hw.
Qed.

Lemma efield_len f : wire_ok f -> (1 <= String.length (efield f))%nat.
Proof.
  destruct f as [t w]. intros [_ Hw]. unfold efield. cbn [fst snd] in *.
  destruct w; rewrite ?slen_app; [| | | |destruct Hw].
  - pose proof (evar_len (t * 8)). lia.
  - pose proof (evar_len (t * 8 + 1)). lia.
  - pose proof (evar_len (t * 8 + 2)). lia.
  - pose proof (evar_len (t * 8 + 5)). lia.
Qed.

Lemma dfields_efields_f l : Forall wire_ok l -> forall fuel,
  (String.length (efields l) <= fuel)%nat -> dfields_f fuel (efields l) = Some l.
Proof.
  induction 1 as [|f l Hf Hl IH]; intros fuel Hfu.
  - destruct fuel; reflexivity.
  - change (efields (f :: l)) with (efield f +++ efields l) in *.
    rewrite slen_app in Hfu. pose proof (efield_len f Hf).
    destruct fuel as [|fu]; [lia|].
    pose proof (dfield_efield f (efields l) Hf) as HD.
    destruct (efield f +++ efields l) as [|c r] eqn:E.
    { assert (HL : String.length (efield f +++ efields l) = 0%nat) by now rewrite E.
      rewrite slen_app in HL. lia. }
    cbn [dfields_f]. rewrite HD. destruct f as [t w]. cbn [obind].
    rewrite IH by lia. reflexivity.
Qed.

Lemma dfields_efields l : Forall wire_ok l -> dfields (efields l) = Some l.
Proof. intro H. apply dfields_efields_f; [exact H|reflexivity]. Qed.

Lemma dvars_evars l : Forall (fun n => n < u64_lim) l -> forall fuel,
  (String.length (sconcat (map evar l)) <= fuel)%nat ->
  dvars_f fuel (sconcat (map evar l)) = Some l.
Proof.
  induction 1 as [|n l Hn Hl IH]; intros fuel Hfu.
  - destruct fuel; reflexivity.
  - cbn [map sconcat] in *. rewrite slen_app in Hfu. pose proof (evar_len n).
    destruct fuel as [|fu]; [lia|].
    pose proof (dvar_evar n (sconcat (map evar l)) Hn) as HD.
    destruct (evar n +++ sconcat (map evar l)) as [|c r] eqn:E.
    { assert (HL : String.length (evar n +++ sconcat (map evar l)) = 0%nat) by now rewrite E.
      rewrite slen_app in HL. lia. }
    cbn [dvars_f]. rewrite HD. cbn [obind]. rewrite IH by lia. reflexivity.
Qed.

(** ** Messages *)

Lemma efields_app a b : efields (a ++ b) = efields a +++ efields b.
Proof. unfold efields. now rewrite map_app, sconcat_app. Qed.

Lemma desc_ok_cons t lab k r :
  desc_ok ((t, (lab, k)) :: r) = true ->
  1 <= t < 536870912 /\ ~ In t (tags r) /\ label_ok lab k = true
  /\ kind_ok k = true /\ desc_ok r = true.
Proof.
  unfold desc_ok. cbn [desc_ok_with]. rewrite !andb_true_iff.
  intros (((((H1 & H2) & H3) & H4) & H5) & H6).
  repeat split; try lia; try assumption.
  intro Hin. rewrite negb_true_iff in H3.
  assert (existsb (N.eqb t) (tags r) = true); [|congruence].
  apply existsb_exists. exists t. split; [exact Hin|apply N.eqb_refl].
Qed.

(** The wire value of an acceptable value is within 64-bit limits when the
    enclosing encoding is. *)
Definition small_wire (w : wv) : Prop :=
  match w with WLen s => slen s < u64_lim | _ => True end.

Lemma to_wire_ok k v : kind_ok k = true -> val_ok k v = true -> small_wire (to_wire k v) ->
  match to_wire k v with WVar n => n < u64_lim | WLen s => slen s < u64_lim | _ => False end.
Proof.
  destruct k; destruct v; cbn; try discriminate; intros; unfold u32_lim, u64_lim in *; lia.
Qed.

Lemma efields_small l f : In f l -> slen (efields l) < u64_lim -> small_wire (snd f).
Proof.
  intros Hin Hs. apply in_split in Hin as (l1 & l2 & ->).
  rewrite efields_app in Hs. change (efields (f :: l2)) with (efield f +++ efields l2) in Hs.
  unfold slen in *. rewrite !slen_app in Hs.
  destruct f as [t w]. cbn [snd]. unfold efield in Hs. cbn [fst snd] in Hs.
  destruct w; cbn; auto. rewrite !slen_app in Hs. unfold slen. lia.
Qed.

(** The slot update at the field's own position. *)
Lemma merge_field_at mv fs1 t lab k fs2 vs1 slot vs2 w :
  length fs1 = length vs1 -> ~ In t (tags fs1) ->
  merge_field mv (fs1 ++ (t, (lab, k)) :: fs2) (vs1 ++ slot :: vs2) t w
  = s <-? merge_slot mv lab k slot w ;; Some (vs1 ++ s :: vs2)%list.
Proof.
  revert vs1. induction fs1 as [|[t1 [l1 k1]] fs1 IH]; intros [|s1 vs1] Hl Hn;
    try discriminate.
  - cbn. now rewrite N.eqb_refl.
  - cbn in Hn |- *. rewrite (proj2 (N.eqb_neq t1 t)) by tauto.
    fold (merge_field mv). rewrite IH; [|now inversion Hl|tauto].
    now destruct (merge_slot mv lab k slot w).
Qed.

Lemma merge_fields_app mv fs l1 l2 vs :
  merge_fields mv fs (l1 ++ l2) vs
  = vs' <-? merge_fields mv fs l1 vs ;; merge_fields mv fs l2 vs'.
Proof.
  revert vs. induction l1 as [|[t w] l1 IH]; intro vs; [reflexivity|].
  cbn. fold (merge_fields mv fs). destruct (merge_field mv fs vs t w); cbn; [apply IH|reflexivity].
Qed.

Definition rt (k : kind) : Prop := forall v,
  kind_ok k = true -> val_ok k v = true -> small_wire (to_wire k v) ->
  merge_val k (default_val k) (to_wire k v) = Some v.

(** Default of a singular scalar slot. *)
Lemma default_single k : (forall fs, k <> KMsg fs) ->
  default_slot (Single, k) = [default_val k].
Proof. destruct k; intro H; try reflexivity. destruct (H fs). reflexivity. Qed.

Lemma is_default_eq k v : val_ok k v = true -> is_default v = true -> v = default_val k.
Proof.
  destruct k; destruct v; cbn; try discriminate; intros _ H.
  - apply sempty_spec in H. now subst.
  - apply sempty_spec in H. now subst.
  - apply N.eqb_eq in H. now subst.
  - apply N.eqb_eq in H. now subst.
  - apply N.eqb_eq in H. now subst.
  - destruct l; [reflexivity|discriminate].
Qed.

Lemma merge_repeated fs1 t k fs2 vs1 vs2 : rt k -> kind_ok k = true ->
  length fs1 = length vs1 -> ~ In t (tags fs1) ->
  forall slot acc, forallb (val_ok k) slot = true ->
  Forall (fun v => small_wire (to_wire k v)) slot ->
  merge_fields merge_val (fs1 ++ (t, (Repeated, k)) :: fs2)
    (map (fun v => (t, to_wire k v)) slot) (vs1 ++ acc :: vs2)
  = Some (vs1 ++ (acc ++ slot) :: vs2)%list.
Proof.
  intros Hrt Hk Hl Hn. induction slot as [|v slot IH]; intros acc Hv Hs.
  - cbn. now rewrite app_nil_r.
  - cbn [map merge_fields]. rewrite merge_field_at by assumption.
    cbn in Hv. apply andb_true_iff in Hv as [Hv1 Hv2]. inversion Hs; subst.
    cbn [merge_slot]. rewrite Hrt by assumption. cbn [obind].
    fold (merge_fields merge_val (fs1 ++ (t, (Repeated, k)) :: fs2)).
    rewrite IH by assumption. now rewrite <- app_assoc.
Qed.

Lemma filter_repeated slot : filter (written Repeated) slot = slot.
Proof. induction slot as [|x l IH]; cbn; [reflexivity|]. now rewrite IH. Qed.

Lemma merge_one_slot fs1 t lab k fs2 vs1 vs2 slot : rt k ->
  label_ok lab k = true -> kind_ok k = true ->
  length fs1 = length vs1 -> ~ In t (tags fs1) ->
  slot_ok val_ok lab k slot = true ->
  Forall (fun v => small_wire (to_wire k v)) (filter (written lab) slot) ->
  merge_fields merge_val (fs1 ++ (t, (lab, k)) :: fs2)
    (map (fun v => (t, to_wire k v)) (filter (written lab) slot))
    (vs1 ++ default_slot (lab, k) :: vs2)
  = Some (vs1 ++ slot :: vs2)%list.
Proof.
  intros Hrt Hlab Hk Hl Hn Hs Hsm.
  destruct lab.
  - assert (D : (exists fs, k = KMsg fs) \/ (forall fs, k <> KMsg fs)).
    { destruct k; try (right; discriminate). left; eauto. }
    destruct D as [[fs ->]|D].
    + (* optional message *)
      destruct slot as [|v [|? ?]]; try discriminate Hs.
      * reflexivity.
      * cbn [slot_ok] in Hs.
        assert (W : written Single v = true) by (destruct v; try discriminate Hs; reflexivity).
        cbn [filter] in *. rewrite W in *. cbn [map merge_fields].
        rewrite merge_field_at by assumption. cbn [default_slot merge_slot].
        inversion Hsm; subst. rewrite Hrt by assumption. reflexivity.
    + (* plain scalar *)
      assert (Hv : exists v, slot = [v] /\ val_ok k v = true).
      { destruct k; cbn in Hs; destruct slot as [|v [|? ?]]; try discriminate Hs; eauto.
        destruct (D fs); reflexivity. }
      destruct Hv as (v & -> & Hv). cbn [filter] in *.
      rewrite default_single by exact D.
      destruct (written Single v) eqn:W.
      * cbn [map merge_fields]. rewrite merge_field_at by assumption.
        cbn [merge_slot]. inversion Hsm; subst. rewrite Hrt by assumption. reflexivity.
      * cbn [map merge_fields]. cbn in W. apply negb_false_iff in W.
        now rewrite <- (is_default_eq k v Hv W).
  - rewrite filter_repeated in *. cbn [slot_ok] in Hs. cbn [default_slot].
    now rewrite merge_repeated.
Qed.

Lemma merge_rest fs2 : forall fs1 vs1 vs2,
  Forall (fun f => rt (snd (snd f))) fs2 ->
  desc_ok fs2 = true -> (forall t, In t (tags fs2) -> ~ In t (tags fs1)) ->
  length fs1 = length vs1 -> msg_ok fs2 vs2 = true ->
  Forall (fun f => small_wire (snd f)) (wires to_wire fs2 vs2) ->
  merge_fields merge_val (fs1 ++ fs2) (wires to_wire fs2 vs2) (vs1 ++ default_msg fs2)
  = Some (vs1 ++ vs2)%list.
Proof.
  induction fs2 as [|[t [lab k]] fs2 IH]; intros fs1 vs1 vs2 Hrt Hd Hdis Hl Hok Hsm.
  - destruct vs2; [|discriminate Hok]. reflexivity.
  - destruct vs2 as [|slot vs2]; [discriminate Hok|].
    unfold msg_ok in Hok. cbn [slots_ok] in Hok.
    apply andb_true_iff in Hok as [Hs Hok].
    apply desc_ok_cons in Hd as (Ht & Hnin & Hlab & Hk & Hd).
    inversion Hrt as [|? ? Hrt1 Hrt2]; subst. cbn [snd] in Hrt1.
    cbn [wires] in *. fold (wires to_wire) in *.
    apply Forall_app in Hsm as [Hsm1 Hsm2].
    rewrite merge_fields_app.
    change (default_msg ((t, (lab, k)) :: fs2))
      with (default_slot (lab, k) :: default_msg fs2).
    rewrite merge_one_slot; try assumption.
    + cbn [obind].
      replace (fs1 ++ (t, (lab, k)) :: fs2)%list
        with ((fs1 ++ [(t, (lab, k))]) ++ fs2)%list by now rewrite <- app_assoc.
      replace (vs1 ++ slot :: default_msg fs2)%list
        with ((vs1 ++ [slot]) ++ default_msg fs2)%list by now rewrite <- app_assoc.
      rewrite IH; try assumption.
      * now rewrite <- app_assoc.
      * intros t' Ht' Hin. unfold tags in Hin. rewrite map_app, in_app_iff in Hin.
        destruct Hin as [Hin|Hin].
        -- apply (Hdis t'); [now right|exact Hin].
        -- cbn in Hin. destruct Hin as [<-|[]]. contradiction.
      * rewrite !app_length. cbn. lia.
    + apply Hdis. now left.
    + rewrite Forall_map in Hsm1. exact Hsm1.
Qed.

Lemma wires_wire_ok fs : forall vs, desc_ok fs = true -> msg_ok fs vs = true ->
  Forall (fun f => small_wire (snd f)) (wires to_wire fs vs) ->
  Forall wire_ok (wires to_wire fs vs).
Proof.
  induction fs as [|[t [lab k]] fs IH]; intros [|slot vs] Hd Hok Hsm;
    try (constructor; fail).
  cbn [wires] in *. fold (wires to_wire) in *.
  apply desc_ok_cons in Hd as (Ht & Hnin & Hlab & Hk & Hd).
  unfold msg_ok in Hok. cbn [slots_ok] in Hok. apply andb_true_iff in Hok as [Hs Hok].
  apply Forall_app in Hsm as [Hsm1 Hsm2]. apply Forall_app. split; [|apply IH; assumption].
  rewrite Forall_map in *. rewrite Forall_forall in *. intros v Hv.
  specialize (Hsm1 v Hv). cbn [snd] in Hsm1.
  apply filter_In in Hv as [Hv _].
  assert (Hvok : val_ok k v = true).
  { destruct lab; cbn in Hs.
    - destruct k; destruct slot as [|x [|? ?]]; try discriminate Hs; try contradiction;
        destruct Hv as [->|[]]; exact Hs.
    - rewrite forallb_forall in Hs. apply Hs, Hv. }
  split; [exact Ht|]. cbn [snd].
  pose proof (to_wire_ok k v Hk Hvok Hsm1) as H.
  destruct (to_wire k v); try contradiction; exact H.
Qed.

Lemma rt_all k : rt k.
Proof.
  induction k using kind_ind'; intros v Hk Hv Hs; destruct v; try discriminate Hv;
    cbn [to_wire merge_val default_val]; cbn in Hv.
  - now rewrite Hv.
  - reflexivity.
  - reflexivity.
  - rewrite N.mod_small by lia. reflexivity.
  - assert (n = 0 \/ n = 1) as [->| ->] by lia; reflexivity.
  - rewrite dvars_evars; [reflexivity| |lia].
    rewrite forallb_forall in Hv. apply Forall_forall. intros n Hn.
    specialize (Hv n Hn). lia.
  - rename fs into d. cbn [small_wire to_wire] in Hs.
    assert (Hsm : Forall (fun f => small_wire (snd f)) (wires to_wire d fields)).
    { apply Forall_forall. intros f Hf. eapply efields_small; eauto. }
    rewrite dfields_efields by (apply wires_wire_ok; assumption).
    cbn [obind]. pose proof (merge_rest d [] [] fields H Hk) as M. cbn [app] in M.
    rewrite M; try assumption; try reflexivity. intros t _ [].
Qed.

(** Decoding the encoding of any well-formed message gives the message back. *)
Theorem pb_roundtrip d m :
  desc_ok d = true -> msg_ok d m = true -> slen (pb_encode d m) < u64_lim ->
  pb_decode d (pb_encode d m) = Some m.
Proof.
  intros Hd Hm Hs. unfold pb_decode, pb_encode in *.
  assert (Hsm : Forall (fun f => small_wire (snd f)) (wires to_wire d m)).
  { apply Forall_forall. intros f Hf. eapply efields_small; eauto. }
  rewrite dfields_efields by (apply wires_wire_ok; assumption). cbn [obind].
  pose proof (merge_rest d [] [] m) as M. cbn [app] in M.
  rewrite M; try assumption; try reflexivity; [|intros t _ []].
  apply Forall_forall. intros f _. apply rt_all.
Qed.

Theorem pb_encode_inj d m m' :
  desc_ok d = true -> msg_ok d m = true -> msg_ok d m' = true ->
  slen (pb_encode d m) < u64_lim ->
  pb_encode d m = pb_encode d m' -> m = m'.
Proof.
  intros Hd H1 H2 Hs E.
  pose proof (pb_roundtrip d m Hd H1 Hs) as R1.
  rewrite E in Hs. pose proof (pb_roundtrip d m' Hd H2 Hs) as R2.
  rewrite E in R1. congruence.
Qed.
