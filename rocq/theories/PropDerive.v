(** * PropDerive: property C86, contracts that use [ica_callback_execute]. *)

From Verif Require Import Base Utf8 Json JsonCodec Types JsonTypes Store Contract JsonSound
  Chain ChainSpec HistorySpec Witness PropCallback CounterContract OwnerContract Derive.
Local Open Scope string_scope.
Local Open Scope list_scope.
Local Open Scope N_scope.

(** What the macro is to do to an enum [vs] to give [vs']: its values are those
    of [vs] and the callback messages; JSON is read as a callback message exactly
    if it is one, and as a value of [vs] exactly if it was before; and both are
    written as before. *)
Definition receives {A} (callback : jcodec A) (vs vs' : list evariant) : Prop :=
  exists (own : evalue vs -> evalue vs') (cb : A -> evalue vs'),
    (forall x, (exists v, x = own v) \/ (exists m, x = cb m)) /\
    (forall v m, own v <> cb m) /\
    (forall v v', own v = own v' -> v = v') /\ (forall m m', cb m = cb m' -> m = m') /\
    (forall t m, from_json (jc_derived vs') t = Some (cb m) <->
       from_json (jc_enum (v_one "receive_ica_callback" callback)) t = Some m) /\
    (forall t v, from_json (jc_derived vs') t = Some (own v) <-> from_json (jc_derived vs) t = Some v) /\
    (forall m, to_json (jc_derived vs') (cb m) = to_json (jc_enum (v_one "receive_ica_callback" callback)) m) /\
    (forall v, to_json (jc_derived vs') (own v) = to_json (jc_derived vs) v).

Lemma evar_keys v : vkeys (evar_codec v) = [snake_case (ev_name v)].
Proof. unfold evar_codec. destruct v as [n T ct]. cbn. destruct ct; reflexivity. Qed.
Lemma evars_keys vs : vkeys (evars_codec vs) = map (fun v => snake_case (ev_name v)) vs.
Proof. induction vs as [ | v vs IH]; [reflexivity| ]. cbn [evars_codec map v_sum vkeys]. now rewrite evar_keys, IH. Qed.

Section Merge.
  Variable A : Type.
  Variable callback : jcodec A.
  Let added := EVariant "ReceiveIcaCallback" A (COne callback).

  (** The values of the enum within those of the enum with the variant added, none in /repo. *)
  Fixpoint own_of (vs : list evariant) : evalue vs -> evalue (vs ++ [added]) :=
    match vs return evalue vs -> evalue (vs ++ [added]) with
    | [] => fun x => match x with end
    | v :: r => fun x => match x with inl y => inl y | inr y => inr (own_of r y) end
    end.
  (** As above, for the callback messages. *)
  Fixpoint cb_of (vs : list evariant) (m : A) : evalue (vs ++ [added]) :=
    match vs return evalue (vs ++ [added]) with
    | [] => inl m
    | v :: r => inr (cb_of r m)
    end.

  Lemma all_values vs : forall x : evalue (vs ++ [added]), (exists v, x = own_of vs v) \/ (exists m, x = cb_of vs m).
  Proof.
    induction vs as [ | v vs IH]; cbn.
    - intros [m|[]]. right. now exists m.
    - intros [y|y]; [left; now exists (inl y)| ]. destruct (IH y) as [[z ->]|[m ->]]; [left; now exists (inr z)|right; now exists m].
  Qed.
  Lemma own_not_cb vs v m : own_of vs v <> cb_of vs m.
  Proof. induction vs as [ | u vs IH]; [destruct v| ]. cbn. destruct v as [y|y]; [discriminate| ]. intro E. injection E as E. exact (IH y E). Qed.
  Lemma own_inj vs v v' : own_of vs v = own_of vs v' -> v = v'.
  Proof.
    induction vs as [ | u vs IH]; [destruct v| ]. cbn. destruct v as [y|y], v' as [y'|y']; try discriminate; intro E; injection E as E.
    - now subst.
    - f_equal. now apply IH.
  Qed.
  Lemma cb_inj vs m m' : cb_of vs m = cb_of vs m' -> m = m'.
  Proof. induction vs as [ | u vs IH]; cbn; intro E; injection E as E; auto. Qed.

  (** Reading a tagged value. *)
  Lemma untag_own vs k j v : vuntag (evars_codec (vs ++ [added])) k j = Some (own_of vs v) <->
    vuntag (evars_codec vs) k j = Some v.
  Proof.
    induction vs as [ | u vs IH]; [destruct v| ]. cbn [app evars_codec v_sum vuntag own_of].
    destruct (skey_in k (vkeys (evar_codec u))).
    - destruct (vuntag (evar_codec u) k j) as [x| ]; cbn [option_map]; [ | split; discriminate].
      destruct v as [y|y]; split; intro E; try discriminate; injection E as ->; reflexivity.
    - destruct v as [y|y].
      + destruct (vuntag _ k j), (vuntag _ k j); split; discriminate.
      + specialize (IH y). split; intro E.
        * destruct (vuntag (evars_codec (vs ++ [added])) k j) as [z| ]; [ | discriminate]. cbn in E. injection E as ->.
          now rewrite (proj1 IH eq_refl).
        * destruct (vuntag (evars_codec vs) k j) as [z| ]; [ | discriminate]. cbn in E. injection E as ->.
          now rewrite (proj2 IH eq_refl).
  Qed.
  Lemma untag_cb vs k j m : ~ In "receive_ica_callback" (map (fun v => snake_case (ev_name v)) vs) ->
    (vuntag (evars_codec (vs ++ [added])) k j = Some (cb_of vs m) <->
     vuntag (v_one "receive_ica_callback" callback) k j = Some m).
  Proof.
    induction vs as [ | u vs IH]; intro N.
    - assert (Ks : vkeys (evar_codec added) = ["receive_ica_callback"]) by reflexivity.
      assert (U : vuntag (evar_codec added) = vuntag (v_one "receive_ica_callback" callback)) by reflexivity.
      cbn [app evars_codec v_sum vuntag cb_of]. rewrite Ks. unfold skey_in. cbn [existsb].
      rewrite orb_false_r. rewrite U. cbn [v_one vuntag].
      destruct (String.eqb_spec k "receive_ica_callback") as [->|Hk].
      + rewrite String.eqb_refl. cbn [option_map].
        destruct j as [j| ]; cbn [obind]; [ | split; discriminate].
        destruct (jdec callback j); cbn [option_map]; split; intro E; try discriminate; injection E as ->; reflexivity.
      + apply not_eq_sym, String.eqb_neq in Hk. rewrite Hk. split; discriminate.
    - cbn [map] in N. assert (N1 : snake_case (ev_name u) <> "receive_ica_callback") by (intro E; apply N; now left).
      assert (N2 : ~ In "receive_ica_callback" (map (fun v => snake_case (ev_name v)) vs)) by (intro E; apply N; now right).
      specialize (IH N2). cbn [app evars_codec v_sum vuntag cb_of]. rewrite evar_keys. unfold skey_in. cbn [existsb]. rewrite orb_false_r.
      destruct (String.eqb_spec k (snake_case (ev_name u))) as [->|Hk].
      + split.
        * destruct (vuntag (evar_codec u) _ j); discriminate.
        * cbn [v_one vuntag]. apply not_eq_sym, String.eqb_neq in N1. rewrite N1. discriminate.
      + split; intro E.
        * destruct (vuntag (evars_codec (vs ++ [added])) k j) as [z| ]; [ | discriminate]. cbn in E. injection E as ->.
          now apply (proj1 IH).
        * now rewrite (proj2 IH E).
  Qed.

  Lemma tag_own vs v : vtag (evars_codec (vs ++ [added])) (own_of vs v) = vtag (evars_codec vs) v.
  Proof. induction vs as [ | u vs IH]; [destruct v| ]. cbn [app evars_codec v_sum vtag own_of]. destruct v as [y|y]; [reflexivity|apply IH]. Qed.
  Lemma tag_cb vs m : vtag (evars_codec (vs ++ [added])) (cb_of vs m) = ("receive_ica_callback", Some (jenc callback m)).
  Proof. induction vs as [ | u vs IH]; [reflexivity| ]. cbn [app evars_codec v_sum vtag cb_of]. apply IH. Qed.

  Lemma dec_of {B C} (x : vcodec B) (y : vcodec C) b c j :
    (forall k o, vuntag x k o = Some b <-> vuntag y k o = Some c) -> (jdec (jc_enum x) j = Some b <-> jdec (jc_enum y) j = Some c).
  Proof.
    intro H. cbn [jc_enum jdec]. destruct j as [ |  | |s| |[ | [k j'] [ | ]]]; try (split; discriminate); apply H.
  Qed.

  Lemma merged vs : ~ In "receive_ica_callback" (map (fun v => snake_case (ev_name v)) vs) ->
    receives callback vs (vs ++ [added]).
  Proof.
    intro N. exists (own_of vs), (cb_of vs).
    split; [apply all_values| ]. split; [apply own_not_cb| ]. split; [apply own_inj| ]. split; [apply cb_inj| ].
    assert (J : forall {B C} (x : jcodec B) (y : jcodec C) b c t, (forall j, jdec x j = Some b <-> jdec y j = Some c) ->
      (from_json x t = Some b <-> from_json y t = Some c)).
    { intros B C x y b c t H. unfold from_json. destruct (jparse t) as [j| ]; cbn [obind]; [apply H|split; discriminate]. }
    split; [ | split; [ | split]].
    - intros t m. apply J. intro j. apply dec_of. intros k o. now apply untag_cb.
    - intros t v. apply J. intro j. apply dec_of. intros k o. apply untag_own.
    - intro m. unfold to_json, jc_derived, jc_enum. cbn [jenc]. rewrite tag_cb. reflexivity.
    - intro v. unfold to_json, jc_derived, jc_enum. cbn [jenc]. rewrite tag_own. reflexivity.
  Qed.
End Merge.

(** The macro adds the callback message to every enum none of whose variants has
    that JSON name, and leaves the rest of it alone. *)
Theorem C86_added : forall A (callback : jcodec A) name vs,
  ~ In "receive_ica_callback" (map (fun v => snake_case (ev_name v)) vs) ->
  exists vs', ica_callback_execute callback [] (IEnum name vs) = Some (IEnum name vs') /\ receives callback vs vs'.
Proof. intros A callback name vs N. eexists. split; [reflexivity| ]. now apply merged. Qed.

(** It compiles on enums, without arguments, and on nothing else. *)
Theorem C86_only_enums : forall A (callback : jcodec A) args i,
  (exists i', ica_callback_execute callback args i = Some i') <-> args = [] /\ exists name vs, i = IEnum name vs.
Proof.
  intros A callback args i. unfold ica_callback_execute, merge_variants. split.
  - intros (i' & E). destruct args; [ | discriminate]. split; [reflexivity| ]. destruct i; [eauto|discriminate].
  - intros (-> & name & vs & ->). eauto.
Qed.

(** Every contract made with it reads every callback the controller makes, in
    every history. *)
Theorem C86_every_callback : forall c w addr msg name vs, cfg_ok c -> visited c w ->
  In (LCall addr msg) (w_log w) -> ~ In "receive_ica_callback" (map (fun v => snake_case (ev_name v)) vs) ->
  exists vs' x m, ica_callback_execute jc_callback [] (IEnum name vs) = Some (IEnum name vs') /\
    receives jc_callback vs vs' /\ from_json jc_receiver msg = Some m /\
    from_json (jc_derived vs') msg = Some x /\ to_json (jc_derived vs') x = msg /\
    from_json (jc_derived vs) msg = None.
Proof.
  intros c w addr msg name vs Hc V Hi N.
  destruct (C34_every_call c w addr msg Hc V Hi) as (m & E & Et).
  destruct (C86_added _ jc_callback name vs N) as (vs' & Ev & R). pose proof R as (own & cb & _ & H2 & _ & _ & H5 & H6 & H7 & _).
  exists vs', (cb m), m. apply H5 in E as E'.
  split; [exact Ev| ]. split; [exact R| ]. split; [exact E| ]. split; [exact E'| ]. split; [rewrite H7; now symmetry| ].
  destruct (from_json (jc_derived vs) msg) as [v| ] eqn:Ed; [ | reflexivity]. exfalso.
  apply H6 in Ed. rewrite E' in Ed. injection Ed as Ed. exact (H2 v m (eq_sym Ed)).
Qed.

(** Two JSON types are the same up to a renaming of their values, none in /repo. *)
Definition same_type {A B} (ca : jcodec A) (cb : jcodec B) : Prop :=
  exists (f : A -> B) (g : B -> A), (forall a, g (f a) = a) /\ (forall b, f (g b) = b) /\
    (forall t a, from_json ca t = Some a <-> from_json cb t = Some (f a)) /\
    (forall a, to_json ca a = to_json cb (f a)).

Lemma same_type_by {A B} (ca : jcodec A) (cb : jcodec B) (f : A -> B) (g : B -> A) :
  (forall a, g (f a) = a) -> (forall b, f (g b) = b) ->
  (forall j, option_map f (jdec ca j) = jdec cb j) -> (forall a, jenc ca a = jenc cb (f a)) -> same_type ca cb.
Proof.
  intros Hg Hf Hd He. exists f, g. split; [exact Hg| ]. split; [exact Hf| ]. split.
  - intros t a. unfold from_json. destruct (jparse t) as [j| ]; cbn [obind]; [ | split; discriminate].
    rewrite <- Hd. destruct (jdec ca j) as [x| ]; cbn [option_map]; [ | split; discriminate]. split; intro E; injection E as E.
    + now subst.
    + rewrite <- (Hg x), E, Hg. reflexivity.
  - intro a. unfold to_json. now rewrite He.
Qed.

(** The same values, as the two enums have them, none in /repo. *)
Definition counter_of (x : callback_msg + Empty_set) : callback_msg :=
  match x with inl m => m | inr e => match e with end end.
(** As above. *)
Definition owner_of (x : option string * open_options + (N * string + (callback_msg + Empty_set))) : o_execute_msg :=
  match x with
  | inl (s, o) => OCreate s o
  | inr (inl (i, a)) => OSend i a
  | inr (inr (inl m)) => OCallback m
  | inr (inr (inr e)) => match e with end
  end.
(** As above. *)
Definition owner_to (m : o_execute_msg) : option string * open_options + (N * string + (callback_msg + Empty_set)) :=
  match m with
  | OCreate s o => inl (s, o)
  | OSend i a => inr (inl (i, a))
  | OCallback m => inr (inr (inl m))
  end.

(** The messages of the two example contracts are what the macro gives. *)
Theorem C86_examples :
  (exists vs', ica_callback_execute jc_callback [] counter_item = Some (IEnum "ExecuteMsg" vs') /\
     same_type (jc_derived vs') jc_c_execute_msg) /\
  (exists vs', ica_callback_execute jc_callback_plain [] owner_item = Some (IEnum "ExecuteMsg" vs') /\
     same_type (jc_derived vs') jc_o_execute_msg).
Proof.
  split; eexists; (split; [reflexivity| ]).
  - apply (same_type_by _ _ counter_of inl).
    + intros [m|[]]. reflexivity.
    + reflexivity.
    + intro j. destruct j as [ | | |s| |[ | [k j'] [ | ]]]; try reflexivity.
      all: cbn -[String.eqb]; match goal with |- context [String.eqb ?x "receive_ica_callback"] =>
        rewrite (String.eqb_sym x); destruct (String.eqb "receive_ica_callback" x) eqn:E end; try reflexivity.
      cbn. match goal with |- context [option_map inl ?x] => now destruct x end.
    + intros [m|[]]. reflexivity.
  - apply (same_type_by _ _ owner_of owner_to).
    + intros [[s o]|[[i a]|[m|[]]]]; reflexivity.
    + intros [s o|i a|m]; reflexivity.
    + intro j.
      assert (U : forall k o, option_map owner_of (vuntag (evars_codec
        [EVariant "CreateIcaContract" (option string * open_options)
           (COne (jc_struct true (o_opt "salt" jc_str &o o_req "channel_open_init_options" jc_options)));
         EVariant "SendPredefinedAction" (N * string)
           (COne (jc_struct true (o_req "ica_id" (jc_uint u64_lim) &o o_req "to_address" jc_str)));
         EVariant "ReceiveIcaCallback" callback_msg (COne jc_callback_plain)]) k o) =
        match o with Some j => jdec jc_o_execute_msg (JObj [(k, j)]) | None => jdec jc_o_execute_msg (JStr k) end).
      { intros k o. unfold jc_o_execute_msg. cbn [jc_map jdec jc_enum evars_codec v_sum vuntag app].
        rewrite !evar_keys. cbn [ev_name vkeys v_one app].
        change (snake_case "CreateIcaContract") with "create_ica_contract".
        change (snake_case "SendPredefinedAction") with "send_predefined_action".
        change (snake_case "ReceiveIcaCallback") with "receive_ica_callback".
        unfold skey_in, evar_codec. cbn [existsb ev_content ev_name v_one vuntag].
        change (snake_case "CreateIcaContract") with "create_ica_contract".
        change (snake_case "SendPredefinedAction") with "send_predefined_action".
        change (snake_case "ReceiveIcaCallback") with "receive_ica_callback".
        rewrite !(String.eqb_sym _ k).
        destruct (String.eqb k "create_ica_contract"), (String.eqb k "send_predefined_action"), (String.eqb k "receive_ica_callback");
          destruct o as [j0| ]; cbn [orb obind]; try reflexivity.
        all: match goal with |- context [jdec ?c ?y] => destruct (jdec c y) as [x| ]; [ | reflexivity] end.
        all: try (destruct x; reflexivity); reflexivity. }
      destruct j as [ | | |s| |[ | [k j'] [ | ]]]; try reflexivity.
      * apply (U s None).
      * apply (U k (Some j')).
    + intros [[s o]|[[i a]|[m|[]]]]; reflexivity.
Qed.

(** ** Cases *)

(** An enum with three variants of its own, as in derive/src/lib.rs:77-81. *)
Definition test_variants : list evariant :=
  [EVariant "Foo" unit CUnit; EVariant "Bar" N (COne (jc_uint u64_lim));
   EVariant "BazQux" N (COne (jc_struct true (o_req "foo" (jc_uint u64_lim))))].
Example C86_added_case :
  ~ In "receive_ica_callback" (map (fun v => snake_case (ev_name v)) test_variants) /\
  map (fun v => snake_case (ev_name v)) test_variants = ["foo"; "bar"; "baz_qux"] /\
  from_json (jc_derived test_variants) "{""baz_qux"":{""foo"":7}}" = Some (inr (inr (inl 7))) /\
  from_json (jc_derived test_variants) """foo""" = Some (inl tt).
Proof.
  split; [intro H; vm_compute in H; repeat (destruct H as [H|H]; [discriminate H| ]); exact H| ].
  split; [reflexivity| ]. split; vm_compute; reflexivity.
Qed.

(** The name has to be free: an enum with a variant [receive_ica_callback] of its
    own, which holds a number, reads no callback at all. *)
Definition taken : list evariant := [EVariant "receive_ica_callback" N (COne (jc_uint u64_lim))].
Theorem C86_name_needed : exists vs vs',
  ica_callback_execute jc_callback [] (IEnum "ExecuteMsg" vs) = Some (IEnum "ExecuteMsg" vs') /\
  forall t m, from_json jc_receiver t = Some m -> from_json (jc_derived vs') t = None.
Proof.
  exists taken. eexists. split; [reflexivity| ]. intros t m. unfold from_json.
  destruct (jparse t) as [j| ]; cbn [obind]; [ | reflexivity]. unfold jc_receiver, jc_derived. cbn [jc_enum jdec].
  destruct j as [ | | |s| |[ | [k j'] [ | ]]]; try discriminate.
  - cbn [v_one vuntag obind]. destruct (String.eqb _ s); discriminate.
  - cbn [v_one vuntag obind]. destruct (String.eqb_spec "receive_ica_callback" k) as [<-|_]; [ | discriminate].
    intro E. destruct j' as [ | | |s| |l]; try discriminate E; reflexivity.
Qed.

(** The callback of a timeout, read by the enum above with the macro put on it. *)
Example C86_read_case : exists vs' m,
  ica_callback_execute jc_callback [] (IEnum "ExecuteMsg" test_variants) = Some (IEnum "ExecuteMsg" vs') /\
  from_json jc_receiver (to_json jc_receiver m) = Some m /\
  from_json (jc_derived vs') (to_json jc_receiver m) <> None.
Proof.
  eexists. exists (CbTimeout (Packet "" (Endpoint "a" "b") (Endpoint "c" "d") 3 (Timeout None (Some 5))) "relayer").
  split; [reflexivity| ]. split; [vm_compute; reflexivity| ].
  intro H. vm_compute in H. discriminate H.
Qed.

(** There are callbacks in the histories: the one after a failed request, in the
    world of [C34_call_case]. *)
Example C86_every_callback_case : exists addr msg vs' x,
  visited cfg0 (world_of (with_query ++ [ack "channel-0" 1 (AckError "no")])) /\
  In (LCall addr msg) (w_log (world_of (with_query ++ [ack "channel-0" 1 (AckError "no")]))) /\
  ica_callback_execute jc_callback [] (IEnum "ExecuteMsg" test_variants) = Some (IEnum "ExecuteMsg" vs') /\
  from_json (jc_derived vs') msg = Some x.
Proof.
  destruct C34_call_case as (addr & msg & Hi). exists addr, msg.
  assert (V : visited cfg0 (world_of (with_query ++ [ack "channel-0" 1 (AckError "no")]))) by apply world_visited.
  destruct (C86_every_callback cfg0 _ addr msg "ExecuteMsg" test_variants cfg0_ok V Hi (proj1 C86_added_case))
    as (vs' & x & m & E1 & _ & _ & E2 & _).
  exists vs', x. split; [exact V| ]. split; [exact Hi| ]. split; [exact E1|exact E2].
Qed.

Print Assumptions C86_added.
Print Assumptions C86_only_enums.
Print Assumptions C86_every_callback.
Print Assumptions C86_examples.
Print Assumptions C86_name_needed.
