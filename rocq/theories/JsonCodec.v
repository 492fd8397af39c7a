(** * JsonCodec: serde derive, as typed encoders and decoders over [json].

    [#[cw_serde]] derives [Serialize]/[Deserialize] with snake-case names and
    [deny_unknown_fields].  A [jcodec A] is the derived pair for the Rust type
    modelled by [A], together with the values it is faithful on ([jval]:
    strings are UTF-8, integers are in range).  Structs are built from fields
    and enums from variants with the combinators below. *)

From Verif Require Import Base Utf8 Text Base64 Json.
Local Open Scope string_scope.
Local Open Scope N_scope.

(** What serde's derive (or [cw_serde]) gives for a type, e.g. src/types/msg.rs:9,
    src/types/state.rs:53, src/ibc/types/packet.rs:27. *)
Record jcodec (A : Type) := JC {
  jenc : A -> json;
  jdec : json -> option A;
  jval : A -> Prop
}.
Arguments JC {A}. Arguments jenc {A}. Arguments jdec {A}. Arguments jval {A}.

(** Statement used in proofs (reading inverts writing), none in /repo. *)
Definition jcodec_ok {A} (c : jcodec A) : Prop :=
  forall a, jval c a -> jwf (jenc c a) = true /\ jdec c (jenc c a) = Some a.

(** [to_json_binary], [from_json]
    (src/ibc/types/packet.rs:190, src/types/callbacks.rs:69, src/contract.rs:100-102.) *)
Definition to_json {A} (c : jcodec A) (a : A) : string := jprint (jenc c a).
(** (src/ibc/relay.rs:32, and the arguments of every entry point, e.g. src/contract.rs:57.) *)
Definition from_json {A} (c : jcodec A) (s : string) : option A :=
  j <-? jparse s ;; jdec c j.

Lemma json_roundtrip {A} (c : jcodec A) a :
  jcodec_ok c -> jval c a -> from_json c (to_json c a) = Some a.
Proof.
  intros Hok Hv. destruct (Hok a Hv) as [Hwf Hd].
  unfold from_json, to_json. rewrite jparse_print by exact Hwf. exact Hd.
Qed.

(** ** Leaves *)

(** serde of [String] and [Addr], e.g. src/types/state.rs:62, 106. *)
Definition jc_str : jcodec string :=
  JC JStr (fun j => match j with JStr s => Some s | _ => None end)
     (fun s => utf8_valid s = true).

(** serde of [bool] (src/types/state.rs:26, 30, 37). *)
Definition jc_bool : jcodec bool :=
  JC JBool (fun j => match j with JBool b => Some b | _ => None end) (fun _ => True).

(** [Binary] (src/ibc/types/packet.rs:214, src/types/query_msg.rs:128, 166, 168.) *)
Definition jc_bin : jcodec string :=
  JC (fun b => JStr (b64_enc b))
     (fun j => match j with JStr s => b64_dec s | _ => None end) (fun _ => True).

(** [u8], [u32], [u64] as JSON numbers
    (src/types/msg.rs:63, src/ibc/types/packet.rs:38, src/types/query_msg.rs:109.) *)
Definition jc_uint (lim : N) : jcodec N :=
  JC JNum (fun j => match j with JNum n => if n <? lim then Some n else None | _ => None end)
     (fun n => n < lim).

(** [Uint64], [Uint128], [Timestamp]: decimal text in a JSON string
    (cosmwasm_std crate; in the messages of src/types/msg.rs:49, 56 and the answers of
    src/types/query_msg.rs:209.) *)
Definition jc_uint_str (lim : N) : jcodec N :=
  JC (fun n => JStr (dec n))
     (fun j => match j with JStr s => parse_uint lim s | _ => None end)
     (fun n => n < lim).

(** [Decimal] (cosmwasm_std crate; in the validators of src/types/query_msg.rs:182, 184.) *)
Definition jc_decimal : jcodec N :=
  JC (fun n => JStr (decimal_to_string n))
     (fun j => match j with JStr s => decimal_from_string s | _ => None end)
     (fun n => n < u128_lim).

(** [Vec<T>] (e.g. src/types/msg.rs:49, 56, src/types/query_msg.rs:111.) *)
Definition jc_list {A} (c : jcodec A) : jcodec (list A) :=
  JC (fun l => JArr (map (jenc c) l))
     (fun j => match j with JArr l => omap (jdec c) l | _ => None end)
     (Forall (jval c)).

(** A two-element tuple. (src/types/state.rs:37, 42.) *)
Definition jc_tup {A B} (c : jcodec A) (d : jcodec B) : jcodec (A * B) :=
  JC (fun p => JArr [jenc c (fst p); jenc d (snd p)])
     (fun j => match j with
       | JArr [x; y] => a <-? jdec c x ;; b <-? jdec d y ;; Some (a, b)
       | _ => None end)
     (fun p => jval c (fst p) /\ jval d (snd p)).

(** [Option<T>] with [None] as null.  Only faithful for inner types that never
    encode as null. (e.g. src/types/query_msg.rs:161, 166.) *)
Definition jc_opt {A} (c : jcodec A) : jcodec (option A) :=
  JC (fun o => match o with Some a => jenc c a | None => JNull end)
     (fun j => match j with JNull => Some None | _ => option_map Some (jdec c j) end)
     (fun o => match o with Some a => jval c a /\ jenc c a <> JNull | None => True end).

(** Change of representation: [B] is the Rust type's record, [A] the tuple.
    (Change of representation; no counterpart in /repo.) *)
Definition jc_map {A B} (c : jcodec A) (to : B -> A) (from : A -> B) : jcodec B :=
  JC (fun b => jenc c (to b)) (fun j => option_map from (jdec c j)) (fun b => jval c (to b)).

(** First value stored under a key.
    (Inside serde's derived [Deserialize] of structs, serde crate.) *)
Fixpoint assoc_find {A} (k : string) (l : list (string * A)) : option A :=
  match l with
  | [] => None
  | (k', v) :: r => if String.eqb k' k then Some v else assoc_find k r
  end.

(** ** Structs *)

(** The fields of a struct, as serde's derive treats them (serde crate): names, writer, reader. *)
Record ocodec (A : Type) := OC {
  okeys : list string;
  oenc : A -> list (string * json);
  odec : list (string * json) -> option A;
  oval : A -> Prop
}.
Arguments OC {A}. Arguments okeys {A}. Arguments oenc {A}. Arguments odec {A}. Arguments oval {A}.

(** Required field. (serde crate; e.g. src/types/state.rs:106-108.) *)
Definition o_req {A} (k : string) (c : jcodec A) : ocodec A :=
  OC [k] (fun a => [(k, jenc c a)])
     (fun l => j <-? assoc_find k l ;; jdec c j) (jval c).

(** [Option] field with [skip_serializing_if = "Option::is_none"].
    (src/types/msg.rs:13, 19, 37, 58, 62; src/ibc/types/packet.rs:44;
    src/types/callbacks.rs:38.) *)
Definition o_skip {A} (k : string) (c : jcodec A) : ocodec (option A) :=
  OC [k] (fun o => match o with Some a => [(k, jenc c a)] | None => [] end)
     (fun l => match assoc_find k l with
        | None => Some None
        | Some j => jdec (jc_opt c) j end)
     (jval (jc_opt c)).

(** [Option] field written as null when [None]; absent reads as [None].
    (src/types/state.rs:58-62, src/types/msg.rs:69, 113, 117.) *)
Definition o_opt {A} (k : string) (c : jcodec A) : ocodec (option A) :=
  OC [k] (fun o => [(k, jenc (jc_opt c) o)])
     (fun l => match assoc_find k l with
        | None => Some None
        | Some j => jdec (jc_opt c) j end)
     (jval (jc_opt c)).

(** [Vec] field with [skip_serializing_if = "Vec::is_empty"], [default] and
    [DefaultOnNull]. (src/types/msg.rs:53-56.) *)
Definition o_vec_skip {A} (k : string) (c : jcodec A) : ocodec (list A) :=
  OC [k] (fun l => match l with [] => [] | _ => [(k, jenc (jc_list c) l)] end)
     (fun l => match assoc_find k l with
        | None => Some []
        | Some JNull => Some []
        | Some j => jdec (jc_list c) j end)
     (jval (jc_list c)).

(** [Vec] field with [DefaultOnNull]. (src/types/msg.rs:48-49.) *)
Definition o_vec_null {A} (k : string) (c : jcodec A) : ocodec (list A) :=
  OC [k] (fun l => [(k, jenc (jc_list c) l)])
     (fun l => match assoc_find k l with
        | None => None
        | Some JNull => Some []
        | Some j => jdec (jc_list c) j end)
     (jval (jc_list c)).

(** No field; two groups of fields (serde crate). *)
Definition o_unit : ocodec unit :=
  OC [] (fun _ => []) (fun _ => Some tt) (fun _ => True).

(** No field; two groups of fields (serde crate). *)
Definition o_pair {A B} (a : ocodec A) (b : ocodec B) : ocodec (A * B) :=
  OC (okeys a ++ okeys b) (fun p => (oenc a (fst p) ++ oenc b (snd p))%list)
     (fun l => x <-? odec a l ;; y <-? odec b l ;; Some (x, y))
     (fun p => oval a (fst p) /\ oval b (snd p)).

(** Membership of a name; no name twice. None in /repo. *)
Definition skey_in (k : string) (ks : list string) : bool := existsb (String.eqb k) ks.
(** Membership of a name; no name twice. None in /repo. *)
Fixpoint nodupb (l : list string) : bool :=
  match l with [] => true | x :: r => negb (skey_in x r) && nodupb r end.

(** A struct: duplicate fields are an error; with [deny] an unknown one too.
    ([deny_unknown_fields] comes with [cw_serde], e.g. src/types/msg.rs:9, 27, and not with a
    plain derive, e.g. src/types/msg.rs:96-106.) *)
Definition jc_struct {A} (deny : bool) (o : ocodec A) : jcodec A :=
  JC (fun a => JObj (oenc o a))
     (fun j => match j with
        | JObj l =>
            if nodupb (filter (fun k => skey_in k (okeys o)) (map fst l))
               && (negb deny || forallb (fun k => skey_in k (okeys o)) (map fst l))
            then odec o l else None
        | _ => None end)
     (oval o).

(** ** Enums (externally tagged) *)

(** (serde crate; e.g. src/types/msg.rs:28-71.) *)
Record vcodec (A : Type) := VC {
  vkeys : list string;
  vtag : A -> string * option json;          (* [None]: unit variant *)
  vuntag : string -> option json -> option A;
  vval : A -> Prop
}.
Arguments VC {A}. Arguments vkeys {A}. Arguments vtag {A}. Arguments vuntag {A}. Arguments vval {A}.

(** A variant with content (serde crate), e.g. src/ibc/types/packet.rs:214, 217. *)
Definition v_one {A} (k : string) (c : jcodec A) : vcodec A :=
  VC [k] (fun a => (k, Some (jenc c a)))
     (fun k' j => if String.eqb k k' then v <-? j ;; jdec c v else None) (jval c).

(** A unit variant is read from its name, or from an object with a null value.
    (src/types/state.rs:135-159, src/ibc/types/metadata.rs:43-50.) *)
Definition v_unit (k : string) : vcodec unit :=
  VC [k] (fun _ => (k, None))
     (fun k' j => if String.eqb k k'
                  then match j with None | Some JNull => Some tt | _ => None end else None)
     (fun _ => True).

(** Two groups of variants (serde crate). *)
Definition v_sum {A B} (a : vcodec A) (b : vcodec B) : vcodec (A + B) :=
  VC (vkeys a ++ vkeys b)
     (fun s => match s with inl x => vtag a x | inr y => vtag b y end)
     (fun k j => if skey_in k (vkeys a) then option_map inl (vuntag a k j)
                 else option_map inr (vuntag b k j))
     (fun s => match s with inl x => vval a x | inr y => vval b y end).

(** An externally tagged enum (serde crate). *)
Definition jc_enum {A} (v : vcodec A) : jcodec A :=
  JC (fun a => match vtag v a with
        | (k, Some j) => JObj [(k, j)] | (k, None) => JStr k end)
     (fun j => match j with
        | JObj [(k, j')] => vuntag v k (Some j')
        | JStr k => vuntag v k None
        | _ => None end)
     (vval v).

(** ** Correctness of the combinators *)

Lemma jc_str_ok : jcodec_ok jc_str.
Proof. intros s H. split; [exact H|reflexivity]. Qed.

Lemma jc_bool_ok : jcodec_ok jc_bool.
Proof. intros s H. split; reflexivity. Qed.

Lemma jc_bin_ok : jcodec_ok jc_bin.
Proof. intros s _. split; [apply b64_valid|apply b64_roundtrip]. Qed.

Lemma jc_uint_ok lim : jcodec_ok (jc_uint lim).
Proof.
  intros n H. split; [reflexivity|]. cbn. now rewrite (proj2 (N.ltb_lt _ _) H).
Qed.

Lemma digits_ascii s : all_chars is_digit s = true -> ascii_only s = true.
Proof.
  induction s as [|c s IH]; cbn; [reflexivity|]. rewrite !andb_true_iff.
  intros [H1 H2]. split; [|auto]. unfold is_digit in H1. lia.
Qed.

Lemma dec_valid n : utf8_valid (dec n) = true.
Proof. apply ascii_only_valid, digits_ascii, dec_digits. Qed.

Lemma jc_uint_str_ok lim : jcodec_ok (jc_uint_str lim).
Proof. intros n H. split; [apply dec_valid|]. now apply parse_uint_dec. Qed.

Lemma decimal_valid a : utf8_valid (decimal_to_string a) = true.
Proof.
  apply ascii_only_valid. unfold decimal_to_string.
  destruct (a mod e18 =? 0); [apply digits_ascii, dec_digits|].
  rewrite !ascii_only_app. cbn [ascii_only andb].
  rewrite (digits_ascii _ (dec_digits _)).
  rewrite digits_ascii; [reflexivity|].
  apply trim0_all. unfold pad0. rewrite all_chars_app, all_digits_zeros, dec_digits. reflexivity.
Qed.

Lemma jc_decimal_ok : jcodec_ok jc_decimal.
Proof. intros n H. split; [apply decimal_valid|]. now apply decimal_roundtrip. Qed.

Lemma jwf_arr l : jwf (JArr l) = forallb jwf l.
Proof. induction l as [|x l IH]; [reflexivity|]. cbn in *. now rewrite IH. Qed.

Lemma jwf_obj l :
  jwf (JObj l) = forallb (fun kv => utf8_valid (fst kv) && jwf (snd kv)) l.
Proof. induction l as [|[k x] l IH]; [reflexivity|]. cbn in *. now rewrite IH. Qed.

Lemma jc_list_ok {A} (c : jcodec A) : jcodec_ok c -> jcodec_ok (jc_list c).
Proof.
  intros Hc l Hl. cbn [jenc jdec jc_list].  rewrite jwf_arr.
  induction Hl as [|x l Hx Hl [IH1 IH2]]; [split; reflexivity|].
  destruct (Hc x Hx) as [H1 H2]. cbn. rewrite H1, IH1, H2. cbn. rewrite IH2. auto.
Qed.

Lemma jc_tup_ok {A B} (c : jcodec A) (d : jcodec B) :
  jcodec_ok c -> jcodec_ok d -> jcodec_ok (jc_tup c d).
Proof.
  intros Hc Hd [a b] [Ha Hb]. cbn in *. destruct (Hc a Ha) as [H1 H2], (Hd b Hb) as [H3 H4].
  rewrite H1, H2, H3, H4. auto.
Qed.

Lemma jc_opt_ok {A} (c : jcodec A) : jcodec_ok c -> jcodec_ok (jc_opt c).
Proof.
  intros Hc [a|] Ha; [|split; reflexivity]. cbn in *. destruct Ha as [Ha Hn].
  destruct (Hc a Ha) as [H1 H2]. split; [exact H1|].
  rewrite H2. cbn. destruct (jenc c a); congruence.
Qed.

Lemma jc_map_ok {A B} (c : jcodec A) (to : B -> A) (from : A -> B) :
  (forall b, from (to b) = b) -> jcodec_ok c -> jcodec_ok (jc_map c to from).
Proof.
  intros Hft Hc b Hb. cbn in *. destruct (Hc _ Hb) as [H1 H2].
  split; [exact H1|]. rewrite H2. cbn. now rewrite Hft.
Qed.

Lemma skey_in_spec k ks : skey_in k ks = true <-> In k ks.
Proof.
  unfold skey_in. rewrite existsb_exists. split.
  - intros (x & Hx & E). apply String.eqb_eq in E. now subst.
  - intro H. exists k. split; [exact H|apply String.eqb_refl].
Qed.

Lemma nodupb_spec l : nodupb l = true <-> NoDup l.
Proof.
  induction l as [|x l IH]; cbn.
  - split; [constructor|reflexivity].
  - rewrite andb_true_iff, IH, negb_true_iff. split.
    + intros [H1 H2]. constructor; [|exact H2]. intro Hin.
      apply skey_in_spec in Hin. congruence.
    + intro H. inversion H; subst. split; [|assumption].
      destruct (skey_in x l) eqn:E; [|reflexivity]. apply skey_in_spec in E. contradiction.
Qed.

(** Statement used in proofs, none in /repo. *)
Definition disjoint_keys (l : list (string * json)) (ks : list string) : Prop :=
  forall k, In k (map fst l) -> ~ In k ks.

(** Statement used in proofs, none in /repo. *)
Record ocodec_ok {A} (o : ocodec A) : Prop := {
  ook_keys : forall a k, In k (map fst (oenc o a)) -> In k (okeys o);
  ook_nodup : forall a, NoDup (map fst (oenc o a));
  ook_wf : forall a, oval o a -> jwf (JObj (oenc o a)) = true;
  ook_dec : forall a pre post, oval o a ->
    disjoint_keys pre (okeys o) -> disjoint_keys post (okeys o) ->
    odec o (pre ++ oenc o a ++ post) = Some a
}.

Lemma assoc_find_app {A} k (l1 l2 : list (string * A)) :
  ~ In k (map fst l1) -> assoc_find k (l1 ++ l2) = assoc_find k l2.
Proof.
  induction l1 as [|[k' v] l IH]; cbn; [reflexivity|]. intro H.
  destruct (String.eqb_spec k' k) as [->|]; [tauto|]. apply IH. tauto.
Qed.

Lemma assoc_find_none {A} k (l : list (string * A)) :
  ~ In k (map fst l) -> assoc_find k l = None.
Proof. intro H. rewrite <- (app_nil_r l). now rewrite assoc_find_app. Qed.

Lemma disj_one l k : disjoint_keys l [k] -> ~ In k (map fst l).
Proof. intros H Hin. apply (H k Hin). now left. Qed.

Lemma assoc_find_here {A} k (v : A) l1 l2 :
  ~ In k (map fst l1) -> assoc_find k (l1 ++ (k, v) :: l2) = Some v.
Proof. intro H. rewrite assoc_find_app by exact H. cbn. now rewrite String.eqb_refl. Qed.

Lemma o_req_ok {A} k (c : jcodec A) :
  utf8_valid k = true -> jcodec_ok c -> ocodec_ok (o_req k c).
Proof.
  intros Hk Hc. split; cbn.
  - tauto.
  - intros _. constructor; [intros []|constructor].
  - intros a Ha. rewrite Hk. destruct (Hc a Ha) as [H _]. cbn. now rewrite H.
  - intros a pre post Ha Hpre _. rewrite assoc_find_here by now apply disj_one. cbn.
    apply Hc, Ha.
Qed.

Lemma o_opt_ok {A} k (c : jcodec A) :
  utf8_valid k = true -> jcodec_ok c -> ocodec_ok (o_opt k c).
Proof.
  intros Hk Hc. pose proof (jc_opt_ok c Hc) as Ho. split; cbn [o_opt okeys oenc odec oval].
  - cbn. tauto.
  - intros l0. cbn. constructor; [intros []|constructor].
  - intros a Ha. destruct (Ho a Ha) as [H _]. rewrite jwf_obj. cbn [forallb fst snd].
    now rewrite Hk, H.
  - intros a pre post Ha Hpre _. cbn [app]. rewrite assoc_find_here by now apply disj_one.
    apply Ho, Ha.
Qed.

Lemma o_skip_ok {A} k (c : jcodec A) :
  utf8_valid k = true -> jcodec_ok c -> ocodec_ok (o_skip k c).
Proof.
  intros Hk Hc. pose proof (jc_opt_ok c Hc) as Ho. split; cbn [o_skip okeys oenc odec oval].
  - intros [a|] k'; cbn; tauto.
  - intros [a|]; cbn; repeat constructor; tauto.
  - intros [a|] Ha; [|reflexivity]. destruct (Ho (Some a) Ha) as [H _]. cbn in H.
    rewrite jwf_obj. cbn [forallb fst snd]. now rewrite Hk, H.
  - intros [a|] pre post Ha Hpre Hpost.
    + cbn [app]. rewrite assoc_find_here by now apply disj_one. apply (Ho (Some a) Ha).
    + cbn [app]. rewrite assoc_find_none; [reflexivity|].
      rewrite map_app, in_app_iff. apply disj_one in Hpre, Hpost. tauto.
Qed.

Lemma jc_list_notnull {A} (c : jcodec A) l : jenc (jc_list c) l <> JNull.
Proof. discriminate. Qed.

Lemma o_vec_skip_ok {A} k (c : jcodec A) :
  utf8_valid k = true -> jcodec_ok c -> ocodec_ok (o_vec_skip k c).
Proof.
  intros Hk Hc. pose proof (jc_list_ok c Hc) as Ho.
  split; cbn [o_vec_skip okeys oenc odec oval].
  - intros [|a l] k'; cbn; tauto.
  - intros [|a l]; cbn; repeat constructor; tauto.
  - intros [|a l] Ha; [reflexivity|]. destruct (Ho _ Ha) as [H _].
    rewrite jwf_obj. cbn [forallb fst snd]. now rewrite Hk, H.
  - intros [|a l] pre post Ha Hpre Hpost.
    + cbn [app]. rewrite assoc_find_none; [reflexivity|].
      rewrite map_app, in_app_iff. apply disj_one in Hpre, Hpost. tauto.
    + cbn [app]. rewrite assoc_find_here by now apply disj_one.
      apply (Ho _ Ha).
Qed.

Lemma o_vec_null_ok {A} k (c : jcodec A) :
  utf8_valid k = true -> jcodec_ok c -> ocodec_ok (o_vec_null k c).
Proof.
  intros Hk Hc. pose proof (jc_list_ok c Hc) as Ho.
  split; cbn [o_vec_null okeys oenc odec oval].
  - cbn; tauto.
  - intros l; cbn; repeat constructor; tauto.
  - intros l Ha. destruct (Ho _ Ha) as [H _].
    rewrite jwf_obj. cbn [forallb fst snd]. now rewrite Hk, H.
  - intros l pre post Ha Hpre Hpost.
    cbn [app]. rewrite assoc_find_here by now apply disj_one. apply (Ho _ Ha).
Qed.

Lemma o_unit_ok : ocodec_ok o_unit.
Proof.
  split; cbn; auto.
  - intros a. constructor.
  - intros [] pre post H1 H2 H3. reflexivity.
Qed.

Lemma o_pair_ok {A B} (a : ocodec A) (b : ocodec B) :
  ocodec_ok a -> ocodec_ok b -> (forall k, In k (okeys a) -> ~ In k (okeys b)) ->
  ocodec_ok (o_pair a b).
Proof.
  intros Ha Hb Hd. split; cbn [o_pair okeys oenc odec oval].
  - intros [x y] k. rewrite map_app, !in_app_iff. cbn [fst snd].
    intros [H|H]; [left; eapply ook_keys|right; eapply ook_keys]; eauto.
  - intros [x y]. cbn [fst snd]. rewrite map_app.
    pose proof (ook_nodup _ Ha x) as N1. pose proof (ook_nodup _ Hb y) as N2.
    assert (D : forall k, In k (map fst (oenc a x)) -> ~ In k (map fst (oenc b y))).
    { intros k H1 H2. apply (Hd k); eapply ook_keys; eauto. }
    induction (map fst (oenc a x)) as [|k l IH]; cbn; [exact N2|].
    inversion N1; subst. constructor.
    + rewrite in_app_iff. intros [H|H]; [contradiction|]. apply (D k); [now left|exact H].
    + apply IH; [assumption|]. intros k' Hk'. apply D. now right.
  - intros [x y] [Hx Hy]. cbn [fst snd] in *. rewrite jwf_obj, forallb_app, <- !jwf_obj.
    now rewrite (ook_wf _ Ha x Hx), (ook_wf _ Hb y Hy).
  - intros [x y] pre post [Hx Hy] Hpre Hpost. cbn [fst snd] in *.
    assert (E1 : (pre ++ (oenc a x ++ oenc b y) ++ post = pre ++ oenc a x ++ (oenc b y ++ post))%list)
      by now rewrite <- !app_assoc.
    assert (E2 : (pre ++ (oenc a x ++ oenc b y) ++ post = (pre ++ oenc a x) ++ oenc b y ++ post)%list)
      by now rewrite <- !app_assoc.
    rewrite E1 at 1. rewrite (ook_dec _ Ha x) by
      (try assumption; intros k Hk Hin; rewrite ?map_app, ?in_app_iff in Hk;
       first [ apply (Hpre k Hk); rewrite in_app_iff; tauto
             | destruct Hk as [Hk|Hk];
               [ apply (Hd k Hin); eapply ook_keys; eauto
               | apply (Hpost k Hk); rewrite in_app_iff; tauto ] ]).
    cbn [obind]. rewrite E2. rewrite (ook_dec _ Hb y) by
      (try assumption; intros k Hk Hin; rewrite ?map_app, ?in_app_iff in Hk;
       first [ apply (Hpost k Hk); rewrite in_app_iff; tauto
             | destruct Hk as [Hk|Hk];
               [ apply (Hpre k Hk); rewrite in_app_iff; tauto
               | apply (Hd k); [eapply ook_keys; eauto | exact Hin] ] ]).
    reflexivity.
Qed.

Lemma jc_struct_ok {A} deny (o : ocodec A) : ocodec_ok o -> jcodec_ok (jc_struct deny o).
Proof.
  intros Ho a Ha. cbn [jc_struct jenc jdec jval] in *.
  split; [apply (ook_wf _ Ho a Ha)|].
  assert (H1 : forallb (fun k => skey_in k (okeys o)) (map fst (oenc o a)) = true).
  { apply forallb_forall. intros k Hk. apply skey_in_spec. eapply ook_keys; eauto. }
  assert (H2 : nodupb (filter (fun k => skey_in k (okeys o)) (map fst (oenc o a))) = true).
  { apply nodupb_spec, NoDup_filter, (ook_nodup _ Ho). }
  rewrite H1, H2, orb_true_r. cbn [andb].
  pose proof (ook_dec _ Ho a [] [] Ha) as H. rewrite app_nil_r in H. apply H;
    intros k Hk; destruct Hk.
Qed.

(** Statement used in proofs, none in /repo. *)
Record vcodec_ok {A} (v : vcodec A) : Prop := {
  vok_keys : forall a, In (fst (vtag v a)) (vkeys v);
  vok_wf : forall a, vval v a -> utf8_valid (fst (vtag v a)) = true /\
    match snd (vtag v a) with Some j => jwf j = true | None => True end;
  vok_dec : forall a, vval v a -> vuntag v (fst (vtag v a)) (snd (vtag v a)) = Some a
}.

Lemma v_one_ok {A} k (c : jcodec A) : utf8_valid k = true -> jcodec_ok c -> vcodec_ok (v_one k c).
Proof.
  intros Hk Hc. split; cbn; auto.
  - intros a Ha. split; [exact Hk|]. apply Hc, Ha.
  - intros a Ha. rewrite String.eqb_refl. apply Hc, Ha.
Qed.

Lemma v_unit_ok k : utf8_valid k = true -> vcodec_ok (v_unit k).
Proof.
  intros Hk. split; cbn; auto. intros [] _. now rewrite String.eqb_refl.
Qed.

Lemma v_sum_ok {A B} (a : vcodec A) (b : vcodec B) :
  vcodec_ok a -> vcodec_ok b -> (forall k, In k (vkeys b) -> ~ In k (vkeys a)) ->
  vcodec_ok (v_sum a b).
Proof.
  intros Ha Hb Hd. split; cbn [v_sum vkeys vtag vuntag vval].
  - intros [x|y]; rewrite in_app_iff; [left|right]; [apply (vok_keys _ Ha)|apply (vok_keys _ Hb)].
  - intros [x|y] H; [apply (vok_wf _ Ha x H)|apply (vok_wf _ Hb y H)].
  - intros [x|y] H.
    + rewrite (proj2 (skey_in_spec _ _) (vok_keys _ Ha x)), (vok_dec _ Ha x H). reflexivity.
    + destruct (skey_in (fst (vtag b y)) (vkeys a)) eqn:E.
      * apply skey_in_spec in E. exfalso. eapply Hd; [apply (vok_keys _ Hb y)|exact E].
      * rewrite (vok_dec _ Hb y H). reflexivity.
Qed.

Lemma jc_enum_ok {A} (v : vcodec A) : vcodec_ok v -> jcodec_ok (jc_enum v).
Proof.
  intros Hv a Ha. cbn [jc_enum jenc jdec jval] in *.
  pose proof (vok_wf _ Hv a Ha) as [H1 H2]. pose proof (vok_dec _ Hv a Ha) as H3.
  destruct (vtag v a) as [k [j|]]; cbn [fst snd] in *.
  - split; [|exact H3]. rewrite jwf_obj. cbn [forallb fst snd]. now rewrite H1, H2.
  - split; [exact H1|exact H3].
Qed.

(** Side conditions of the combinators on literal keys are decided. *)
Lemma keys_disjoint_dec (a b : list string) :
  forallb (fun k => negb (skey_in k b)) a = true -> forall k, In k a -> ~ In k b.
Proof.
  intros H k Hk Hb. rewrite forallb_forall in H. specialize (H k Hk).
  apply skey_in_spec in Hb. rewrite Hb in H. discriminate.
Qed.

Create HintDb jcodec.
Global Hint Resolve jc_str_ok jc_bool_ok jc_bin_ok jc_uint_ok jc_uint_str_ok jc_decimal_ok
  jc_list_ok jc_tup_ok jc_opt_ok jc_struct_ok jc_enum_ok o_unit_ok : jcodec.
Ltac jok := repeat first
  [ apply o_pair_ok; [ | | apply keys_disjoint_dec; reflexivity ]
  | apply v_sum_ok; [ | | apply keys_disjoint_dec; reflexivity ]
  | apply o_req_ok; [reflexivity|] | apply o_opt_ok; [reflexivity|]
  | apply o_skip_ok; [reflexivity|] | apply o_vec_skip_ok; [reflexivity|]
  | apply o_vec_null_ok; [reflexivity|]
  | apply v_one_ok; [reflexivity|] | apply v_unit_ok; reflexivity
  | apply jc_struct_ok | apply jc_enum_ok | apply jc_list_ok | apply jc_tup_ok
  | solve [eauto 2 with jcodec] ].
