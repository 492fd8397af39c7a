(** * SemverFacts: the texts of semantic versions (semver.org 2.0.0), and that
    the parser of the semver crate accepts exactly these. *)

From Verif Require Import Base Text Semver.
From Coq Require Import ZifyBool ZifyNat ZifyN.
Local Open Scope string_scope.
Local Open Scope list_scope.
Local Open Scope N_scope.

(** ** Specification *)

(** Identifiers: ASCII letters, digits and hyphens, not empty; in a pre-release
    a number has no leading zero. *)
Definition letter (x : ascii) : Prop := (65 <= bn x <= 90 \/ 97 <= bn x <= 122 \/ 48 <= bn x <= 57) \/ x = "-"%char.
Inductive each (P : ascii -> Prop) : string -> Prop :=
| each_nil : each P ""
| each_cons x s : P x -> each P s -> each P (String x s).
Definition build_id (s : string) : Prop := s <> "" /\ each letter s.
Definition digits (s : string) : Prop := each (fun x => 48 <= bn x <= 57) s.
Definition pre_id (s : string) : Prop :=
  s <> "" /\ each letter s /\ (digits s -> exists n, s = dec n).

(** Identifiers joined by dots. *)
Fixpoint dotted (l : list string) : string :=
  match l with [] => "" | [x] => x | x :: r => x +++ String "." (dotted r) end.

(** MAJOR.MINOR.PATCH[-PRE][+BUILD] *)
Definition part (mark : ascii) (l : list string) : string := match l with [] => "" | _ => String mark (dotted l) end.
Definition version_text (v : version) : string :=
  let '(major, minor, patch) := vr_nums v in
  dec major +++ String "." (dec minor +++ String "." (dec patch +++
    part "-" (vr_pre v) +++ part "+" (vr_build v))).
Definition wf_version (v : version) : Prop :=
  let '(major, minor, patch) := vr_nums v in
  major < u64_lim /\ minor < u64_lim /\ patch < u64_lim /\
  Forall pre_id (vr_pre v) /\ Forall build_id (vr_build v).

(** ** Decimal numbers *)

Lemma pdec_acc_bound s : forall a n, pdec_acc a s = Some n ->
  a * 10 ^ N.of_nat (String.length s) <= n < (a + 1) * 10 ^ N.of_nat (String.length s).
Proof.
  induction s as [|c s IH]; intros a n H; cbn [pdec_acc String.length] in *.
  - injection H as <-. cbn. lia.
  - destruct (is_digit c) eqn:E; [|discriminate]. apply IH in H. unfold is_digit in E. unfold digit_val in H.
    rewrite Nat2N.inj_succ, N.pow_succ_r by lia. set (k := 10 ^ N.of_nat (String.length s)) in *.
    assert (0 <= bn c - 48 <= 9) by lia. nia.
Qed.

Lemma pdec_acc_inj s : forall t a b n, String.length s = String.length t ->
  pdec_acc a s = Some n -> pdec_acc b t = Some n -> a = b /\ s = t.
Proof.
  induction s as [|c s IH]; intros [|d t] a b n Hl Hs Ht; try discriminate Hl.
  - cbn in Hs, Ht. split; [congruence|reflexivity].
  - cbn [pdec_acc] in Hs, Ht. destruct (is_digit c) eqn:Ec; [|discriminate]. destruct (is_digit d) eqn:Ed; [|discriminate].
    cbn in Hl. injection Hl as Hl. destruct (IH t _ _ _ Hl Hs Ht) as [E ->].
    unfold is_digit in Ec, Ed. unfold digit_val in E.
    assert (a = b /\ bn c = bn d) as [-> E'] by lia. split; [reflexivity|].
    f_equal. unfold bn in E'. rewrite <- (ascii_N_embedding c), <- (ascii_N_embedding d). now f_equal.
Qed.

Lemma pdec_len s t n : lead0 s = false -> lead0 t = false -> s <> "" -> t <> "" ->
  pdec s = Some n -> pdec t = Some n -> (String.length s <= String.length t)%nat.
Proof.
  intros Ls Lt Ns Nt Hs Ht. destruct s as [|c [|c' s]]; [congruence| |].
  - destruct t; [congruence|]. cbn. lia.
  - destruct (le_lt_dec (String.length (String c (String c' s))) (String.length t)) as [L|L]; [exact L|exfalso].
    assert (Hs' : pdec_acc (digit_val c) (String c' s) = Some n /\ 1 <= digit_val c).
    { unfold pdec in Hs. remember (String c' s) as u. cbn [pdec_acc] in Hs. destruct (is_digit c) eqn:Ec; [|discriminate].
      split; [now rewrite N.add_0_l in Hs|]. subst u. cbn [lead0] in Ls. unfold is_digit in Ec. unfold digit_val.
      destruct (N.eq_dec (bn c) 48) as [E|]; [|lia]. exfalso. apply Ascii.eqb_neq in Ls. apply Ls.
      rewrite <- (ascii_N_embedding c). unfold bn in E. now rewrite E. }
    destruct Hs' as [Hs' H1]. apply pdec_acc_bound in Hs'.
    assert (Ht' : n < 10 ^ N.of_nat (String.length t)).
    { destruct t as [|d t]; [congruence|]. unfold pdec in Ht. apply pdec_acc_bound in Ht. lia. }
    remember (String c' s) as u. cbn [String.length] in L.
    assert (Lu : (String.length t <= String.length u)%nat) by lia.
    assert (10 ^ N.of_nat (String.length t) <= 10 ^ N.of_nat (String.length u)) by (apply N.pow_le_mono_r; lia).
    nia.
Qed.

Lemma pdec_canonical s n : lead0 s = false -> s <> "" -> pdec s = Some n -> s = dec n.
Proof.
  intros L N H.
  assert (Ld : lead0 (dec n) = false).
  { destruct (dec n) as [|c [|c' r]] eqn:E; [reflexivity|reflexivity|]. cbn [lead0]. apply Ascii.eqb_neq.
    eapply dec_head; [exact E|]. intros ->. rewrite dec_0 in E. discriminate. }
  assert (Nd : dec n <> "") by (destruct (dec_nonempty n) as (? & ? & ->); discriminate).
  assert (Hd := pdec_dec n).
  assert (Hl : String.length s = String.length (dec n)).
  { apply Nat.le_antisymm; eapply pdec_len; eassumption. }
  assert (P : forall x, x <> "" -> pdec x = pdec_acc 0 x) by (intros [|] ?; [congruence|reflexivity]).
  rewrite P in H, Hd by assumption. now apply (pdec_acc_inj s (dec n) 0 0 n Hl).
Qed.

Lemma dec_lead0 n : lead0 (dec n) = false.
Proof.
  destruct (dec n) as [|c [|c' r]] eqn:E; [reflexivity|reflexivity|]. cbn [lead0]. apply Ascii.eqb_neq.
  eapply dec_head; [exact E|]. intros ->. rewrite dec_0 in E. discriminate.
Qed.

(** ** Spans *)

Definition stops (p : ascii -> bool) (s : string) : Prop :=
  match s with "" => True | String c _ => p c = false end.
Lemma span_spec p s x y : span p s = (x, y) -> s = x +++ y /\ all_chars p x = true /\ stops p y.
Proof.
  revert x y. induction s as [|c s IH]; intros x y H; cbn [span] in H.
  - injection H as <- <-. auto using (I : stops p "").
  - destruct (p c) eqn:E.
    + destruct (span p s) as [x' y'] eqn:E'. injection H as <- <-. destruct (IH _ _ eq_refl) as (-> & H1 & H2).
      cbn [append all_chars]. rewrite E, H1. auto.
    + injection H as <- <-. cbn. auto.
Qed.
Lemma span_app p x y : all_chars p x = true -> stops p y -> span p (x +++ y) = (x, y).
Proof.
  induction x as [|c x IH]; intros H1 H2; cbn [append].
  - destruct y as [|c y]; [reflexivity|]. cbn [span]. cbn in H2. now rewrite H2.
  - cbn [all_chars] in H1. apply andb_true_iff in H1 as [H1 H3]. cbn [span]. now rewrite H1, IH.
Qed.

Lemma num_ident_spec s n r : num_ident s = Some (n, r) <-> s = dec n +++ r /\ n < u64_lim /\ stops is_digit r.
Proof.
  unfold num_ident. split.
  - destruct (span is_digit s) as [d y] eqn:E. apply span_spec in E as (-> & Hd & Hy).
    destruct (sempty d || lead0 d) eqn:E; [discriminate|]. apply orb_false_iff in E as [E1 E2].
    intro H. apply obind_some in H as (m & Hm & H). destruct (N.ltb_spec m u64_lim); [|discriminate]. injection H as -> ->.
    split; [|auto]. f_equal. apply pdec_canonical; [exact E2| |exact Hm]. intros ->. discriminate.
  - intros (-> & Hn & Hr). rewrite span_app by (apply dec_digits || exact Hr). rewrite dec_lead0.
    destruct (dec_nonempty n) as (c & x & E). rewrite E at 1. cbn [sempty orb]. rewrite pdec_dec. cbn [obind].
    apply N.ltb_lt in Hn. now rewrite Hn.
Qed.

(** ** Identifiers *)

Lemma each_all P p s : (forall x, P x <-> p x = true) -> each P s <-> all_chars p s = true.
Proof.
  intro H. induction s as [|c s IH]; cbn [all_chars]; [split; [reflexivity|constructor]|].
  rewrite andb_true_iff. split.
  - inversion_clear 1. split; [now apply H|now apply IH].
  - intros [H1 H2]. constructor; [now apply H|now apply IH].
Qed.
Lemma letter_char x : letter x <-> ident_char x = true.
Proof.
  unfold letter, ident_char, is_digit. destruct (Ascii.eqb_spec x "-"%char) as [E|E]; [|].
  - rewrite orb_true_r. tauto.
  - rewrite orb_false_r. split; [intros [H|H]; [lia|congruence]|left; lia].
Qed.
Lemma digit_char x : 48 <= bn x <= 57 <-> is_digit x = true.
Proof. unfold is_digit. lia. Qed.
Lemma each_letter s : each letter s <-> all_chars ident_char s = true.
Proof. apply each_all, letter_char. Qed.
Lemma digits_all s : digits s <-> all_chars is_digit s = true.
Proof. apply each_all, digit_char. Qed.

Lemma ident_no_dot s : all_chars ident_char s = true -> all_chars (fun c => negb (Ascii.eqb c ".")) s = true.
Proof.
  apply all_chars_impl. intros c H. destruct (Ascii.eqb_spec c ".") as [->|]; [discriminate H|reflexivity].
Qed.

Lemma split_not_nil sep s : split_on sep s <> [].
Proof.
  destruct s as [|c s]; cbn; [discriminate|]. destruct (Ascii.eqb c sep); [discriminate|]. destruct (split_on sep s); discriminate.
Qed.
Lemma dotted_cons x l : l <> [] -> dotted (x :: l) = x +++ String "." (dotted l).
Proof. destruct l; [congruence|reflexivity]. Qed.
Lemma dotted_split s : dotted (split_on "." s) = s.
Proof.
  induction s as [|c s IH]; [reflexivity|]. cbn [split_on].
  assert (N := split_not_nil "." s). destruct (Ascii.eqb_spec c ".") as [->|].
  - rewrite dotted_cons by exact N. now rewrite IH.
  - destruct (split_on "." s) as [|x l]; [congruence|]. destruct l as [|y l].
    + cbn in IH. now subst x.
    + rewrite dotted_cons in IH |- * by discriminate. cbn [append]. now rewrite IH.
Qed.
Lemma split_dotted l : l <> [] -> Forall (fun x => all_chars ident_char x = true) l -> split_on "." (dotted l) = l.
Proof.
  intros N F. induction F as [|x l Hx Hl IH]; [congruence|]. destruct l as [|y l].
  - cbn [dotted]. apply split_on_none, ident_no_dot, Hx.
  - rewrite dotted_cons by discriminate. rewrite split_on_app by (apply ident_no_dot, Hx). now rewrite IH by discriminate.
Qed.
Lemma split_chars s : all_chars ident_or_dot s = true -> Forall (fun x => all_chars ident_char x = true) (split_on "." s).
Proof.
  induction s as [|c s IH]; cbn [all_chars split_on]; [intros _; repeat constructor|].
  intro H. apply andb_true_iff in H as [H1 H2]. specialize (IH H2). unfold ident_or_dot in H1.
  destruct (Ascii.eqb c "."); [now constructor|]. rewrite orb_false_r in H1.
  assert (N := split_not_nil "." s). destruct (split_on "." s) as [|x l]; [congruence|].
  inversion_clear IH. constructor; [cbn [all_chars]; now rewrite H1|assumption].
Qed.
Lemma dotted_chars l : Forall (fun x => all_chars ident_char x = true) l -> all_chars ident_or_dot (dotted l) = true.
Proof.
  assert (Hi : forall x, all_chars ident_char x = true -> all_chars ident_or_dot x = true).
  { intro x. apply all_chars_impl. intros c Hc. unfold ident_or_dot. now rewrite Hc. }
  induction 1 as [|x l Hx Hl IH]; [reflexivity|]. destruct l as [|y l]; [apply Hi, Hx|].
  rewrite dotted_cons by discriminate. rewrite all_chars_app, (Hi _ Hx). exact IH.
Qed.

Lemma pdec_acc_digits s : forall a, all_chars is_digit s = true -> exists n, pdec_acc a s = Some n.
Proof.
  induction s as [|d s IH]; intros a D; [eexists; reflexivity|].
  cbn [pdec_acc all_chars] in *. apply andb_true_iff in D as [-> D2]. now apply IH.
Qed.

Definition seg_ok (pre : bool) (x : string) : bool := negb (sempty x) && negb (pre && all_chars is_digit x && lead0 x).
Lemma seg_ok_pre x : all_chars ident_char x = true -> (seg_ok true x = true <-> pre_id x).
Proof.
  intro Hx. unfold seg_ok, pre_id. rewrite each_letter, digits_all. destruct x as [|c x]; [split; [discriminate|intros [H _]; congruence]|].
  cbn [sempty negb andb]. split.
  - intro H. split; [discriminate|]. split; [exact Hx|]. intro D. cbn [andb] in H. rewrite D in H. cbn [andb] in H. apply negb_true_iff in H.
    assert (E : exists n, pdec (String c x) = Some n).
    { change (pdec (String c x)) with (pdec_acc 0 (String c x)). now apply pdec_acc_digits. }
    destruct E as [n E]. exists n. apply pdec_canonical; [exact H|discriminate|exact E].
  - intros (_ & _ & H). destruct (all_chars is_digit (String c x)) eqn:D; [|reflexivity].
    destruct (H eq_refl) as [n ->]. now rewrite dec_lead0.
Qed.
Lemma seg_ok_build x : all_chars ident_char x = true -> (seg_ok false x = true <-> build_id x).
Proof.
  intro Hx. unfold seg_ok, build_id. rewrite each_letter. destruct x; cbn.
  - split; [discriminate|intros [H _]; congruence].
  - split; [intros _; split; [discriminate|exact Hx]|reflexivity].
Qed.

Lemma segments_spec pre (P : string -> Prop) s l :
  (forall x, all_chars ident_char x = true -> (seg_ok pre x = true <-> P x)) ->
  (forall x, P x -> all_chars ident_char x = true) ->
  all_chars ident_or_dot s = true ->
  (segments pre s = Some l <-> l <> [] /\ s = dotted l /\ Forall P l).
Proof.
  intros HP HC Hs. unfold segments. fold (seg_ok pre). split.
  - destruct (forallb _ _) eqn:E; [|discriminate]. intro H. injection H as <-.
    split; [apply split_not_nil|]. split; [now rewrite dotted_split|].
    apply Forall_forall. intros x Hx. rewrite forallb_forall in E. specialize (E x Hx).
    pose proof (split_chars s Hs) as F. rewrite Forall_forall in F. apply HP; [now apply F|exact E].
  - intros (N & -> & F). rewrite split_dotted; [|exact N|eapply Forall_impl; [|exact F]; exact HC].
    assert (E : forallb (seg_ok pre) l = true).
    { apply forallb_forall. intros x Hx. rewrite Forall_forall in F. specialize (F x Hx). apply HP; [now apply HC|exact F]. }
    now rewrite E.
Qed.

Lemma sempty_eq s : sempty s = true <-> s = "".
Proof. destruct s; cbn; split; congruence. Qed.

Definition opt_part (mark : ascii) (pre : bool) (s : string) : option (list string * string) :=
  match s with
  | String c r => if Ascii.eqb c mark then let (p, r) := span ident_or_dot r in l <-? segments pre p ;; Some (l, r) else Some ([], s)
  | "" => Some ([], s)
  end.
Definition fresh_mark (mark : ascii) (r : string) : Prop := match r with String c _ => c <> mark | "" => True end.

Lemma opt_part_spec mark pre (P : string -> Prop) s l r :
  (forall x, all_chars ident_char x = true -> (seg_ok pre x = true <-> P x)) ->
  (forall x, P x -> all_chars ident_char x = true) ->
  opt_part mark pre s = Some (l, r) <->
  s = part mark l +++ r /\ Forall P l /\ (l = [] -> fresh_mark mark r) /\ (l <> [] -> stops ident_or_dot r).
Proof.
  intros HP HC. unfold opt_part. split.
  - destruct s as [|c s].
    + intro H. injection H as <- <-. cbn. split; [reflexivity|]. split; [constructor|]. split; [intros _; exact I|congruence].
    + destruct (Ascii.eqb_spec c mark) as [->|Hne].
      * destruct (span ident_or_dot s) as [p r'] eqn:E. apply span_spec in E as (-> & Hp & Hr).
        intro H. apply obind_some in H as (l' & Hl & H). injection H as -> ->.
        apply (segments_spec pre P) in Hl as (N & -> & F); [|assumption|assumption|exact Hp].
        split; [destruct l; [congruence|reflexivity]|]. split; [exact F|]. split; [congruence|intros _; exact Hr].
      * intro H. injection H as <- <-. split; [reflexivity|]. split; [constructor|]. split; [intros _; exact Hne|congruence].
  - intros (-> & F & H1 & H2). destruct l as [|x l].
    + cbn [part append]. destruct r as [|c r]; [reflexivity|]. specialize (H1 eq_refl). cbn in H1.
      destruct (Ascii.eqb_spec c mark); [congruence|reflexivity].
    + cbn [part append]. rewrite Ascii.eqb_refl.
      assert (Hd : all_chars ident_or_dot (dotted (x :: l)) = true).
      { apply dotted_chars. eapply Forall_impl; [|exact F]. exact HC. }
      rewrite span_app; [|exact Hd|apply H2; discriminate].
      replace (segments pre (dotted (x :: l))) with (Some (x :: l)); [reflexivity|].
      symmetry. apply (segments_spec pre P); [assumption|assumption|exact Hd|]. split; [discriminate|]. split; [reflexivity|exact F].
Qed.

Lemma pre_id_chars x : pre_id x -> all_chars ident_char x = true.
Proof. intros (_ & H & _). now apply each_letter. Qed.
Lemma build_id_chars x : build_id x -> all_chars ident_char x = true.
Proof. intros (_ & H). now apply each_letter. Qed.

Lemma dot_spec s r : dot s = Some r <-> s = String "." r.
Proof.
  unfold dot. destruct s as [|c s]; [split; discriminate|]. destruct (Ascii.eqb_spec c ".") as [->|].
  - split; intro H; injection H as ->; reflexivity.
  - split; [discriminate|congruence].
Qed.

(** The parser accepts exactly the texts of versions. *)
Theorem parse_version_spec s v : parse_version s = Some v <-> wf_version v /\ s = version_text v.
Proof.
  unfold parse_version, wf_version, version_text. split.
  - intro H. apply obind_some in H as ([major s1] & H1 & H). apply obind_some in H as (s2 & H2 & H).
    apply obind_some in H as ([minor s3] & H3 & H). apply obind_some in H as (s4 & H4 & H).
    apply obind_some in H as ([patch s5] & H5 & H).
    apply obind_some in H as ([pre s6] & H6 & H). change (opt_part "-" true s5 = Some (pre, s6)) in H6.
    apply obind_some in H as ([build s7] & H7 & H). change (opt_part "+" false s6 = Some (build, s7)) in H7.
    destruct (sempty s7) eqn:E; [|discriminate]. injection H as <-. apply sempty_eq in E as ->.
    apply num_ident_spec in H1 as (-> & B1 & _). apply dot_spec in H2 as ->.
    apply num_ident_spec in H3 as (-> & B2 & _). apply dot_spec in H4 as ->.
    apply num_ident_spec in H5 as (-> & B3 & _).
    apply (opt_part_spec _ _ pre_id) in H6 as (-> & F1 & _); [|exact seg_ok_pre|exact pre_id_chars].
    apply (opt_part_spec _ _ build_id) in H7 as (-> & F2 & _); [|exact seg_ok_build|exact build_id_chars].
    cbn [vr_nums vr_pre vr_build]. split; [auto|].
    rewrite !sapp_nil_r. reflexivity.
  - destruct v as [[[major minor] patch] pre build]. cbn [vr_nums vr_pre vr_build]. intros [(B1 & B2 & B3 & F1 & F2) ->].
    assert (E : forall n r, n < u64_lim -> stops is_digit r -> num_ident (dec n +++ r) = Some (n, r)).
    { intros n r Hn Hr. apply num_ident_spec. auto. }
    rewrite E by (exact B1 || reflexivity). cbn [obind dot]. rewrite Ascii.eqb_refl. cbn [obind].
    rewrite E by (exact B2 || reflexivity). cbn [obind dot]. rewrite Ascii.eqb_refl. cbn [obind].
    rewrite E; [|exact B3|destruct pre; [destruct build; [exact I|reflexivity]|reflexivity]]. cbn [obind].
    fold (opt_part "-" true (part "-" pre +++ part "+" build)).
    replace (opt_part "-" true (part "-" pre +++ part "+" build)) with (Some (pre, part "+" build)).
    2: { symmetry. apply (opt_part_spec _ _ pre_id); [exact seg_ok_pre|exact pre_id_chars|]. split; [reflexivity|]. split; [exact F1|].
         split; intros _; destruct build; cbn; try exact I; try discriminate; reflexivity. }
    cbn [obind]. fold (opt_part "+" false (part "+" build)).
    replace (opt_part "+" false (part "+" build)) with (Some (build, "")).
    2: { symmetry. apply (opt_part_spec _ _ build_id); [exact seg_ok_build|exact build_id_chars|]. rewrite sapp_nil_r. split; [reflexivity|]. split; [exact F2|].
         split; intros _; exact I. }
    reflexivity.
Qed.
