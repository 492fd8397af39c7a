(** * Text: decimal text of integers and of [cosmwasm_std::Decimal].

    Models the Rust standard library's [u64]/[u128] [Display] and [FromStr]
    and [cosmwasm_std::Decimal]'s [Display] and [FromStr], which the contract
    calls in src/types/cosmos_msg.rs:93,114,143,243 and
    src/types/query_msg.rs:399,438-440, src/ibc/types/events.rs:58. *)

From Verif Require Import Base.
From Coq Require Import ZifyBool ZifyNat ZifyN.
Local Open Scope string_scope.
Local Open Scope N_scope.
Ltac Zify.zify_post_hook ::= Z.div_mod_to_equations.

(** ** Digits *)

(** Digits of the numbers below; none in /repo. *)
Definition digit (n : N) : ascii := nb (48 + n).
(** Digits of the numbers below; none in /repo. *)
Definition is_digit (c : ascii) : bool := (48 <=? bn c) && (bn c <=? 57).
(** Digits of the numbers below; none in /repo. *)
Definition digit_val (c : ascii) : N := bn c - 48.

Lemma is_digit_digit n : n < 10 -> is_digit (digit n) = true.
Proof. intro H. unfold is_digit, digit. rewrite bn_nb by lia. lia. Qed.

Lemma digit_val_digit n : n < 10 -> digit_val (digit n) = n.
Proof. intro H. unfold digit_val, digit. rewrite bn_nb by lia. lia. Qed.

(** [u64::to_string], [u128::to_string]: shortest decimal text, "0" for zero.
    Structural recursion on the number of binary digits as fuel.
    (src/types/cosmos_msg.rs:93, 114, 143; src/types/query_msg.rs:39-43;
    src/ibc/types/events.rs:58.) *)
Fixpoint dec_f (fuel : nat) (n : N) (acc : string) : string :=
  match fuel with
  | O => acc
  | S f =>
      let acc' := String (digit (n mod 10)) acc in
      if n <? 10 then acc' else dec_f f (n / 10) acc'
  end.

(** (src/types/cosmos_msg.rs:93, 114, 143; src/types/query_msg.rs:39-43;
    src/ibc/types/events.rs:58.) *)
Definition dec (n : N) : string := dec_f (S (N.to_nat (N.log2 n))) n "".

(** Value of a digit string appended to the number [acc].
    (Inside [u128::from_str], src/types/query_msg.rs:399.) *)
Fixpoint pdec_acc (acc : N) (s : string) : option N :=
  match s with
  | "" => Some acc
  | String c r => if is_digit c then pdec_acc (acc * 10 + digit_val c) r else None
  end.

(** Non-empty digit string. (Inside [u128::from_str], src/types/query_msg.rs:399.) *)
Definition pdec (s : string) : option N :=
  match s with "" => None | _ => pdec_acc 0 s end.

Lemma pdec_acc_dec_f fuel : forall n s,
  (n < 2 ^ N.of_nat fuel) -> (0 < fuel)%nat ->
  pdec_acc 0 (dec_f fuel n s) = pdec_acc n s.
Proof.
  induction fuel as [|f IH]; intros n s Hn Hf; [lia|].
  cbn [dec_f].
  destruct (N.ltb_spec n 10) as [H|H].
  - cbn [pdec_acc]. rewrite is_digit_digit by lia.
    rewrite digit_val_digit by lia. f_equal. rewrite N.mod_small by lia. lia.
  - rewrite IH.
    + cbn [pdec_acc]. rewrite is_digit_digit by lia.
      rewrite digit_val_digit by lia. f_equal. lia.
    + rewrite Nat2N.inj_succ, N.pow_succ_r' in Hn. lia.
    + destruct f; [|lia]. cbn in Hn. lia.
Qed.

Lemma dec_fuel_ok n : n < 2 ^ N.of_nat (S (N.to_nat (N.log2 n))).
Proof.
  rewrite Nat2N.inj_succ, N2Nat.id.
  destruct (N.eq_dec n 0) as [->|Hn]; [reflexivity|].
  apply N.log2_spec. lia.
Qed.

Lemma dec_nonempty n : exists c r, dec n = String c r.
Proof.
  unfold dec. remember (N.to_nat (N.log2 n)) as k eqn:Hk. clear Hk.
  assert (G : forall f m c0 s, exists c r, dec_f f m (String c0 s) = String c r).
  { induction f as [|f IH]; intros m c0 s; cbn [dec_f]; [eauto|].
    destruct (m <? 10); [eauto|]. apply IH. }
  cbn [dec_f]. destruct (n <? 10); [eauto|]. apply G.
Qed.

(** Every number is read back from its decimal text. *)
Lemma pdec_dec n : pdec (dec n) = Some n.
Proof.
  unfold pdec. destruct (dec_nonempty n) as (c & r & E).
  rewrite E, <- E. unfold dec. rewrite pdec_acc_dec_f; [reflexivity| |lia].
  apply dec_fuel_ok.
Qed.

Lemma dec_inj a b : dec a = dec b -> a = b.
Proof. intro H. assert (pdec (dec a) = pdec (dec b)) as G by now rewrite H.
  rewrite !pdec_dec in G. now inversion G. Qed.

(** All characters of [dec n] are digits.
    (The test for digits inside [u128::from_str], src/types/query_msg.rs:399.) *)
Fixpoint all_chars (p : ascii -> bool) (s : string) : bool :=
  match s with "" => true | String c r => p c && all_chars p r end.

Lemma all_chars_app p a b :
  all_chars p (a +++ b) = all_chars p a && all_chars p b.
Proof.
  induction a as [|c a IH]; cbn; [reflexivity|]. now rewrite IH, andb_assoc.
Qed.

Lemma all_chars_impl (p q : ascii -> bool) s :
  (forall c, p c = true -> q c = true) -> all_chars p s = true -> all_chars q s = true.
Proof.
  intro H. induction s as [|c s IH]; cbn; [auto|].
  rewrite !andb_true_iff. intros [H1 H2]. auto.
Qed.

Lemma dec_f_digits fuel : forall n s,
  all_chars is_digit s = true -> all_chars is_digit (dec_f fuel n s) = true.
Proof.
  induction fuel as [|f IH]; intros n s Hs; cbn [dec_f]; [exact Hs|].
  assert (H : all_chars is_digit (String (digit (n mod 10)) s) = true).
  { cbn. rewrite is_digit_digit by lia. exact Hs. }
  destruct (n <? 10); auto.
Qed.

Lemma dec_digits n : all_chars is_digit (dec n) = true.
Proof. apply dec_f_digits. reflexivity. Qed.

Lemma dec_f_len fuel : forall n s k,
  n < 10 ^ N.of_nat k -> (0 < k)%nat ->
  (String.length (dec_f fuel n s) <= String.length s + k)%nat.
Proof.
  induction fuel as [|f IH]; intros n s k Hn Hk; cbn [dec_f]; [lia|].
  destruct (N.ltb_spec n 10) as [H|H]; [cbn; lia|].
  destruct k as [|k]; [lia|].
  rewrite Nat2N.inj_succ, N.pow_succ_r' in Hn.
  destruct k as [|k]; [cbn in Hn; lia|].
  specialize (IH (n / 10) (String (digit (n mod 10)) s) (S k)).
  cbn [String.length] in IH. lia.
Qed.

Lemma dec_len n k : n < 10 ^ N.of_nat k -> (0 < k)%nat ->
  (String.length (dec n) <= k)%nat.
Proof. intros H Hk. exact (dec_f_len _ n "" k H Hk). Qed.

(** The first digit is "0" only for the number 0. *)
Lemma dec_f_head fuel : forall n s c r,
  n < 2 ^ N.of_nat fuel -> (0 < fuel)%nat -> n <> 0 ->
  dec_f fuel n s = String c r -> c <> "0"%char.
Proof.
  induction fuel as [|f IH]; intros n s c r Hn Hf H0 E; [lia|].
  cbn [dec_f] in E. destruct (N.ltb_spec n 10) as [H|H].
  - inversion E; subst. rewrite N.mod_small by lia.
    intro Hc. apply (f_equal bn) in Hc. unfold digit in Hc.
    rewrite bn_nb in Hc by lia. change (bn "0") with 48 in Hc. lia.
  - eapply IH in E; [exact E| | |lia].
    + rewrite Nat2N.inj_succ, N.pow_succ_r' in Hn. lia.
    + destruct f; [cbn in Hn; lia|lia].
Qed.

Lemma dec_head n c r : dec n = String c r -> n <> 0 -> c <> "0"%char.
Proof. intros E H0. eapply dec_f_head; [apply dec_fuel_ok|lia|exact H0|exact E]. Qed.

Lemma dec_0 : dec 0 = "0".
Proof. reflexivity. Qed.

Lemma pdec_acc_app s t : forall a,
  pdec_acc a (s +++ t) = obind (pdec_acc a s) (fun b => pdec_acc b t).
Proof.
  induction s as [|c s IH]; intro a; cbn; [reflexivity|].
  destruct (is_digit c); [apply IH|reflexivity].
Qed.

(** ** [FromStr] of unsigned integers with overflow check: an optional "+",
    then one or more digits, at most [lim - 1]. *)
(** (src/types/query_msg.rs:399.) *)
Definition parse_uint (lim : N) (s : string) : option N :=
  let body := match s with String "+" r => r | _ => s end in
  n <-? pdec body ;; if n <? lim then Some n else None.

Lemma pdec_parse_uint lim n s :
  all_chars is_digit s = true -> pdec s = Some n -> n < lim ->
  parse_uint lim s = Some n.
Proof.
  intros Hd Hp Hl. unfold parse_uint.
  assert (match s with String "+" r => r | _ => s end = s) as ->.
  { destruct s as [|c s]; [reflexivity|]. cbn in Hd.
    destruct (ascii_dec c "+") as [->|Hne]; [discriminate Hd|].
    destruct c as [[] [] [] [] [] [] [] []]; try reflexivity. congruence. }
  rewrite Hp. cbn. now rewrite (proj2 (N.ltb_lt n lim) Hl).
Qed.

Lemma parse_uint_dec lim n : n < lim -> parse_uint lim (dec n) = Some n.
Proof. apply pdec_parse_uint; [apply dec_digits|apply pdec_dec]. Qed.

(** [Uint128::from_str] (src/types/query_msg.rs:399.) *)
Definition parse_u128 : string -> option N := parse_uint u128_lim.

(** ** [cosmwasm_std::Decimal]: a 128-bit number of 10^-18 atomics. *)

(** [Decimal::DECIMAL_FRACTIONAL] of cosmwasm_std (src/types/query_msg.rs:438-440,
    src/types/cosmos_msg.rs:243). *)
Definition e18 : N := 1000000000000000000.

(** Part of [format!("{:0>18}")] below. *)
Fixpoint zeros (k : nat) : string :=
  match k with O => "" | S k' => String "0" (zeros k') end.

(** [format!("{:0>18}", x)] *)
Definition pad0 (w : nat) (s : string) : string :=
  zeros (w - String.length s) +++ s.

(** [str::trim_end_matches('0')] (In [Decimal::fmt], src/types/cosmos_msg.rs:243.) *)
Fixpoint trim0 (s : string) : string :=
  match s with
  | "" => ""
  | String c r =>
      let r' := trim0 r in
      if sempty r' && Ascii.eqb c "0" then "" else String c r'
  end.

(** [Decimal::to_string] (src/types/cosmos_msg.rs:243.) *)
Definition decimal_to_string (a : N) : string :=
  let whole := a / e18 in
  let frac := a mod e18 in
  if frac =? 0 then dec whole
  else dec whole +++ "." +++ trim0 (pad0 18 (dec frac)).

(** [str::split('.')] (In [Decimal::from_str], src/types/query_msg.rs:438-440.) *)
Fixpoint split_on (sep : ascii) (s : string) : list string :=
  match s with
  | "" => [""]
  | String c r =>
      if Ascii.eqb c sep then "" :: split_on sep r
      else match split_on sep r with
           | [] => [String c ""]   (* unreachable: split_on is never [] *)
           | x :: l => String c x :: l
           end
  end.

(** [Decimal::from_str] (src/types/query_msg.rs:438-440.) *)
Definition decimal_from_string (s : string) : option N :=
  match split_on "." s with
  | [w] =>
      n <-? parse_u128 w ;;
      if n * e18 <? u128_lim then Some (n * e18) else None
  | [w; f] =>
      n <-? parse_u128 w ;;
      if n * e18 <? u128_lim then
        m <-? parse_u128 f ;;
        if (String.length f <=? 18)%nat then
          let a := n * e18 + m * 10 ^ N.of_nat (18 - String.length f) in
          if a <? u128_lim then Some a else None
        else None
      else None
  | _ => None
  end.

Lemma zeros_len k : String.length (zeros k) = k.
Proof. induction k; cbn; auto. Qed.

Lemma pdec_acc_zeros k : forall a, pdec_acc a (zeros k) = Some (a * 10 ^ N.of_nat k).
Proof.
  induction k as [|k IH]; intro a; cbn [zeros pdec_acc].
  - f_equal. cbn. lia.
  - change (is_digit "0") with true. cbn iota. rewrite IH.
    f_equal. change (digit_val "0") with 0. rewrite Nat2N.inj_succ, N.pow_succ_r'. lia.
Qed.

Lemma trim0_spec s :
  s = trim0 s +++ zeros (String.length s - String.length (trim0 s)).
Proof.
  induction s as [|c s IH]; cbn [trim0]; [reflexivity|].
  destruct (sempty (trim0 s)) eqn:E; cbn [andb].
  - apply sempty_spec in E. rewrite E in *. cbn [String.append String.length] in *.
    destruct (Ascii.eqb_spec c "0") as [->|Hc].
    + cbn [String.append String.length]. rewrite Nat.sub_0_r in *. cbn [zeros].
      now rewrite <- IH.
    + cbn [String.append String.length].
      rewrite Nat.sub_0_r in IH.
      replace (S (String.length s) - 1)%nat with (String.length s) by lia.
      now rewrite <- IH.
  - cbn [String.append String.length].
    replace (S (String.length s) - S (String.length (trim0 s)))%nat
      with (String.length s - String.length (trim0 s))%nat by lia.
    now rewrite <- IH.
Qed.

Lemma trim0_len s : (String.length (trim0 s) <= String.length s)%nat.
Proof.
  induction s as [|c s IH]; cbn [trim0]; [lia|].
  destruct (sempty (trim0 s) && Ascii.eqb c "0"); cbn [String.length]; lia.
Qed.

Lemma trim0_all p s : all_chars p s = true -> all_chars p (trim0 s) = true.
Proof.
  intro H. rewrite (trim0_spec s), all_chars_app in H.
  now apply andb_true_iff in H as [H _].
Qed.

Lemma all_digits_zeros k : all_chars is_digit (zeros k) = true.
Proof. induction k; cbn; auto. Qed.

Lemma split_on_none sep s :
  all_chars (fun c => negb (Ascii.eqb c sep)) s = true -> split_on sep s = [s].
Proof.
  induction s as [|c s IH]; cbn; [reflexivity|].
  rewrite andb_true_iff. intros [H1 H2]. rewrite IH by exact H2.
  destruct (Ascii.eqb c sep); [discriminate|reflexivity].
Qed.

Lemma split_on_app sep s t :
  all_chars (fun c => negb (Ascii.eqb c sep)) s = true ->
  split_on sep (s +++ String sep t) = s :: split_on sep t.
Proof.
  induction s as [|c s IH]; cbn.
  - intros _. now rewrite Ascii.eqb_refl.
  - rewrite andb_true_iff. intros [H1 H2]. rewrite IH by exact H2.
    destruct (Ascii.eqb c sep); [discriminate|reflexivity].
Qed.

Lemma digits_no_dot s : all_chars is_digit s = true ->
  all_chars (fun c => negb (Ascii.eqb c ".")) s = true.
Proof.
  apply all_chars_impl. intros c Hc.
  destruct (Ascii.eqb_spec c ".") as [->|]; [discriminate Hc|reflexivity].
Qed.

(** Every [Decimal] is read back exactly from its text. *)
Lemma decimal_roundtrip a :
  a < u128_lim -> decimal_from_string (decimal_to_string a) = Some a.
Proof.
  intro Ha. unfold decimal_to_string, decimal_from_string.
  assert (Hw : a / e18 < u128_lim) by (unfold e18; lia).
  assert (Hb : a / e18 * e18 < u128_lim) by (unfold e18 in *; lia).
  destruct (N.eqb_spec (a mod e18) 0) as [H0|H0].
  - rewrite split_on_none by (apply digits_no_dot, dec_digits).
    unfold parse_u128. rewrite parse_uint_dec by exact Hw. cbn [obind].
    rewrite (proj2 (N.ltb_lt _ _) Hb). f_equal. unfold e18 in *; lia.
  - set (f := trim0 (pad0 18 (dec (a mod e18)))).
    assert (Hfd : all_chars is_digit f = true).
    { apply trim0_all. unfold pad0. rewrite all_chars_app, all_digits_zeros, dec_digits.
      reflexivity. }
    change ("." +++ f) with (String "." f).
    rewrite split_on_app by (apply digits_no_dot, dec_digits).
    rewrite split_on_none by (apply digits_no_dot, Hfd).
    assert (Hl18 : String.length (pad0 18 (dec (a mod e18))) = 18%nat).
    { unfold pad0. rewrite slen_app, zeros_len.
      assert (String.length (dec (a mod e18)) <= 18)%nat; [|lia].
      apply dec_len; [|lia]. change (10 ^ N.of_nat 18) with e18.
      apply N.mod_lt. discriminate. }
    assert (Hfl : (String.length f <= 18)%nat)
      by (pose proof (trim0_len (pad0 18 (dec (a mod e18)))); unfold f; lia).
    assert (Hval : exists m, pdec_acc 0 f = Some m /\
              m * 10 ^ N.of_nat (18 - String.length f) = a mod e18).
    { pose proof (trim0_spec (pad0 18 (dec (a mod e18)))) as Hs. fold f in Hs.
      assert (Hp : pdec_acc 0 (pad0 18 (dec (a mod e18))) = Some (a mod e18)).
      { unfold pad0. rewrite pdec_acc_app, pdec_acc_zeros. cbn [obind].
        rewrite N.mul_0_l.
        pose proof (pdec_dec (a mod e18)) as Hd. unfold pdec in Hd.
        destruct (dec (a mod e18)); [discriminate|exact Hd]. }
      rewrite Hs, pdec_acc_app, Hl18 in Hp.
      destruct (pdec_acc 0 f) as [m|] eqn:Em; [|discriminate Hp].
      cbn [obind] in Hp. rewrite pdec_acc_zeros in Hp.
      exists m. split; [reflexivity|]. congruence. }
    destruct Hval as (m & Hm & Hmv).
    assert (Hfne : pdec f = Some m).
    { unfold pdec. destruct f as [|c f']; [|exact Hm].
      cbn in Hm. inversion Hm; subst. cbn in Hmv. lia. }
    assert (Hmle : m < u128_lim).
    { pose proof (N.mod_lt a e18 ltac:(discriminate)) as Hlt.
      assert (0 < 10 ^ N.of_nat (18 - String.length f)) by (apply N.neq_0_lt_0, N.pow_nonzero; discriminate).
      assert (m <= m * 10 ^ N.of_nat (18 - String.length f)).
      { rewrite <- (N.mul_1_r m) at 1. apply N.mul_le_mono_l. lia. }
      unfold e18, u128_lim in *. lia. }
    unfold parse_u128.
    rewrite parse_uint_dec by exact Hw. cbn [obind].
    rewrite (proj2 (N.ltb_lt _ _) Hb).
    rewrite (pdec_parse_uint u128_lim m f Hfd Hfne Hmle). cbn [obind].
    rewrite (proj2 (Nat.leb_le _ _) Hfl). cbv zeta. rewrite Hmv.
    replace (a / e18 * e18 + a mod e18) with a by (unfold e18; lia).
    now rewrite (proj2 (N.ltb_lt _ _) Ha).
Qed.
