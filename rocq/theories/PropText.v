(** * PropText: the texts of the interface are read exactly as their grammars
    say (C67). *)

From Verif Require Import Base Text Utf8 Base64 Json TextSpec.
From Coq Require Import ZifyBool ZifyNat ZifyN.
Local Open Scope string_scope.
Local Open Scope list_scope.
Local Open Scope N_scope.
Ltac Zify.zify_post_hook ::= Z.div_mod_to_equations.

(** ** UTF-8 *)

Lemma encoded_is cp : encoded cp = utf8_enc cp.
Proof.
  unfold encoded, utf8_enc.
  change (2 ^ 6) with 64. change (2 ^ 12) with 4096. change (2 ^ 18) with 262144.
  destruct (N.leb_spec cp 0x7F), (N.ltb_spec cp 128); try lia; [reflexivity|].
  destruct (N.leb_spec cp 0x7FF), (N.ltb_spec cp 2048); try lia; [reflexivity|].
  destruct (N.leb_spec cp 0xFFFF), (N.ltb_spec cp 65536); try lia; reflexivity.
Qed.
Lemma scalar_is cp : scalar cp <-> is_scalar cp = true.
Proof. unfold scalar, is_scalar, between. lia. Qed.

Lemma utf8_text_cps s cps : utf8_text s cps -> utf8_cps s = Some cps.
Proof.
  intros [F ->]. induction F as [|cp l Hc Hl IH]; [reflexivity|]. cbn [concat_map fold_right].
  fold (concat_map encoded l). rewrite encoded_is.
  rewrite (utf8_cps_app _ _ [cp]) by (apply utf8_enc_cps; now apply scalar_is). rewrite IH. reflexivity.
Qed.
Ltac enc_bytes := rewrite encoded_is; unfold utf8_enc;
  repeat match goal with |- context [?a <? ?b] => destruct (N.ltb_spec a b); [try lia|try lia] end;
  unfold b1; cbn [String.append];
  repeat match goal with |- String (nb ?n) _ = String ?a _ =>
    replace n with (bn a) by lia; rewrite (nb_bn a); f_equal end; try reflexivity.
Lemma cps_utf8_text n : forall s cps, (String.length s <= n)%nat -> utf8_cps s = Some cps -> utf8_text s cps.
Proof.
  induction n as [|n IH]; intros s cps Hn H.
  { destruct s; [|cbn in Hn; lia]. injection H as <-. split; [constructor|reflexivity]. }
  destruct s as [|a r]; [injection H as <-; split; [constructor|reflexivity]|]. cbn [String.length] in Hn.
  assert (G : forall cp p t l, scalar cp -> encoded cp = p -> (String.length t <= n)%nat ->
    utf8_cps t = Some l -> String a r = p +++ t -> utf8_text (String a r) (cp :: l)).
  { intros cp p t l Hs He Ht Hl Ea. destruct (IH t l Ht Hl) as [F E]. split; [now constructor|].
    rewrite Ea, E, <- He. reflexivity. }
  pose proof (bn_lt a) as Ba. cbn [utf8_cps] in H. unfold between, cont in H.
  destruct (N.ltb_spec (bn a) 128) as [L|L].
  { destruct (utf8_cps r) as [l|] eqn:E; [|discriminate]. injection H as <-.
    apply (G (bn a) (String a "") r l); [unfold scalar; lia| |lia|exact E|reflexivity]. enc_bytes. }
  destruct ((194 <=? bn a) && (bn a <=? 223)) eqn:L2.
  { destruct r as [|b r1]; [discriminate|]. unfold cont, between in H. cbn [String.length] in Hn.
    pose proof (bn_lt b). destruct ((128 <=? bn b) && (bn b <=? 191)) eqn:Lb; [|discriminate].
    destruct (utf8_cps r1) as [l|] eqn:E; [|discriminate]. injection H as <-.
    apply (G _ (String a (String b "")) r1 l); [unfold scalar; lia| |lia|exact E|reflexivity]. enc_bytes. }
  destruct ((224 <=? bn a) && (bn a <=? 239)) eqn:L3.
  { destruct r as [|b [|c r1]]; try discriminate. unfold cont, between in H. cbn [String.length] in Hn.
    pose proof (bn_lt b). pose proof (bn_lt c).
    match type of H with (if ?g then _ else _) = _ => destruct g eqn:Lb; [|discriminate] end.
    destruct (utf8_cps r1) as [l|] eqn:E; [|discriminate]. injection H as <-.
    destruct (N.eqb_spec (bn a) 224), (N.eqb_spec (bn a) 237); try lia;
    (apply (G _ (String a (String b (String c ""))) r1 l); [unfold scalar; lia| |lia|exact E|reflexivity]; enc_bytes). }
  destruct ((240 <=? bn a) && (bn a <=? 244)) eqn:L4; [|discriminate].
  destruct r as [|b [|c [|d r1]]]; try discriminate. unfold cont, between in H. cbn [String.length] in Hn.
  pose proof (bn_lt b). pose proof (bn_lt c). pose proof (bn_lt d).
  match type of H with (if ?g then _ else _) = _ => destruct g eqn:Lb; [|discriminate] end.
  destruct (utf8_cps r1) as [l|] eqn:E; [|discriminate]. injection H as <-.
  destruct (N.eqb_spec (bn a) 240), (N.eqb_spec (bn a) 244); try lia;
  (apply (G _ (String a (String b (String c (String d "")))) r1 l); [unfold scalar; lia| |lia|exact E|reflexivity]; enc_bytes).
Qed.

Theorem C67_utf8 : forall s cps, utf8_cps s = Some cps <-> utf8_text s cps.
Proof. intros s cps. split; [apply (cps_utf8_text (String.length s)); apply le_n|apply utf8_text_cps]. Qed.
Corollary utf8_valid_text s : utf8_valid s = true <-> exists cps, utf8_text s cps.
Proof.
  unfold utf8_valid. split.
  - destruct (utf8_cps s) as [l|] eqn:E; [|discriminate]. intros _. exists l. now apply C67_utf8.
  - intros [l H]. apply C67_utf8 in H. now rewrite H.
Qed.

(** ** Decimal numbers *)

Notation stepd := (fun a d : N => 10 * a + d).
Lemma digit_byte d : d < 10 -> is_digit (nb (48 + d)) = true /\ digit_val (nb (48 + d)) = d.
Proof. intro H. split; [now apply (is_digit_digit d)|now apply (digit_val_digit d)]. Qed.
Lemma digits_text_cons d ds : digits_text (d :: ds) = String (nb (48 + d)) (digits_text ds).
Proof. reflexivity. Qed.
Lemma digits_pdec ds : digits ds -> forall a, pdec_acc a (digits_text ds) = Some (fold_left stepd ds a).
Proof.
  induction 1 as [|d l Hd Hl IH]; intro a; [reflexivity|]. rewrite digits_text_cons.
  cbn [pdec_acc fold_left]. destruct (digit_byte d Hd) as [-> ->]. rewrite IH. do 2 f_equal. lia.
Qed.
Lemma pdec_digits s : forall a n, pdec_acc a s = Some n ->
  exists ds, digits ds /\ s = digits_text ds /\ n = fold_left stepd ds a.
Proof.
  induction s as [|c s IH]; intros a n H; cbn [pdec_acc] in H.
  { injection H as <-. exists []. repeat split. constructor. }
  destruct (is_digit c) eqn:D; [|discriminate]. destruct (IH _ _ H) as (ds & F & -> & ->).
  unfold is_digit in D. exists (digit_val c :: ds). split; [constructor; [unfold digit_val; lia|exact F]|].
  rewrite digits_text_cons. split.
  - f_equal. rewrite <- (nb_bn c) at 1. f_equal. unfold digit_val. lia.
  - cbn [fold_left]. f_equal. lia.
Qed.
Lemma number_pdec s n : number_text s n <-> pdec s = Some n.
Proof.
  split.
  - intros (ds & Hn & Hd & -> & ->). destruct ds as [|d ds]; [congruence|]. unfold pdec.
    rewrite digits_text_cons, <- digits_text_cons. now apply digits_pdec.
  - intro H. destruct s as [|c s]; [discriminate|]. destruct (pdec_digits _ _ _ H) as (ds & F & E & V).
    exists ds. repeat split; auto. intros ->. discriminate.
Qed.
Lemma number_head s n c r : number_text s n -> s = String c r -> is_digit c = true.
Proof.
  intros (ds & Hn & Hd & -> & _) E. destruct ds as [|d ds]; [congruence|]. rewrite digits_text_cons in E.
  injection E as <- _. inversion Hd; subst. now apply digit_byte.
Qed.
Definition unplus (s : string) : string := match s with String "+" r => r | _ => s end.
Lemma unplus_cases s : (unplus s = s /\ forall r, s <> String "+" r) \/ (s = "+" +++ unplus s).
Proof.
  destruct s as [|c s]; [left; split; [reflexivity|discriminate]|].
  destruct (ascii_dec c "+") as [->|Hne]; [right; reflexivity|].
  left. split; [|intros r E; injection E; congruence].
  destruct c as [[] [] [] [] [] [] [] []]; try reflexivity. congruence.
Qed.

Theorem C67_integers : forall lim s n, parse_uint lim s = Some n <-> uint_text lim s n.
Proof.
  intros lim s n. unfold parse_uint. fold (unplus s). split.
  - intro H. destruct (pdec (unplus s)) as [m|] eqn:E; [|discriminate]. cbn [obind] in H.
    destruct (N.ltb_spec m lim); [|discriminate]. injection H as <-. split; [assumption|].
    exists (unplus s). split; [|now apply number_pdec]. destruct (unplus_cases s) as [[-> _]|H]; auto.
  - intros (L & t & Ht & H). assert (unplus s = t) as ->.
    { destruct Ht as [-> | ->]; [|reflexivity]. destruct (unplus_cases t) as [[-> _]|E]; [reflexivity|].
      cbn [String.append] in E. apply (number_head _ _ _ _ H) in E. discriminate. }
    apply number_pdec in H. rewrite H. cbn [obind]. now rewrite (proj2 (N.ltb_lt _ _) L).
Qed.

Lemma uint_no_dot lim s n : uint_text lim s n -> all_chars (fun c => negb (Ascii.eqb c ".")) s = true.
Proof.
  intros (_ & t & Ht & ds & _ & Hd & -> & _).
  assert (G : all_chars (fun c => negb (Ascii.eqb c ".")) (digits_text ds) = true).
  { apply digits_no_dot. clear Ht. induction Hd as [|d l H Hl IH]; [reflexivity|]. rewrite digits_text_cons.
    cbn [all_chars]. destruct (digit_byte d H) as [-> _]. exact IH. }
  destruct Ht as [-> | ->]; [exact G|cbn [String.append all_chars]; now rewrite G].
Qed.
Lemma split_on_cons sep s : split_on sep s <> [].
Proof. destruct s as [|c s]; cbn [split_on]; [discriminate|]. destruct (Ascii.eqb c sep); [discriminate|]. now destruct (split_on sep s). Qed.
Lemma split_on_join sep s : match split_on sep s with
  | [w] => s = w | [w; f] => s = w +++ String sep f | _ => True end.
Proof.
  induction s as [|c s IH]; [reflexivity|]. cbn [split_on]. pose proof (split_on_cons sep s).
  destruct (Ascii.eqb_spec c sep) as [->|Hn]; destruct (split_on sep s) as [|w [|f [|g l]]]; auto;
  try congruence; rewrite IH; reflexivity.
Qed.

Theorem C67_decimals : forall s n, decimal_from_string s = Some n <-> decimal_text s n.
Proof.
  intros s n. unfold decimal_from_string, decimal_text. change (10 ^ 18) with e18. change (2 ^ 128) with u128_lim.
  unfold slen. split.
  - intro H. pose proof (split_on_join "." s) as J. destruct (split_on "." s) as [|w [|f [|g l]]]; try discriminate.
    + subst w. destruct (parse_u128 s) as [w|] eqn:E; [|discriminate]. cbn [obind] in H.
      destruct (N.ltb_spec (w * e18) u128_lim); [|discriminate]. injection H as <-. split; [assumption|].
      left. exists w. split; [now apply C67_integers|reflexivity].
    + destruct (parse_u128 w) as [x|] eqn:E; [|discriminate]. cbn [obind] in H.
      destruct (N.ltb_spec (x * e18) u128_lim); [|discriminate].
      destruct (parse_u128 f) as [y|] eqn:F; [|discriminate]. cbn [obind] in H.
      destruct (Nat.leb_spec (String.length f) 18); [|discriminate]. cbv zeta in H.
      destruct (N.ltb_spec (x * e18 + y * 10 ^ N.of_nat (18 - String.length f)) u128_lim); [|discriminate].
      assert (En : n = x * e18 + y * 10 ^ N.of_nat (18 - String.length f)) by congruence. rewrite En.
      split; [assumption|]. right. exists w, f, x, y.
      split; [exact J|]. split; [now apply C67_integers|]. split; [now apply C67_integers|].
      split; [lia|]. replace (N.of_nat (18 - String.length f)) with (18 - N.of_nat (String.length f)) by lia. reflexivity.
  - intros (L & [(w & Hw & ->)|(a & b & w & f & -> & Ha & Hb & Hl & ->)]).
    + rewrite split_on_none by (eapply uint_no_dot; exact Hw). apply C67_integers in Hw. unfold parse_u128.
      rewrite Hw. cbn [obind]. now rewrite (proj2 (N.ltb_lt _ _) L).
    + cbn [String.append]. rewrite split_on_app by (eapply uint_no_dot; exact Ha).
      rewrite split_on_none by (eapply uint_no_dot; exact Hb). apply C67_integers in Ha, Hb. unfold parse_u128.
      rewrite Ha, Hb. cbn [obind]. rewrite (proj2 (N.ltb_lt (w * e18) u128_lim)) by lia.
      replace (Nat.leb (String.length b) 18) with true by lia. cbv zeta.
      replace (N.of_nat (18 - String.length b)) with (18 - N.of_nat (String.length b)) by lia.
      now rewrite (proj2 (N.ltb_lt _ _) L).
Qed.

(** ** Base64 *)

Lemma bits_low k : forall n m, (forall i, i < N.of_nat k -> N.testbit n i = N.testbit m i) -> bits k n = bits k m.
Proof.
  induction k as [|k IH]; intros n m H; [reflexivity|]. cbn [bits]. f_equal; [apply H; lia|].
  apply IH. intros i Hi. apply H. lia.
Qed.
Lemma bits_join j k hi lo : lo < 2 ^ N.of_nat k -> bits (j + k) (hi * 2 ^ N.of_nat k + lo) = bits j hi ++ bits k lo.
Proof.
  intro L. assert (M : (hi * 2 ^ N.of_nat k + lo) mod 2 ^ N.of_nat k = lo).
  { rewrite N.add_comm, N.mod_add by (apply N.pow_nonzero; discriminate). now apply N.mod_small. }
  assert (D : (hi * 2 ^ N.of_nat k + lo) / 2 ^ N.of_nat k = hi).
  { rewrite N.add_comm, N.div_add by (apply N.pow_nonzero; discriminate). rewrite N.div_small by exact L. lia. }
  induction j as [|j IH].
  - cbn [Nat.add bits app]. apply bits_low. intros i Hi. rewrite <- M at 2. now rewrite N.mod_pow2_bits_low.
  - cbn [Nat.add bits app]. rewrite IH. f_equal. rewrite <- D at 2.
    rewrite N.div_pow2_bits. f_equal. lia.
Qed.
Lemma bits_length k : forall n, List.length (bits k n) = k.
Proof. induction k as [|k IH]; intro n; cbn [bits List.length]; [reflexivity|]. now rewrite IH. Qed.
Lemma bits_inj k n m : n < 2 ^ N.of_nat k -> m < 2 ^ N.of_nat k -> bits k n = bits k m -> n = m.
Proof.
  intros Hn Hm H. apply N.bits_inj. intro i.
  assert (G : forall k, bits k n = bits k m -> forall i, i < N.of_nat k -> N.testbit n i = N.testbit m i).
  { clear. induction k as [|k IH]; intros H i Hi; [lia|]. cbn [bits] in H. injection H as H1 H2.
    destruct (N.eq_dec i (N.of_nat k)) as [->|]; [exact H1|]. apply IH; [exact H2|lia]. }
  destruct (N.ltb_spec i (N.of_nat k)) as [L|L]; [now apply (G k)|].
  rewrite <- (N.mod_small n (2 ^ N.of_nat k)) by exact Hn. rewrite <- (N.mod_small m (2 ^ N.of_nat k)) by exact Hm.
  now rewrite !N.mod_pow2_bits_high.
Qed.

Definition symbol (n : N) (c : ascii) : Prop := String.get (N.to_nat n) alphabet = Some c.
Lemma symbol_val n c : symbol n c -> n < 64 /\ b64_val c = Some n.
Proof.
  unfold symbol. intro H. assert (L : n < 64).
  { destruct (N.ltb_spec n 64) as [L|L]; [exact L|exfalso].
    assert (G : forall s k, String.get k s <> None -> (k < String.length s)%nat).
    { clear. induction s as [|c s IH]; intros k Hk; [now destruct k|]. destruct k; cbn in *; [lia|].
      apply IH in Hk. lia. }
    assert (K : (N.to_nat n < String.length alphabet)%nat) by (apply G; congruence).
    change (String.length alphabet) with 64%nat in K. lia. }
  split; [exact L|]. assert (E : exists k, (k < 64)%nat /\ n = N.of_nat k) by (exists (N.to_nat n); lia).
  destruct E as (k & Hk & ->). rewrite Nat2N.id in H.
  do 64 (destruct k as [|k]; [injection H as <-; reflexivity|]). lia.
Qed.
Lemma val_symbol n c : b64_val c = Some n -> symbol n c.
Proof.
  intro H. destruct c as [[] [] [] [] [] [] [] []]; try discriminate H; injection H as <-; reflexivity.
Qed.
Lemma symbol_noteq n c : symbol n c -> Ascii.eqb c "=" = false.
Proof.
  intro H. apply symbol_val in H as [_ H]. destruct (Ascii.eqb_spec c "=") as [->|]; [discriminate H|reflexivity].
Qed.

Lemma bits12 x y : y < 64 -> bits 6 x ++ bits 6 y = bits 12 (x * 64 + y).
Proof. intro H. symmetry. now apply (bits_join 6 6). Qed.
Lemma bits18 x y z : y < 64 -> z < 64 -> bits 6 x ++ bits 6 y ++ bits 6 z = bits 18 ((x * 64 + y) * 64 + z).
Proof. intros H K. rewrite app_assoc, bits12 by exact H. symmetry. now apply (bits_join 12 6). Qed.
Lemma bits24 x y z w : y < 64 -> z < 64 -> w < 64 ->
  bits 6 x ++ bits 6 y ++ bits 6 z ++ bits 6 w = bits 24 (((x * 64 + y) * 64 + z) * 64 + w).
Proof.
  intros H K L. transitivity ((bits 6 x ++ bits 6 y ++ bits 6 z) ++ bits 6 w); [now rewrite <- !app_assoc|].
  rewrite bits18 by assumption.
  symmetry. now apply (bits_join 18 6).
Qed.
Lemma bits16b a b : b < 256 -> bits 8 a ++ bits 8 b = bits 16 (a * 256 + b).
Proof. intro H. symmetry. now apply (bits_join 8 8). Qed.
Lemma bits24b a b c : b < 256 -> c < 256 -> bits 8 a ++ bits 8 b ++ bits 8 c = bits 24 ((a * 256 + b) * 256 + c).
Proof. intros H K. rewrite app_assoc, bits16b by exact H. symmetry. now apply (bits_join 16 8). Qed.
Lemma bits_zero k : bits k 0 = repeat false k.
Proof. induction k as [|k IH]; [reflexivity|]. cbn [bits repeat]. now rewrite IH, N.bits_0. Qed.
Lemma bits12b a : bits 8 a ++ repeat false 4 = bits 12 (a * 16).
Proof. rewrite <- bits_zero. rewrite <- (N.add_0_r (a * 16)). symmetry. now apply (bits_join 8 4). Qed.
Lemma bits18b a b : b < 256 -> bits 8 a ++ bits 8 b ++ repeat false 2 = bits 18 ((a * 256 + b) * 4).
Proof.
  intro H. rewrite app_assoc, bits16b by exact H. rewrite <- bits_zero, <- (N.add_0_r (_ * 4)). symmetry.
  now apply (bits_join 16 2).
Qed.

Lemma bytes_bits_cons a s : bytes_bits (String a s) = bits 8 (bn a) ++ bytes_bits s.
Proof. reflexivity. Qed.
Lemma bytes_bits_length s : List.length (bytes_bits s) = (8 * String.length s)%nat.
Proof.
  induction s as [|a s IH]; [reflexivity|]. rewrite bytes_bits_cons, app_length, bits_length, IH.
  cbn [String.length]. lia.
Qed.
Lemma symbols_bits_length l : List.length (symbols_bits l) = (6 * List.length l)%nat.
Proof.
  induction l as [|a s IH]; [reflexivity|]. cbn [symbols_bits flat_map]. fold (symbols_bits s).
  rewrite app_length, bits_length, IH. cbn [List.length]. lia.
Qed.
Lemma app_eq_len {A} (a b c d : list A) : List.length a = List.length b -> a ++ c = b ++ d -> a = b /\ c = d.
Proof.
  revert b. induction a as [|x a IH]; intros [|y b] L H; try discriminate L; [now split|].
  cbn in *. injection H as -> H. injection L as L. destruct (IH b L H) as [-> ->]. now split.
Qed.

Lemma b64_dec4 a b c d r : Ascii.eqb c "=" = false -> Ascii.eqb d "=" = false ->
  b64_dec (String a (String b (String c (String d r)))) =
  (h <-? b64_quad a b c d ;; t <-? b64_dec r ;; Some (h +++ t)).
Proof.
  intros Hc Hd. cbn [b64_dec]. destruct r as [|e r]; [|reflexivity]. cbn [sempty b64_dec]. rewrite Hc, Hd.
  destruct (b64_quad a b c d); cbn [obind]; [now rewrite sapp_nil_r|reflexivity].
Qed.

Ltac quad_bytes := repeat match goal with |- String (nb ?n) _ = String ?a _ =>
    replace n with (bn a) by lia; rewrite (nb_bn a); f_equal end; try reflexivity.

Lemma padding_S k : padding (S k) = String "=" (padding k).
Proof. reflexivity. Qed.

Lemma base64_text_dec : forall l t z k s data, symbols_text l t -> symbols_bits l = bytes_bits data ++ repeat false z ->
  (z < 6)%nat -> s = t +++ padding k -> (List.length l + k <= 4 * ((List.length l + 3) / 4))%nat ->
  b64_dec s = Some data.
Proof.
  assert (G : forall n l, (List.length l <= n)%nat -> forall t z k s data, symbols_text l t ->
    symbols_bits l = bytes_bits data ++ repeat false z ->
    (z < 6)%nat -> s = t +++ padding k -> (List.length l + k <= 4 * ((List.length l + 3) / 4))%nat ->
    b64_dec s = Some data).
  2: { intros l. now apply (G (List.length l)). }
  induction n as [|n IH]; intros l Hn t z k s data Ht Hb Hz -> Hk.
  all: pose proof (f_equal (@List.length bool) Hb) as Len;
    rewrite app_length, symbols_bits_length, bytes_bits_length, repeat_length in Len.
  all: assert (Z : l = [] -> b64_dec (t +++ padding k) = Some data) by
   (intros ->; destruct t; [|inversion Ht]; destruct k; [|cbn in Hk; lia];
    destruct data; [reflexivity|cbn [String.length List.length] in Len; lia]).
  { apply Z. destruct l; [reflexivity|cbn in Hn; lia]. }
  unfold symbols_text in Ht.
  destruct l as [|x [|y [|u [|v l]]]]; [now apply Z| | | |]; clear Z; cbn [List.length] in *.
  - destruct data as [|a data]; cbn [String.length] in Len; lia.
  - destruct t as [|c1 [|c2 [|? ?]]]; cbn [list_ascii_of_string] in Ht;
      repeat match goal with H : Forall2 _ _ _ |- _ => inversion H; clear H; subst end.
    repeat match goal with H : String.get _ _ = Some _ |- _ => apply symbol_val in H as [? ?] end.
    destruct data as [|a [|b data]]; cbn [String.length] in Len; try lia.
    assert (z = 4)%nat as -> by lia. cbn [symbols_bits flat_map] in Hb. rewrite !bytes_bits_cons, !app_nil_r in Hb.
    change (bytes_bits "") with (@nil bool) in Hb. rewrite ?app_nil_r, bits12, bits12b in Hb by assumption.
    pose proof (bn_lt a).
    apply bits_inj in Hb; [|change (2 ^ N.of_nat 12) with 4096; lia|change (2 ^ N.of_nat 12) with 4096; lia].
    assert (V : b64_last2 c1 c2 = Some (String a "")).
    { unfold b64_last2. rewrite H0, H2. cbn [obind]. replace (y mod 16 =? 0) with true by lia. f_equal. unfold b1. quad_bytes. }
    change (4 * ((2 + 3) / 4))%nat with 4%nat in Hk. destruct k as [|[|[|k]]]; [exact V|exact V|exact V|lia].
  - destruct t as [|c1 [|c2 [|c3 [|? ?]]]]; cbn [list_ascii_of_string] in Ht;
      repeat match goal with H : Forall2 _ _ _ |- _ => inversion H; clear H; subst end.
    match goal with H : String.get _ _ = Some c3 |- _ => pose proof (symbol_noteq _ _ H) as Q3 end.
    repeat match goal with H : String.get _ _ = Some _ |- _ => apply symbol_val in H as [? ?] end.
    destruct data as [|a [|b [|c data]]]; cbn [String.length] in Len; try lia.
    assert (z = 2)%nat as -> by lia. cbn [symbols_bits flat_map] in Hb. rewrite !bytes_bits_cons, !app_nil_r in Hb.
    change (bytes_bits "") with (@nil bool) in Hb. pose proof (bn_lt a). pose proof (bn_lt b).
    rewrite ?app_nil_r, <- ?app_assoc, bits18, bits18b in Hb by assumption.
    apply bits_inj in Hb; [|change (2 ^ N.of_nat 18) with 262144; lia|change (2 ^ N.of_nat 18) with 262144; lia].
    assert (V : b64_last3 c1 c2 c3 = Some (String a (String b ""))).
    { unfold b64_last3. repeat match goal with H : b64_val _ = Some _ |- _ => rewrite H; clear H end. cbn [obind].
      replace (u mod 4 =? 0) with true by lia. f_equal. unfold b1. quad_bytes. }
    change (4 * ((3 + 3) / 4))%nat with 4%nat in Hk.
    destruct k as [|[|k]]; [| |lia]; cbn [String.append padding concat_map repeat fold_right b64_dec sempty];
      rewrite Q3; exact V.
  - destruct t as [|c1 [|c2 [|c3 [|c4 t]]]]; cbn [list_ascii_of_string] in Ht;
      repeat match goal with H : Forall2 _ (_ :: _) _ |- _ => inversion H; clear H; subst end.
    match goal with H : String.get _ _ = Some c3 |- _ => pose proof (symbol_noteq _ _ H) as Q3 end.
    match goal with H : String.get _ _ = Some c4 |- _ => pose proof (symbol_noteq _ _ H) as Q4 end.
    repeat match goal with H : String.get _ _ = Some _ |- _ => apply symbol_val in H as [? ?] end.
    destruct data as [|a [|b [|c data]]]; cbn [String.length] in Len; try lia.
    cbn [symbols_bits flat_map] in Hb. fold (symbols_bits l) in Hb. rewrite !bytes_bits_cons in Hb.
    rewrite (app_assoc (bits 6 u)), (app_assoc (bits 6 y)), (app_assoc (bits 6 x)) in Hb.
    rewrite bits24 in Hb by assumption. rewrite <- !app_assoc in Hb.
    rewrite (app_assoc (bits 8 (bn b))), (app_assoc (bits 8 (bn a))) in Hb.
    pose proof (bn_lt a). pose proof (bn_lt b). pose proof (bn_lt c).
    rewrite bits24b in Hb by assumption. apply app_eq_len in Hb as [Hq Hb]; [|now rewrite !bits_length].
    apply bits_inj in Hq; [|change (2 ^ N.of_nat 24) with 16777216; lia|change (2 ^ N.of_nat 24) with 16777216; lia].
    cbn [String.append]. rewrite b64_dec4 by assumption.
    assert (V : b64_quad c1 c2 c3 c4 = Some (String a (String b (String c "")))).
    { unfold b64_quad. repeat match goal with H : b64_val _ = Some _ |- _ => rewrite H; clear H end. cbn [obind].
      f_equal. unfold b1. quad_bytes. }
    rewrite V. cbn [obind]. erewrite (IH l) with (data := data); [reflexivity|lia|eassumption|exact Hb|exact Hz|reflexivity|lia].
Qed.

Ltac vals H := repeat match type of H with context [b64_val ?c] =>
    let V := fresh "V" in destruct (b64_val c) eqn:V; cbn [obind] in H; [apply val_symbol in V|discriminate H] end;
  repeat match goal with V : symbol ?n ?c |- _ =>
    lazymatch goal with _ : n < 64 |- _ => fail | _ => pose proof (proj1 (symbol_val _ _ V)) end end.
Lemma last2_text c1 c2 data k : (k <= 2)%nat -> b64_last2 c1 c2 = Some data ->
  base64_text (String c1 (String c2 (padding k))) data.
Proof.
  intros Hk H. unfold b64_last2 in H. vals H. rename n into x, n0 into y.
  destruct (N.eqb_spec (y mod 16) 0) as [E|]; [|discriminate]. injection H as <-.
  exists [x; y], (String c1 (String c2 "")), 4%nat, k. split; [now repeat constructor|]. split.
  { cbn [symbols_bits flat_map]. unfold b1. rewrite bytes_bits_cons. change (bytes_bits "") with (@nil bool).
    rewrite !app_nil_r, bits12, bits12b, bn_nb by lia. f_equal. lia. }
  split; [lia|]. split; [reflexivity|]. cbn [List.length]. change (4 * ((2 + 3) / 4))%nat with 4%nat. lia.
Qed.
Lemma last3_text c1 c2 c3 data k : (k <= 1)%nat -> b64_last3 c1 c2 c3 = Some data ->
  base64_text (String c1 (String c2 (String c3 (padding k)))) data.
Proof.
  intros Hk H. unfold b64_last3 in H. vals H. rename n into x, n0 into y, n1 into z.
  destruct (N.eqb_spec (z mod 4) 0) as [E|]; [|discriminate]. injection H as <-.
  exists [x; y; z], (String c1 (String c2 (String c3 ""))), 2%nat, k. split; [now repeat constructor|]. split.
  { cbn [symbols_bits flat_map]. unfold b1. rewrite !bytes_bits_cons. change (bytes_bits "") with (@nil bool).
    rewrite ?app_nil_r, <- ?app_assoc, bits18, !bn_nb, bits18b by lia. f_equal. lia. }
  split; [lia|]. split; [reflexivity|]. cbn [List.length]. change (4 * ((3 + 3) / 4))%nat with 4%nat. lia.
Qed.
Lemma quad_text c1 c2 c3 c4 h r data : b64_quad c1 c2 c3 c4 = Some h -> base64_text r data ->
  base64_text (String c1 (String c2 (String c3 (String c4 r)))) (h +++ data).
Proof.
  intros H (l & t & q & k & Ht & Hb & Hq & -> & Hk). unfold b64_quad in H. vals H.
  rename n into x, n0 into y, n1 into z, n2 into w. injection H as <-.
  exists (x :: y :: z :: w :: l), (String c1 (String c2 (String c3 (String c4 t)))), q, k.
  split; [now repeat constructor|]. split.
  { cbn [symbols_bits flat_map]. fold (symbols_bits l). rewrite Hb. unfold b1. cbn [String.append].
    rewrite !bytes_bits_cons.
    transitivity ((bits 6 x ++ bits 6 y ++ bits 6 z ++ bits 6 w) ++ bytes_bits data ++ repeat false q);
      [now rewrite <- !app_assoc|]. rewrite bits24, !bn_nb by lia.
    rewrite <- !app_assoc.
    match goal with |- _ = ?a ++ ?b ++ ?c ++ ?d => transitivity ((a ++ b ++ c) ++ d); [|now rewrite <- !app_assoc] end.
    rewrite bits24b by lia. do 2 f_equal. lia. }
  split; [exact Hq|]. split; [reflexivity|]. cbn [List.length]. lia.
Qed.
Lemma dec_base64_text n : forall s data, (String.length s <= n)%nat -> b64_dec s = Some data -> base64_text s data.
Proof.
  assert (Z : base64_text "" "").
  { exists [], "", 0%nat, 0%nat. split; [constructor|]. split; [reflexivity|]. split; [lia|]. split; [reflexivity|]. cbn. lia. }
  induction n as [|n IH]; intros s data Hn H.
  { destruct s; [|cbn in Hn; lia]. injection H as <-. exact Z. }
  destruct s as [|c1 [|c2 [|c3 [|c4 r]]]]; cbn [String.length] in Hn.
  - injection H as <-. exact Z.
  - discriminate.
  - now apply (last2_text c1 c2 data 0); [lia|].
  - cbn [b64_dec] in H. destruct (Ascii.eqb_spec c3 "=") as [->|].
    + now apply (last2_text c1 c2 data 1); [lia|].
    + now apply (last3_text c1 c2 c3 data 0); [lia|].
  - destruct (Ascii.eqb_spec c3 "=") as [->|N3]; [|destruct (Ascii.eqb_spec c4 "=") as [->|N4]].
    + cbn [b64_dec] in H. destruct r as [|e r]; cbn [sempty] in H.
      * cbn [Ascii.eqb Bool.eqb andb] in H. destruct (Ascii.eqb_spec c4 "=") as [->|]; [|discriminate].
        now apply (last2_text c1 c2 data 2); [lia|].
      * exfalso. unfold b64_quad in H. destruct (b64_val c1), (b64_val c2); discriminate H.
    + cbn [b64_dec] in H. destruct r as [|e r]; cbn [sempty] in H.
      * destruct (Ascii.eqb_spec c3 "=") as [->|]; [congruence|]. cbn [Ascii.eqb Bool.eqb andb] in H.
        now apply (last3_text c1 c2 c3 data 1); [lia|].
      * exfalso. unfold b64_quad in H. destruct (b64_val c1), (b64_val c2), (b64_val c3); discriminate H.
    + rewrite b64_dec4 in H by (now apply Ascii.eqb_neq).
      destruct (b64_quad c1 c2 c3 c4) as [h|] eqn:Q; [|discriminate]. cbn [obind] in H.
      destruct (b64_dec r) as [t|] eqn:R; [|discriminate]. cbn [obind] in H. injection H as <-.
      apply quad_text; [exact Q|]. apply IH; [lia|exact R].
Qed.

Theorem C67_base64 : forall s data, b64_dec s = Some data <-> base64_text s data.
Proof.
  intros s data. split; [now apply (dec_base64_text (String.length s))|].
  intros (l & t & z & k & Ht & Hb & Hz & Hs & Hk). eapply base64_text_dec; eassumption.
Qed.

(** ** JSON strings *)

Lemma hex_sound c n : hex_val c = Some n -> hex c n.
Proof.
  intro H. destruct c as [[] [] [] [] [] [] [] []]; try discriminate H; injection H as <-;
  first [left; reflexivity|right; reflexivity].
Qed.
Lemma hex_complete c n : hex c n -> hex_val c = Some n /\ n < 16.
Proof.
  intros H. assert (L : n < 16).
  { destruct (N.ltb_spec n 16) as [L|L]; [exact L|exfalso].
    assert (G : forall s k, String.get k s <> None -> (k < String.length s)%nat).
    { clear. induction s as [|c s IH]; intros k Hk; [now destruct k|]. destruct k; cbn in *; [lia|].
      apply IH in Hk. lia. }
    destruct H as [H|H]; (assert (K : String.get (N.to_nat n) _ <> None) by (rewrite H; discriminate));
    apply G in K; cbn [String.length] in K; lia. }
  split; [|exact L]. assert (E : exists k, (k < 16)%nat /\ n = N.of_nat k) by (exists (N.to_nat n); lia).
  destruct E as (k & Hk & ->). unfold hex in H. rewrite Nat2N.id in H.
  do 16 (destruct k as [|k]; [destruct H as [H|H]; injection H as <-; reflexivity|]). lia.
Qed.
Definition unit4 (a b c d : ascii) : string := String (nb 92) (String "u" (String a (String b (String c (String d ""))))).
Lemma hex4_sound a b c d u : hex4 a b c d = Some u -> unit_escape (unit4 a b c d) u /\ u < 65536.
Proof.
  unfold hex4. intro H.
  destruct (hex_val a) as [x|] eqn:A; [|discriminate H]. destruct (hex_val b) as [y|] eqn:B; [|discriminate H].
  destruct (hex_val c) as [z|] eqn:C; [|discriminate H]. destruct (hex_val d) as [w|] eqn:D; [|discriminate H].
  cbn [obind] in H. injection H as <-. apply hex_sound in A, B, C, D.
  pose proof (proj2 (hex_complete _ _ A)). pose proof (proj2 (hex_complete _ _ B)).
  pose proof (proj2 (hex_complete _ _ C)). pose proof (proj2 (hex_complete _ _ D)). split; [|lia].
  exists a, b, c, d, x, y, z, w. change (16 ^ 3) with 4096. change (16 ^ 2) with 256.
  split; [reflexivity|]. now repeat split.
Qed.
Lemma hex4_complete s u : unit_escape s u -> u < 65536 /\ exists a b c d, s = unit4 a b c d /\ hex4 a b c d = Some u.
Proof.
  intros (a & b & c & d & x & y & z & w & -> & A & B & C & D & ->).
  apply hex_complete in A as [A LA], B as [B LB], C as [C LC], D as [D LD].
  change (16 ^ 3) with 4096. change (16 ^ 2) with 256. split; [lia|].
  exists a, b, c, d. split; [reflexivity|]. unfold hex4. now rewrite A, B, C, D.
Qed.
Lemma escape_sound e t : simple_escape e = Some t -> exists v, In (bn e, v) escapes /\ t = byte v.
Proof.
  unfold simple_escape. intro H.
  repeat match type of H with (if ?a =? ?b then _ else _) = _ => destruct (N.eqb_spec a b) as [->|];
    [injection H as <-; eexists; split; [|reflexivity]; cbn; tauto|] end. discriminate H.
Qed.
Lemma escape_complete e v : In (e, v) escapes -> simple_escape (nb e) = Some (byte v) /\ e <> 117 /\ e < 256.
Proof.
  intro H. cbn [In escapes] in H.
  repeat match type of H with _ \/ _ => destruct H as [H|H]; [injection H as <- <-; split; [reflexivity|lia]|] end.
  destruct H.
Qed.

Lemma pstr_sound n : forall s x rest, (String.length s <= n)%nat -> pstr s = Some (x, rest) ->
  exists t, s = t +++ byte 34 +++ rest /\ chars t x.
Proof.
  induction n as [|n IH]; intros s x rest Hn H; (destruct s as [|c r]; [discriminate H|]); cbn [String.length] in Hn; [lia|].
  cbn [pstr] in H. destruct (N.eqb_spec (bn c) 34) as [E|N34].
  { injection H as <- <-. exists "". split; [|constructor]. unfold byte. cbn [String.append]. now rewrite <- E, nb_bn. }
  destruct (N.eqb_spec (bn c) 92) as [E|N92].
  { assert (Ec : c = nb 92) by (now rewrite <- E, nb_bn). subst c. clear E N34.
    destruct r as [|e r1]; [discriminate H|]. destruct (N.eqb_spec (bn e) 117) as [E|N117].
    - assert (Ee : e = "u"%char) by (now apply bn_inj). subst e. clear E.
      destruct r1 as [|h1 [|h2 [|h3 [|h4 r2]]]]; try discriminate H. cbn [String.length] in Hn.
      destruct (hex4 h1 h2 h3 h4) as [u|] eqn:Hu; [|discriminate H]. cbn [obind] in H.
      apply hex4_sound in Hu as [Hu Lu]. unfold between in H.
      destruct ((55296 <=? u) && (u <=? 56319)) eqn:Hi.
      + destruct r2 as [|k1 [|k2 [|g1 [|g2 [|g3 [|g4 r3]]]]]]; try discriminate H. cbn [String.length] in Hn.
        destruct ((bn k1 =? 92) && (bn k2 =? 117)) eqn:K; [|discriminate H].
        apply andb_true_iff in K as [K1 K2]. apply N.eqb_eq in K1, K2.
        assert (k1 = nb 92) as -> by (now apply bn_inj). assert (k2 = "u"%char) as -> by (now apply bn_inj).
        destruct (hex4 g1 g2 g3 g4) as [lo|] eqn:Hlo; [|discriminate H]. cbn [obind] in H.
        apply hex4_sound in Hlo as [Hlo Llo].
        destruct ((56320 <=? lo) && (lo <=? 57343)) eqn:Lo; [|discriminate H].
        destruct (pstr r3) as [[x' rest']|] eqn:P; [|discriminate H]. cbn [obind] in H. injection H as <- <-.
        apply IH in P as (t & -> & Ct); [|lia].
        exists (unit4 h1 h2 h3 h4 +++ unit4 g1 g2 g3 g4 +++ t). split; [reflexivity|].
        rewrite <- encoded_is. apply chars_pair; auto; lia.
      + destruct ((56320 <=? u) && (u <=? 57343)) eqn:Lo; [discriminate H|].
        destruct (pstr r2) as [[x' rest']|] eqn:P; [|discriminate H]. cbn [obind] in H. injection H as <- <-.
        apply IH in P as (t & -> & Ct); [|lia].
        exists (unit4 h1 h2 h3 h4 +++ t). split; [reflexivity|].
        rewrite <- encoded_is. apply chars_unicode; auto. unfold scalar. lia.
    - destruct (simple_escape e) as [v|] eqn:Hv; [|discriminate H]. cbn [obind] in H.
      destruct (pstr r1) as [[x' rest']|] eqn:P; [|discriminate H]. cbn [obind] in H. injection H as <- <-.
      apply IH in P as (t & -> & Ct); [|cbn [String.length] in Hn; lia].
      apply escape_sound in Hv as (v' & Hin & ->). exists (byte 92 +++ byte (bn e) +++ t). split.
      + unfold byte. cbn [String.append]. now rewrite (nb_bn e : ascii_of_N (bn e) = e).
      + now constructor. }
  destruct (N.ltb_spec (bn c) 32) as [|L]; [discriminate H|].
  destruct (pstr r) as [[x' rest']|] eqn:P; [|discriminate H]. cbn [obind] in H. injection H as <- <-.
  apply IH in P as (t & -> & Ct); [|lia]. exists (String c t). split; [reflexivity|]. now constructor.
Qed.
Lemma pstr_complete t x rest : chars t x -> pstr (t +++ byte 34 +++ rest) = Some (x, rest).
Proof.
  induction 1 as [|c t x L N1 N2 H IH|e v t x Hin H IH|s u t x Hu Hs H IH|s1 hi s2 lo t x H1 L1 H2 L2 H IH].
  - reflexivity.
  - cbn [String.append pstr]. change (N_of_ascii c) with (bn c) in *.
    rewrite (proj2 (N.eqb_neq _ _) N1), (proj2 (N.eqb_neq _ _) N2), (proj2 (N.ltb_ge _ _) L).
    now rewrite IH.
  - apply escape_complete in Hin as (E & Hne & L). unfold byte at 1 2. fold nb. cbn [String.append pstr].
    change (bn (nb 92) =? 34) with false. change (bn (nb 92) =? 92) with true.
    change (ascii_of_N e) with (nb e). rewrite (bn_nb e L), (proj2 (N.eqb_neq _ _) Hne), E. cbn [obind]. now rewrite IH.
  - apply hex4_complete in Hu as (L & a & b & c & d & -> & E). rewrite sapp_assoc. unfold unit4. cbn [String.append pstr].
    change (bn (nb 92) =? 34) with false. change (bn (nb 92) =? 92) with true. change (bn "u" =? 117) with true.
    rewrite E. cbn [obind]. unfold between, scalar in *.
    replace ((55296 <=? u) && (u <=? 56319)) with false by lia.
    replace ((56320 <=? u) && (u <=? 57343)) with false by lia. rewrite IH. cbn [obind]. now rewrite encoded_is.
  - apply hex4_complete in H1 as (_ & a & b & c & d & -> & E). apply hex4_complete in H2 as (_ & a' & b' & c' & d' & -> & E').
    rewrite !sapp_assoc. unfold unit4. cbn [String.append pstr].
    change (bn (nb 92) =? 34) with false. change (bn (nb 92) =? 92) with true. change (bn "u" =? 117) with true.
    rewrite E. cbn [obind andb]. unfold between.
    replace ((55296 <=? hi) && (hi <=? 56319)) with true by lia. rewrite E'. cbn [obind].
    replace ((56320 <=? lo) && (lo <=? 57343)) with true by lia. rewrite IH. cbn [obind]. now rewrite encoded_is.
Qed.
Lemma pjstr_quoted r x rest : pjstr r = Some (x, rest) <-> exists q, quoted q x /\ byte 34 +++ r = q +++ rest.
Proof.
  unfold pjstr. split.
  - intro H. destruct (pstr r) as [[y s]|] eqn:P; [|discriminate H]. cbn [obind] in H.
    destruct (utf8_valid y) eqn:U; [|discriminate H]. injection H as -> ->.
    apply (pstr_sound (String.length r)) in P as (t & -> & Ct); [|apply le_n].
    exists (byte 34 +++ t +++ byte 34). split; [|now rewrite !sapp_assoc].
    exists t. split; [reflexivity|]. split; [exact Ct|]. now apply utf8_valid_text.
  - intros (q & (t & -> & Ct & U) & E). rewrite !sapp_assoc in E. apply sapp_inj_l in E. subst r.
    rewrite (pstr_complete _ _ _ Ct). cbn [obind]. apply utf8_valid_text in U. now rewrite U.
Qed.

(** ** JSON documents *)

Lemma is_ws_In c : is_ws c = true <-> In (N_of_ascii c) [0x20; 0x09; 0x0A; 0x0D].
Proof. unfold is_ws. cbn [In]. change (N_of_ascii c) with (bn c). lia. Qed.
Lemma blank_nil : blank "".
Proof. constructor. Qed.
Lemma blank_cons c w : blank (String c w) <-> is_ws c = true /\ blank w.
Proof.
  unfold blank. cbn [list_ascii_of_string]. rewrite is_ws_In. split; [intro H; inversion H; auto|intros []; now constructor].
Qed.
Lemma skip_blank w s : blank w -> skip_ws (w +++ s) = skip_ws s.
Proof.
  induction w as [|c w IH]; intro H; [reflexivity|]. apply blank_cons in H as [Hc H]. cbn [String.append skip_ws].
  rewrite Hc. now apply IH.
Qed.
Lemma skip_sound s : exists w, blank w /\ s = w +++ skip_ws s.
Proof.
  induction s as [|c s (w & Hw & E)]; [exists ""; split; [apply blank_nil|reflexivity]|]. cbn [skip_ws].
  destruct (is_ws c) eqn:C; [|exists ""; split; [apply blank_nil|reflexivity]].
  exists (String c w). split; [now apply blank_cons|]. cbn [String.append]. now rewrite <- E.
Qed.
Lemma skip_is s t : skip_ws s = t -> exists w, blank w /\ s = w +++ t.
Proof. intros <-. apply skip_sound. Qed.
Lemma eat_sound p : forall s r, eat p s = Some r -> s = p +++ r.
Proof.
  induction p as [|c p IH]; intros s r H; cbn [eat] in H; [now injection H as ->|].
  destruct s as [|d s]; [discriminate H|]. destruct (Ascii.eqb_spec c d) as [->|]; [|discriminate H].
  cbn [String.append]. f_equal. now apply IH.
Qed.
Lemma eat_complete p r : eat p (p +++ r) = Some r.
Proof. induction p as [|c p IH]; [reflexivity|]. cbn [eat String.append]. now rewrite Ascii.eqb_refl. Qed.

Lemma pnum_acc_sound s : forall a n r, pnum_acc a s = (n, r) ->
  exists ds, digits ds /\ s = digits_text ds +++ r /\ n = fold_left stepd ds a.
Proof.
  induction s as [|c s IH]; intros a n r H; cbn [pnum_acc] in H.
  { injection H as <- <-. exists []. repeat split. constructor. }
  destruct (is_digit c) eqn:D.
  2: { injection H as <- <-. exists []. repeat split. constructor. }
  destruct (IH _ _ _ H) as (ds & F & -> & ->). unfold is_digit in D.
  exists (digit_val c :: ds). split; [constructor; [unfold digit_val; lia|exact F]|].
  rewrite digits_text_cons. split.
  - cbn [String.append]. f_equal. rewrite <- (nb_bn c) at 1. f_equal. unfold digit_val. lia.
  - cbn [fold_left]. f_equal. lia.
Qed.
Lemma pnum_sound c s n r : is_digit c = true -> pnum c s = (n, r) ->
  exists t, String c s = t +++ r /\ value_text t (JNum n).
Proof.
  intros D H. unfold pnum in H. destruct (N.eqb_spec (bn c) 48) as [E|N0].
  - injection H as <- <-. exists (digits_text [0]). split.
    + rewrite digits_text_cons. cbn [String.append]. f_equal. rewrite <- (nb_bn c). now rewrite E.
    + eapply value_number with (ds := [0]); auto. constructor; [reflexivity|constructor].
  - apply pnum_acc_sound in H as (ds & F & -> & ->). unfold is_digit in D.
    exists (digits_text (digit_val c :: ds)). split.
    + rewrite digits_text_cons. cbn [String.append]. f_equal. rewrite <- (nb_bn c) at 1. f_equal. unfold digit_val. lia.
    + eapply value_number with (ds := digit_val c :: ds); auto.
      * constructor; [unfold digit_val; lia|exact F].
      * right. split; [discriminate|]. cbn [hd]. unfold digit_val. lia.
Qed.
Lemma pnum_complete ds rest : digits ds -> ds = [0] \/ (ds <> [] /\ hd 0 ds <> 0) -> nodig rest = true ->
  exists c r, digits_text ds +++ rest = String c r /\ is_digit c = true /\ pnum c r = (digits_value ds, rest).
Proof.
  intros F H R. destruct ds as [|d ds]; [destruct H as [H|[H _]]; congruence|].
  inversion F as [|? ? Hd Fd]; subst. rewrite digits_text_cons. cbn [String.append].
  exists (nb (48 + d)), (digits_text ds +++ rest). split; [reflexivity|].
  destruct (digit_byte d Hd) as [D V]. split; [exact D|]. unfold pnum. rewrite bn_nb by lia.
  destruct H as [H|[_ H]].
  - injection H as -> ->. reflexivity.
  - cbn [hd] in H. rewrite (proj2 (N.eqb_neq _ _)) by lia. apply pnum_acc_digits; [|exact R|].
    + clear -Fd. induction Fd as [|d l H Hl IH]; [reflexivity|]. rewrite digits_text_cons. cbn [all_chars].
      destruct (digit_byte d H) as [-> _]. exact IH.
    + rewrite digits_pdec by exact Fd. rewrite V. unfold digits_value. cbn [fold_left]. do 2 f_equal; lia.
Qed.

Lemma bnc c n : bn c = n -> c = nb n.
Proof. intros <-. symmetry. apply nb_bn. Qed.

Lemma parse_sound f :
  (forall s j r, pval f s = Some (j, r) -> exists w t, s = w +++ t +++ r /\ blank w /\ value_text t j) /\
  (forall s l r, parr f s = Some (l, r) -> exists t, s = t +++ "]" +++ r /\ elements_text t l) /\
  (forall s l r, pobj f s = Some (l, r) -> exists t, s = t +++ "}" +++ r /\ members_text t l).
Proof.
  induction f as [|f (IHv & IHa & IHo)]; [repeat split; intros; discriminate|]. split; [|split].
  - intros s j r H. cbn [pval] in H. destruct (skip_ws s) as [|c r0] eqn:S; [discriminate H|].
    apply skip_is in S as (w & Hw & ->). exists w.
    assert (G : forall t, String c r0 = t +++ r -> value_text t j ->
      exists t, w +++ String c r0 = w +++ t +++ r /\ blank w /\ value_text t j).
    { intros t E V. exists t. split; [now rewrite E|]. now split. }
    destruct (N.eqb_spec (bn c) 34) as [E|_].
    { apply bnc in E as ->. destruct (pjstr r0) as [[x r1]|] eqn:P; [|discriminate H]. cbn [obind] in H.
      injection H as <- <-. apply pjstr_quoted in P as (q & Q & E). apply (G q); [exact E|now constructor]. }
    destruct (N.eqb_spec (bn c) 91) as [E|_].
    { apply bnc in E as ->. destruct (eat "]" (skip_ws r0)) as [r1|] eqn:P.
      - injection H as <- <-. apply eat_sound in P. apply skip_is in P as (w' & Hw' & ->).
        apply (G ("[" +++ w' +++ "]")); [now rewrite !sapp_assoc|now constructor].
      - destruct (parr f r0) as [[l r1]|] eqn:A; [|discriminate H]. cbn [obind] in H. injection H as <- <-.
        apply IHa in A as (t & -> & T). apply (G ("[" +++ t +++ "]")); [now rewrite !sapp_assoc|now constructor]. }
    destruct (N.eqb_spec (bn c) 123) as [E|_].
    { apply bnc in E as ->. destruct (eat "}" (skip_ws r0)) as [r1|] eqn:P.
      - injection H as <- <-. apply eat_sound in P. apply skip_is in P as (w' & Hw' & ->).
        apply (G ("{" +++ w' +++ "}")); [now rewrite !sapp_assoc|now constructor].
      - destruct (pobj f r0) as [[l r1]|] eqn:A; [|discriminate H]. cbn [obind] in H. injection H as <- <-.
        apply IHo in A as (t & -> & T). apply (G ("{" +++ t +++ "}")); [now rewrite !sapp_assoc|now constructor]. }
    destruct (is_digit c) eqn:D.
    { destruct (pnum c r0) as [n r1] eqn:P. injection H as <- <-. apply pnum_sound in P as (t & E & V); [|exact D].
      now apply (G t). }
    destruct (N.eqb_spec (bn c) 110) as [E|_].
    { apply bnc in E as ->. destruct (eat "ull" r0) as [r1|] eqn:P; [|discriminate H]. injection H as <- <-.
      apply eat_sound in P as ->. apply (G "null"); [reflexivity|constructor]. }
    destruct (N.eqb_spec (bn c) 116) as [E|_].
    { apply bnc in E as ->. destruct (eat "rue" r0) as [r1|] eqn:P; [|discriminate H]. injection H as <- <-.
      apply eat_sound in P as ->. apply (G "true"); [reflexivity|constructor]. }
    destruct (N.eqb_spec (bn c) 102) as [E|_]; [|discriminate H].
    apply bnc in E as ->. destruct (eat "alse" r0) as [r1|] eqn:P; [|discriminate H]. injection H as <- <-.
    apply eat_sound in P as ->. apply (G "false"); [reflexivity|constructor].
  - intros s l r H. cbn [parr] in H. destruct (pval f s) as [[v r0]|] eqn:P; [|discriminate H]. cbn [obind] in H.
    apply IHv in P as (w & t & -> & Hw & V). destruct (skip_ws r0) as [|c r1] eqn:S; [discriminate H|].
    apply skip_is in S as (w' & Hw' & ->). destruct (N.eqb_spec (bn c) 44) as [E|_].
    + apply bnc in E as ->. destruct (parr f r1) as [[l' r2]|] eqn:A; [|discriminate H]. cbn [obind] in H.
      injection H as <- <-. apply IHa in A as (t' & -> & T). exists (w +++ t +++ w' +++ "," +++ t').
      split; [now rewrite !sapp_assoc|now constructor].
    + destruct (N.eqb_spec (bn c) 93) as [E|_]; [|discriminate H]. apply bnc in E as ->. injection H as <- <-.
      exists (w +++ t +++ w'). split; [now rewrite !sapp_assoc|now constructor].
  - intros s l r H. cbn [pobj] in H. destruct (skip_ws s) as [|q r0] eqn:S; [discriminate H|].
    apply skip_is in S as (w1 & Hw1 & ->). destruct (N.eqb_spec (bn q) 34) as [E|_]; [|discriminate H].
    apply bnc in E as ->. destruct (pjstr r0) as [[k r1]|] eqn:K; [|discriminate H]. cbn [obind] in H.
    apply pjstr_quoted in K as (kt & Q & E). change (String (nb 34) r0) with (byte 34 +++ r0). rewrite E. clear E r0.
    destruct (eat ":" (skip_ws r1)) as [r2|] eqn:C; [|discriminate H]. cbn [obind] in H.
    apply eat_sound in C. apply skip_is in C as (w2 & Hw2 & ->).
    destruct (pval f r2) as [[v r3]|] eqn:P; [|discriminate H]. cbn [obind] in H.
    apply IHv in P as (w3 & t & -> & Hw3 & V). destruct (skip_ws r3) as [|c r4] eqn:S; [discriminate H|].
    apply skip_is in S as (w4 & Hw4 & ->). destruct (N.eqb_spec (bn c) 44) as [E|_].
    + apply bnc in E as ->. destruct (pobj f r4) as [[l' r5]|] eqn:A; [|discriminate H]. cbn [obind] in H.
      injection H as <- <-. apply IHo in A as (t' & -> & T).
      exists (w1 +++ kt +++ w2 +++ ":" +++ w3 +++ t +++ w4 +++ "," +++ t').
      split; [now rewrite !sapp_assoc|now constructor].
    + destruct (N.eqb_spec (bn c) 125) as [E|_]; [|discriminate H]. apply bnc in E as ->. injection H as <- <-.
      exists (w1 +++ kt +++ w2 +++ ":" +++ w3 +++ t +++ w4). split; [now rewrite !sapp_assoc|now constructor].
Qed.

Scheme value_ind3 := Induction for value_text Sort Prop
  with elements_ind3 := Induction for elements_text Sort Prop
  with members_ind3 := Induction for members_text Sort Prop.

Lemma value_start t j : value_text t j -> exists c r, t = String c r /\ is_ws c = false /\ c <> "]"%char.
Proof.
  intro H. destruct H as [| | |s n ds F Hd -> _|s x (t & -> & _)| | | |];
    try (do 2 eexists; split; [reflexivity|split; [reflexivity|discriminate]]).
  destruct ds as [|d ds]; [destruct Hd as [Hd|[Hd _]]; congruence|]. inversion F; subst.
  rewrite digits_text_cons. do 2 eexists. split; [reflexivity|]. destruct (digit_byte d) as [D _]; [assumption|].
  split; [now apply is_digit_not|]. intros E. rewrite E in D. discriminate D.
Qed.
Lemma value_skip t j rest : value_text t j -> exists c r, t +++ rest = String c r /\ skip_ws (t +++ rest) = String c r /\ eat "]" (String c r) = None.
Proof.
  intro H. destruct (value_start _ _ H) as (c & r & -> & W & N1). exists c, (r +++ rest). split; [reflexivity|].
  cbn [String.append skip_ws]. rewrite W. split; [reflexivity|]. cbn [eat].
  destruct (Ascii.eqb_spec "]" c); [congruence|reflexivity].
Qed.
Lemma elements_skip t l rest : elements_text t l -> eat "]" (skip_ws (t +++ rest)) = None.
Proof.
  intro H. destruct H as [w s w' v Hw V Hw'|w s w' v r l Hw V Hw' _]; rewrite !sapp_assoc, skip_blank by exact Hw;
  match goal with |- context [skip_ws (s +++ ?R)] => destruct (value_skip s v R V) as (c & q & _ & -> & ->) end; reflexivity.
Qed.
Lemma quoted_start k x rest : quoted k x -> exists r, k +++ rest = String (nb 34) r /\ pjstr r = Some (x, rest).
Proof.
  intro Q. pose proof Q as (t & E & _). exists (t +++ byte 34 +++ rest). split.
  - rewrite E, !sapp_assoc. reflexivity.
  - apply pjstr_quoted. exists k. split; [exact Q|]. rewrite E, !sapp_assoc. reflexivity.
Qed.
Lemma quoted_skip k x rest : quoted k x -> skip_ws (k +++ rest) = k +++ rest.
Proof. intro Q. destruct (quoted_start k x rest Q) as (r & -> & _). reflexivity. Qed.
Lemma members_skip t l rest : members_text t l -> eat "}" (skip_ws (t +++ rest)) = None.
Proof.
  intro H. destruct H as [w1 k w2 w3 s w4 x v H1 Q|w1 k w2 w3 s w4 x v r l H1 Q]; rewrite !sapp_assoc, skip_blank by exact H1;
  rewrite (quoted_skip _ _ _ Q); match goal with |- context [k +++ ?R] => destruct (quoted_start k x R Q) as (q & -> & _) end; reflexivity.
Qed.
Lemma nodig_blank w s : blank w -> nodig s = true -> nodig (w +++ s) = true.
Proof.
  destruct w as [|c w]; [auto|]. intros H _. apply blank_cons in H as [H _]. cbn. unfold is_ws, is_digit in *. lia.
Qed.

Lemma value_complete t j (H : value_text t j) : forall w rest f, blank w -> nodig rest = true ->
  (String.length t <= f)%nat -> pval f (w +++ t +++ rest) = Some (j, rest).
Proof.
  revert t j H.
  apply (value_ind3
    (fun t j _ => forall w rest f, blank w -> nodig rest = true -> (String.length t <= f)%nat ->
       pval f (w +++ t +++ rest) = Some (j, rest))
    (fun t l _ => forall rest f, (String.length t < f)%nat -> parr f (t +++ "]" +++ rest) = Some (l, rest))
    (fun t l _ => forall rest f, (String.length t <= f)%nat -> pobj f (t +++ "}" +++ rest) = Some (l, rest))).
  - intros w rest f Hw _ L. destruct f; [cbn in L; lia|]. cbn [pval]. rewrite skip_blank by exact Hw. reflexivity.
  - intros w rest f Hw _ L. destruct f; [cbn in L; lia|]. cbn [pval]. rewrite skip_blank by exact Hw. reflexivity.
  - intros w rest f Hw _ L. destruct f; [cbn in L; lia|]. cbn [pval]. rewrite skip_blank by exact Hw. reflexivity.
  - intros s n ds F Hd -> -> w rest f Hw R L. destruct (pnum_complete ds rest F Hd R) as (c & r & E & D & P).
    destruct f as [|f]. { destruct ds; [destruct Hd as [?|[? _]]; congruence|rewrite digits_text_cons in L; cbn in L; lia]. }
    cbn [pval]. rewrite skip_blank by exact Hw. rewrite E. cbn [skip_ws].
    destruct (is_digit_not c D) as (Q1 & Q2 & Q3 & Q4). rewrite Q4, Q1, Q2, Q3, D, P. reflexivity.
  - intros s x Q w rest f Hw _ L. destruct (quoted_start s x rest Q) as (r & E & P).
    destruct f as [|f]. { destruct Q as (t & -> & _). cbn in L. lia. }
    cbn [pval]. rewrite skip_blank by exact Hw. rewrite E. cbn [skip_ws]. change (is_ws (nb 34)) with false.
    change (bn (nb 34) =? 34) with true. cbv iota. rewrite P. reflexivity.
  - intros w' Hw' w rest f Hw _ L. destruct f; [cbn in L; lia|]. cbn [pval]. rewrite skip_blank by exact Hw.
    rewrite !sapp_assoc. cbn [String.append skip_ws]. change (is_ws "[") with false. cbv iota.
    change (bn "[" =? 34) with false. change (bn "[" =? 91) with true. cbv iota.
    rewrite skip_blank by exact Hw'. reflexivity.
  - intros s l E IH w rest f Hw _ L. rewrite !slen_app in L. destruct f; [cbn in L; lia|]. cbn [pval]. rewrite skip_blank by exact Hw.
    rewrite !sapp_assoc. cbn [String.append skip_ws]. change (is_ws "[") with false. cbv iota.
    change (bn "[" =? 34) with false. change (bn "[" =? 91) with true. cbv iota.
    change (String "]" rest) with ("]" +++ rest). rewrite (elements_skip _ _ _ E).
    rewrite IH by (cbn [String.length] in L; lia). reflexivity.
  - intros w' Hw' w rest f Hw _ L. destruct f; [cbn in L; lia|]. cbn [pval]. rewrite skip_blank by exact Hw.
    rewrite !sapp_assoc. cbn [String.append skip_ws]. change (is_ws "{") with false. cbv iota.
    change (bn "{" =? 34) with false. change (bn "{" =? 91) with false. change (bn "{" =? 123) with true. cbv iota.
    rewrite skip_blank by exact Hw'. reflexivity.
  - intros s l E IH w rest f Hw _ L. rewrite !slen_app in L. destruct f; [cbn in L; lia|]. cbn [pval]. rewrite skip_blank by exact Hw.
    rewrite !sapp_assoc. cbn [String.append skip_ws]. change (is_ws "{") with false. cbv iota.
    change (bn "{" =? 34) with false. change (bn "{" =? 91) with false. change (bn "{" =? 123) with true. cbv iota.
    change (String "}" rest) with ("}" +++ rest). rewrite (members_skip _ _ _ E).
    rewrite IH by (cbn [String.length] in L; lia). reflexivity.
  - intros w s w' v Hw V IH Hw' rest f L. rewrite !slen_app in L. destruct f; [lia|]. cbn [parr]. rewrite !sapp_assoc.
    rewrite IH; [|exact Hw|now apply nodig_blank|lia]. cbn [obind]. rewrite skip_blank by exact Hw'. reflexivity.
  - intros w s w' v r l Hw V IH Hw' E IHr rest f L. rewrite !slen_app in L. cbn [String.length] in L.
    destruct (value_start _ _ V) as (c0 & s0 & E0 & _). assert (0 < String.length s)%nat by (rewrite E0; cbn; lia).
    destruct f; [lia|]. cbn [parr]. rewrite !sapp_assoc.
    rewrite IH; [|exact Hw|now apply nodig_blank|lia]. cbn [obind]. rewrite skip_blank by exact Hw'.
    cbn [String.append skip_ws]. change (is_ws ",") with false. change (bn "," =? 44) with true. cbv iota.
    change (String "]" rest) with ("]" +++ rest). rewrite IHr by lia. reflexivity.
  - intros w1 k w2 w3 s w4 x v H1 Q H2 H3 V IH H4 rest f L. rewrite !slen_app in L.
    assert (0 < String.length k)%nat by (destruct Q as (t & -> & _); cbn; lia).
    destruct f; [lia|]. cbn [pobj]. rewrite !sapp_assoc, skip_blank by exact H1.
    rewrite (quoted_skip _ _ _ Q). match goal with |- context [k +++ ?R] => destruct (quoted_start k x R Q) as (q & -> & ->) end.
    change (bn (nb 34) =? 34) with true. cbv iota. cbn [obind]. rewrite skip_blank by exact H2.
    cbn [String.append skip_ws]. change (is_ws ":") with false. cbv iota. cbn [eat]. change (Ascii.eqb ":" ":") with true. cbv iota. cbn [obind].
    rewrite IH; [|exact H3|now apply nodig_blank|lia]. cbn [obind]. rewrite skip_blank by exact H4. reflexivity.
  - intros w1 k w2 w3 s w4 x v r l H1 Q H2 H3 V IH H4 E IHr rest f L. rewrite !slen_app in L. cbn [String.length] in L.
    assert (0 < String.length k)%nat by (destruct Q as (t & -> & _); cbn; lia).
    destruct f; [lia|]. cbn [pobj]. rewrite !sapp_assoc, skip_blank by exact H1.
    rewrite (quoted_skip _ _ _ Q). match goal with |- context [k +++ ?R] => destruct (quoted_start k x R Q) as (q & -> & ->) end.
    change (bn (nb 34) =? 34) with true. cbv iota. cbn [obind]. rewrite skip_blank by exact H2.
    cbn [String.append skip_ws]. change (is_ws ":") with false. cbv iota. cbn [eat]. change (Ascii.eqb ":" ":") with true. cbv iota. cbn [obind].
    rewrite IH; [|exact H3|now apply nodig_blank|lia]. cbn [obind]. rewrite skip_blank by exact H4.
    cbn [skip_ws]. change (is_ws ",") with false. change (bn "," =? 44) with true. cbv iota.
    change (String "}" rest) with ("}" +++ rest). rewrite IHr by lia. reflexivity.
Qed.

Theorem C67_json : forall s j, jparse s = Some j <-> json_text s j.
Proof.
  intros s j. unfold jparse. split.
  - intro H. destruct (pval (S (String.length s)) s) as [[v r]|] eqn:P; [|discriminate H]. cbn [obind] in H.
    destruct (sempty (skip_ws r)) eqn:E; [|discriminate H]. injection H as <-. apply sempty_spec in E.
    apply (proj1 (parse_sound _)) in P as (w & t & Es & Hw & V). apply skip_is in E as (w' & Hw' & Er).
    rewrite sapp_nil_r in Er. subst w'. exists w, t, r. auto.
  - intros (w & t & w' & -> & Hw & Hw' & V). rewrite (value_complete t j V w w').
    + cbn [obind]. rewrite <- (sapp_nil_r w'), (skip_blank _ _ Hw'). reflexivity.
    + exact Hw.
    + rewrite <- (sapp_nil_r w'). now apply nodig_blank.
    + rewrite !slen_app. lia.
Qed.

(** ** Cases *)

(** A document with white space, an escape and a surrogate pair; and texts
    that the grammars leave out. *)
Definition doc : string :=
  " { ""k"" : [ 0 , 17,true] ,""s"":""a" +++ byte 92 +++ "n" +++ byte 92 +++ "uD83D" +++ byte 92 +++ "ude00"" } ".
Example doc_read : json_text doc
  (JObj [("k", JArr [JNum 0; JNum 17; JBool true]); ("s", JStr ("a" +++ byte 10 +++ byte 0xF0 +++ byte 0x9F +++ byte 0x98 +++ byte 0x80))]).
Proof. apply C67_json. vm_compute. reflexivity. Qed.
Example doc_not : forall s, In s ["[1,]"; "01"; "[1 2]"; "{""a"" 1}"; "nul"; "1 1"; """" +++ byte 92 +++ "uDC00"""] ->
  forall j, ~ json_text s j.
Proof.
  intros s H j J. apply C67_json in J. cbn [In] in H.
  repeat (destruct H as [<-|H]; [vm_compute in J; discriminate J|]). destruct H.
Qed.
Example text_base64 : base64_text "SGk=" "Hi" /\ base64_text "SGk" "Hi" /\ ~ base64_text "SGl=" "Hi".
Proof. repeat split; try (apply C67_base64; reflexivity). intro H. apply C67_base64 in H. discriminate H. Qed.
Example text_decimal : decimal_text "0.05" 50000000000000000 /\ decimal_text "+3" 3000000000000000000 /\
  forall n, ~ decimal_text ".5" n /\ ~ decimal_text "1." n /\ ~ decimal_text "1.2.3" n.
Proof.
  split; [apply C67_decimals; vm_compute; reflexivity|]. split; [apply C67_decimals; vm_compute; reflexivity|].
  intro n. repeat split; intro H; apply C67_decimals in H; vm_compute in H; discriminate H.
Qed.
Example text_integer : uint_text (2 ^ 64) "007" 7 /\ uint_text (2 ^ 64) "+7" 7 /\ forall n, ~ uint_text (2 ^ 64) "18446744073709551616" n.
Proof.
  split; [apply C67_integers; vm_compute; reflexivity|]. split; [apply C67_integers; vm_compute; reflexivity|].
  intros n H. apply C67_integers in H. vm_compute in H. discriminate H.
Qed.
Example text_utf8 : utf8_text (byte 0xE2 +++ byte 0x82 +++ byte 0xAC) [0x20AC] /\ (forall l, ~ utf8_text (byte 0xC0 +++ byte 0x80) l).
Proof. split; [apply C67_utf8; reflexivity|]. intros l H. apply C67_utf8 in H. discriminate H. Qed.

Print Assumptions C67_utf8.
Print Assumptions C67_integers.
Print Assumptions C67_decimals.
Print Assumptions C67_base64.
Print Assumptions C67_json.
