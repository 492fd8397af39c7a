(** * Base64: [cosmwasm_std::Binary]'s base64 text.

    Standard alphabet, padded encoding, decoding with the "indifferent"
    padding mode and zero trailing bits required, as in cosmwasm-std 2.x
    [Binary::to_base64] and [Binary::from_base64], which serde uses for every
    [Binary] field (src/ibc/types/packet.rs:211-218, src/types/callbacks.rs). *)

From Verif Require Import Base Utf8 Text.
From Coq Require Import ZifyBool ZifyNat ZifyN.
Local Open Scope string_scope.
Local Open Scope N_scope.
Ltac Zify.zify_post_hook ::= Z.div_mod_to_equations.

(** The 6-bit symbol [n] of the standard alphabet.
    (Inside [Binary::to_base64], src/ibc/types/events.rs:32.) *)
Definition b64_char (n : N) : ascii :=
  if n <? 26 then nb (65 + n)
  else if n <? 52 then nb (97 + (n - 26))
  else if n <? 62 then nb (48 + (n - 52))
  else if n =? 62 then "+" else "/".

(** Inverse of [b64_char] ([Binary::from_base64], through serde at src/ibc/relay.rs:32). *)
Definition b64_val (c : ascii) : option N :=
  let x := bn c in
  if between 65 90 x then Some (x - 65)
  else if between 97 122 x then Some (x - 97 + 26)
  else if between 48 57 x then Some (x - 48 + 52)
  else if x =? 43 then Some 62
  else if x =? 47 then Some 63
  else None.

(** [Binary::to_base64], src/ibc/types/events.rs:32 and serde of every [Binary]. *)
Fixpoint b64_enc (s : string) : string :=
  match s with
  | "" => ""
  | String a "" =>
      String (b64_char (bn a / 4)) (String (b64_char (bn a mod 4 * 16)) "==")
  | String a (String b "") =>
      String (b64_char (bn a / 4))
        (String (b64_char (bn a mod 4 * 16 + bn b / 16))
          (String (b64_char (bn b mod 16 * 4)) "="))
  | String a (String b (String c r)) =>
      String (b64_char (bn a / 4))
        (String (b64_char (bn a mod 4 * 16 + bn b / 16))
          (String (b64_char (bn b mod 16 * 4 + bn c / 64))
            (String (b64_char (bn c mod 64)) (b64_enc r))))
  end.

(** Groups of [b64_dec]. *)
Definition b64_last2 (a b : ascii) : option string :=
  x <-? b64_val a ;; y <-? b64_val b ;;
  if y mod 16 =? 0 then Some (b1 (x * 4 + y / 16)) else None.

(** Groups of [b64_dec]. *)
Definition b64_last3 (a b c : ascii) : option string :=
  x <-? b64_val a ;; y <-? b64_val b ;; z <-? b64_val c ;;
  if z mod 4 =? 0
  then Some (String (nb (x * 4 + y / 16)) (b1 (y mod 16 * 16 + z / 4)))
  else None.

(** Groups of [b64_dec]. *)
Definition b64_quad (a b c d : ascii) : option string :=
  x <-? b64_val a ;; y <-? b64_val b ;; z <-? b64_val c ;; w <-? b64_val d ;;
  Some (String (nb (x * 4 + y / 16))
         (String (nb (y mod 16 * 16 + z / 4)) (b1 (z mod 4 * 64 + w)))).

(** [Binary::from_base64], through serde at src/ibc/relay.rs:32 (src/ibc/types/packet.rs:214). *)
Fixpoint b64_dec (s : string) : option string :=
  match s with
  | "" => Some ""
  | String a (String b (String c (String d r))) =>
      if sempty r then
        if Ascii.eqb c "=" then if Ascii.eqb d "=" then b64_last2 a b else None
        else if Ascii.eqb d "=" then b64_last3 a b c
        else b64_quad a b c d
      else
        h <-? b64_quad a b c d ;; t <-? b64_dec r ;; Some (h +++ t)
  | String a (String b (String c "")) =>
      if Ascii.eqb c "=" then b64_last2 a b else b64_last3 a b c
  | String a (String b "") => b64_last2 a b
  | String a "" => None
  end.

Lemma b64_val_char n : n < 64 -> b64_val (b64_char n) = Some n.
Proof.
  intro H. unfold b64_char, b64_val, between.
  destruct (N.ltb_spec n 26).
  { rewrite !bn_nb by lia.
    destruct (N.leb_spec 65 (65 + n)); [|lia]. destruct (N.leb_spec (65 + n) 90); [|lia].
    cbn [andb]. f_equal; lia. }
  destruct (N.ltb_spec n 52).
  { rewrite !bn_nb by lia.
    replace ((65 <=? 97 + (n - 26)) && (97 + (n - 26) <=? 90)) with false by lia.
    replace ((97 <=? 97 + (n - 26)) && (97 + (n - 26) <=? 122)) with true by lia.
    f_equal; lia. }
  destruct (N.ltb_spec n 62).
  { rewrite !bn_nb by lia.
    replace ((65 <=? 48 + (n - 52)) && (48 + (n - 52) <=? 90)) with false by lia.
    replace ((97 <=? 48 + (n - 52)) && (48 + (n - 52) <=? 122)) with false by lia.
    replace ((48 <=? 48 + (n - 52)) && (48 + (n - 52) <=? 57)) with true by lia.
    f_equal; lia. }
  destruct (N.eqb_spec n 62) as [->|]; [reflexivity|].
  replace n with 63 by lia. reflexivity.
Qed.

Lemma b64_char_noteq n : n < 64 -> Ascii.eqb (b64_char n) "=" = false.
Proof.
  intro H. destruct (Ascii.eqb_spec (b64_char n) "=") as [E|]; [|reflexivity].
  pose proof (b64_val_char n H) as V. rewrite E in V. discriminate V.
Qed.

Lemma b64_enc_nonempty a r : sempty (b64_enc (String a r)) = false.
Proof. destruct r as [|b [|c r]]; reflexivity. Qed.

Ltac b64_bounds := repeat match goal with
  | a : ascii |- _ =>
      lazymatch goal with H : bn a < 256 |- _ => fail | _ => pose proof (bn_lt a) end
  end.

(** Every byte string is read back from its base64 text. *)
Lemma b64_roundtrip_n n : forall s, (String.length s <= n)%nat -> b64_dec (b64_enc s) = Some s.
Proof.
  induction n as [|n IH]; intros s Hn.
  { destruct s; [reflexivity|cbn in Hn; lia]. }
  destruct s as [|a [|b [|c r]]]; b64_bounds.
  - reflexivity.
  - cbn [b64_enc b64_dec]. cbn [sempty Ascii.eqb Bool.eqb andb].
    unfold b64_last2.
    rewrite !b64_val_char by lia. cbn [obind].
    replace (bn a mod 4 * 16 mod 16 =? 0) with true by lia.
    unfold b1. do 2 f_equal. rewrite <- (nb_bn a) at 3. f_equal. lia.
  - cbn [b64_enc b64_dec]. cbn [sempty].
    rewrite b64_char_noteq by lia. cbn [Ascii.eqb Bool.eqb andb]. unfold b64_last3.
    rewrite !b64_val_char by lia. cbn [obind].
    replace (bn b mod 16 * 4 mod 4 =? 0) with true by lia.
    unfold b1. f_equal. f_equal; [|f_equal].
    + rewrite <- (nb_bn a) at 3. f_equal. lia.
    + rewrite <- (nb_bn b) at 3. f_equal. lia.
  - assert (Hq : b64_quad (b64_char (bn a / 4)) (b64_char (bn a mod 4 * 16 + bn b / 16))
        (b64_char (bn b mod 16 * 4 + bn c / 64)) (b64_char (bn c mod 64))
        = Some (String a (String b (String c "")))).
    { unfold b64_quad. rewrite !b64_val_char by lia. cbn [obind]. unfold b1.
      f_equal. f_equal; [|f_equal; [|f_equal]].
      - rewrite <- (nb_bn a) at 3. f_equal. lia.
      - rewrite <- (nb_bn b) at 3. f_equal. lia.
      - rewrite <- (nb_bn c) at 3. f_equal. lia. }
    cbn [b64_enc b64_dec]. destruct r as [|a' r'].
    + cbn [b64_enc sempty]. rewrite !b64_char_noteq by lia. exact Hq.
    + rewrite b64_enc_nonempty, Hq, IH by (cbn [String.length] in *; lia). reflexivity.
Qed.

Lemma b64_roundtrip s : b64_dec (b64_enc s) = Some s.
Proof. eapply b64_roundtrip_n. reflexivity. Qed.

(** Base64 text is printable ASCII. *)
Lemma b64_char_ascii n : n < 64 -> bn (b64_char n) < 128.
Proof.
  intro H. unfold b64_char.
  destruct (N.ltb_spec n 26); [rewrite bn_nb by lia; lia|].
  destruct (N.ltb_spec n 52); [rewrite bn_nb by lia; lia|].
  destruct (N.ltb_spec n 62); [rewrite bn_nb by lia; lia|].
  destruct (n =? 62); reflexivity.
Qed.

Lemma b64_char_ascii' n : n < 64 -> (bn (b64_char n) <? 128) = true.
Proof. intro H. apply N.ltb_lt, b64_char_ascii, H. Qed.

Lemma b64_ascii_n n : forall s, (String.length s <= n)%nat -> ascii_only (b64_enc s) = true.
Proof.
  induction n as [|n IH]; intros s Hn.
  { destruct s; [reflexivity|cbn in Hn; lia]. }
  destruct s as [|a [|b [|c r]]]; b64_bounds; cbn [b64_enc ascii_only];
    rewrite ?b64_char_ascii' by lia; try reflexivity.
  cbn [andb]. apply IH. cbn [String.length] in *; lia.
Qed.

Lemma b64_valid s : utf8_valid (b64_enc s) = true.
Proof. apply ascii_only_valid. eapply b64_ascii_n. reflexivity. Qed.
