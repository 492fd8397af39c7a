(** * Utf8: the Rust standard library's [str::from_utf8] and [char] encoding.

    Rust strings are valid UTF-8.  Strings and byte vectors are both modelled
    as Coq [string] (lists of bytes), and validity is the predicate
    [utf8_valid].  [str::from_utf8] is used through prost string fields and
    serde_json_wasm; [str::chars] in src/ibc/types/metadata.rs:164. *)

From Verif Require Import Base.
From Coq Require Import ZifyBool ZifyNat ZifyN.
Local Open Scope string_scope.
Local Open Scope N_scope.
Ltac Zify.zify_post_hook ::= Z.div_mod_to_equations.

(** Byte ranges of [core::str::from_utf8]; none in /repo. *)
Definition between (lo hi x : N) : bool := (lo <=? x) && (x <=? hi).
(** Byte ranges of [core::str::from_utf8]; none in /repo. *)
Definition cont (a : ascii) : bool := between 128 191 (bn a).

(** The scalar values of a byte string, [None] if it is not valid UTF-8
    (shortest form, no surrogates, at most U+10FFFF).
    ([str::chars], src/ibc/types/metadata.rs:164.) *)
Fixpoint utf8_cps (s : string) : option (list N) :=
  match s with
  | "" => Some []
  | String a r =>
      let x := bn a in
      if x <? 128 then option_map (cons x) (utf8_cps r)
      else if between 194 223 x then
        match r with
        | String b r1 =>
            if cont b
            then option_map (cons ((x - 192) * 64 + (bn b - 128))) (utf8_cps r1)
            else None
        | _ => None
        end
      else if between 224 239 x then
        match r with
        | String b (String c r1) =>
            if cont b && cont c
               && (if x =? 224 then 160 <=? bn b else true)
               && (if x =? 237 then bn b <=? 159 else true)
            then option_map
                   (cons ((x - 224) * 4096 + (bn b - 128) * 64 + (bn c - 128)))
                   (utf8_cps r1)
            else None
        | _ => None
        end
      else if between 240 244 x then
        match r with
        | String b (String c (String d r1)) =>
            if cont b && cont c && cont d
               && (if x =? 240 then 144 <=? bn b else true)
               && (if x =? 244 then bn b <=? 143 else true)
            then option_map
                   (cons ((x - 240) * 262144 + (bn b - 128) * 4096
                          + (bn c - 128) * 64 + (bn d - 128)))
                   (utf8_cps r1)
            else None
        | _ => None
        end
      else None
  end.

(** [str::from_utf8(..).is_ok()]: what a Rust [String] guarantees; none in /repo. *)
Definition utf8_valid (s : string) : bool := is_some (utf8_cps s).

Lemma utf8_app n : forall a l b, (String.length a <= n)%nat ->
  utf8_cps a = Some l ->
  utf8_cps (a +++ b) = option_map (app l) (utf8_cps b).
Proof.
  induction n as [|n IH]; intros a l b Hn Ha.
  - destruct a; [|cbn in Hn; lia]. cbn in *. inversion Ha; subst.
    now destruct (utf8_cps b).
  - destruct a as [|a0 a]; [cbn in *; inversion Ha; subst; now destruct (utf8_cps b)|].
    cbn [String.append]. cbn [utf8_cps] in *.
    assert (K : forall v r l0, (String.length r <= n)%nat ->
      option_map (cons v) (utf8_cps r) = Some l0 ->
      option_map (cons v) (utf8_cps (r +++ b)) = option_map (app l0) (utf8_cps b)).
    { intros v r l0 Hr E. destruct (utf8_cps r) as [lr|] eqn:Er; [|discriminate].
      cbn in E. inversion E; subst. rewrite (IH r lr b Hr Er).
      now destruct (utf8_cps b). }
    cbn [String.length] in Hn.
    destruct (bn a0 <? 128); [apply K; [lia|exact Ha]|].
    destruct (between 194 223 (bn a0)).
    { destruct a as [|b0 a]; [discriminate|]. cbn [String.append String.length] in *.
      destruct (cont b0); [|discriminate]. apply K; [lia|exact Ha]. }
    destruct (between 224 239 (bn a0)).
    { destruct a as [|b0 [|c0 a]]; try discriminate.
      cbn [String.append String.length] in *.
      match type of Ha with (if ?g then _ else _) = _ => destruct g; [|discriminate] end.
      apply K; [lia|exact Ha]. }
    destruct (between 240 244 (bn a0)); [|discriminate].
    destruct a as [|b0 [|c0 [|d0 a]]]; try discriminate.
    cbn [String.append String.length] in *.
    match type of Ha with (if ?g then _ else _) = _ => destruct g; [|discriminate] end.
    apply K; [lia|exact Ha].
Qed.

Lemma utf8_cps_app a b l : utf8_cps a = Some l ->
  utf8_cps (a +++ b) = option_map (app l) (utf8_cps b).
Proof. intro H. eapply utf8_app; [reflexivity|exact H]. Qed.

Lemma utf8_valid_app a b :
  utf8_valid a = true -> utf8_valid b = true -> utf8_valid (a +++ b) = true.
Proof.
  unfold utf8_valid. destruct (utf8_cps a) as [l|] eqn:E; [|discriminate].
  intros _. rewrite (utf8_cps_app a b l E). now destruct (utf8_cps b).
Qed.

(** [str::is_ascii]; used in proofs only, none in /repo. *)
Fixpoint ascii_only (s : string) : bool :=
  match s with "" => true | String c r => (bn c <? 128) && ascii_only r end.

Lemma ascii_only_valid s : ascii_only s = true -> utf8_valid s = true.
Proof.
  unfold utf8_valid. induction s as [|c s IH]; cbn; [reflexivity|].
  rewrite andb_true_iff. intros [H1 H2]. rewrite H1. specialize (IH H2).
  now destruct (utf8_cps s).
Qed.

Lemma ascii_only_app a b : ascii_only (a +++ b) = ascii_only a && ascii_only b.
Proof. induction a as [|c a IH]; cbn; [reflexivity|]. now rewrite IH, andb_assoc. Qed.

(** [char::encode_utf8] (Inside the serde_json_wasm crate, reading of backslash-u escapes.) *)
Definition utf8_enc (cp : N) : string :=
  if cp <? 128 then b1 cp
  else if cp <? 2048 then String (nb (192 + cp / 64)) (b1 (128 + cp mod 64))
  else if cp <? 65536 then
    String (nb (224 + cp / 4096))
      (String (nb (128 + cp / 64 mod 64)) (b1 (128 + cp mod 64)))
  else
    String (nb (240 + cp / 262144))
      (String (nb (128 + cp / 4096 mod 64))
        (String (nb (128 + cp / 64 mod 64)) (b1 (128 + cp mod 64)))).

(** A Rust [char]: a Unicode scalar value. (The characters of src/ibc/types/metadata.rs:164.) *)
Definition is_scalar (cp : N) : bool :=
  (cp <? 55296) || between 57344 1114111 cp.

Lemma utf8_enc_cps cp : is_scalar cp = true -> utf8_cps (utf8_enc cp) = Some [cp].
Proof.
  unfold is_scalar, between. intro H. unfold utf8_enc, b1.
  destruct (N.ltb_spec cp 128).
  { cbn [utf8_cps]. rewrite bn_nb by lia. now rewrite (proj2 (N.ltb_lt _ _)) by lia. }
  destruct (N.ltb_spec cp 2048).
  { cbn [utf8_cps]. unfold cont, between. rewrite !bn_nb by lia.
    rewrite (proj2 (N.ltb_ge _ _)) by lia.
    replace ((194 <=? 192 + cp / 64) && (192 + cp / 64 <=? 223)) with true by lia.
    replace ((128 <=? 128 + cp mod 64) && (128 + cp mod 64 <=? 191)) with true by lia.
    cbn [utf8_cps option_map]. apply (f_equal (fun v => Some [v])). lia. }
  destruct (N.ltb_spec cp 65536).
  { cbn [utf8_cps]. unfold cont, between. rewrite !bn_nb by lia.
    rewrite (proj2 (N.ltb_ge _ _)) by lia.
    replace ((194 <=? 224 + cp / 4096) && (224 + cp / 4096 <=? 223)) with false by lia.
    replace ((224 <=? 224 + cp / 4096) && (224 + cp / 4096 <=? 239)) with true by lia.
    match goal with |- (if ?g then _ else _) = _ => replace g with true end.
    - cbn [utf8_cps option_map]. apply (f_equal (fun v => Some [v])). lia.
    - destruct (N.eqb_spec (224 + cp / 4096) 224), (N.eqb_spec (224 + cp / 4096) 237); lia. }
  cbn [utf8_cps]. unfold cont, between. rewrite !bn_nb by lia.
  rewrite (proj2 (N.ltb_ge _ _)) by lia.
  replace ((194 <=? 240 + cp / 262144) && (240 + cp / 262144 <=? 223)) with false by lia.
  replace ((224 <=? 240 + cp / 262144) && (240 + cp / 262144 <=? 239)) with false by lia.
  replace ((240 <=? 240 + cp / 262144) && (240 + cp / 262144 <=? 244)) with true by lia.
  match goal with |- (if ?g then _ else _) = _ => replace g with true end.
  - cbn [utf8_cps option_map]. apply (f_equal (fun v => Some [v])). lia.
  - destruct (N.eqb_spec (240 + cp / 262144) 240), (N.eqb_spec (240 + cp / 262144) 244); lia.
Qed.
