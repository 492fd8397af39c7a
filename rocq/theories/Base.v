(** * Base: bytes, strings, options, results.

    Rust [String], [&str], [Vec<u8>] and [Binary] are all modelled by Coq's
    [string], read as a sequence of 8-bit bytes.  Where the Rust type is
    [String] the bytes are additionally valid UTF-8; that is a predicate
    ([Utf8.utf8_valid]), not a type. *)

From Coq Require Export String Ascii List NArith ZArith Lia Bool Arith.
From Coq Require Import ZifyBool ZifyNat ZifyN.
Export ListNotations.
Local Open Scope string_scope.
Local Open Scope N_scope.

(** Concatenation of byte strings. *)
Notation "a +++ b" := (String.append a b) (at level 60, right associativity).

(** Bytes as numbers and back. No counterpart in /repo: bytes ([u8]) as numbers. *)
Definition bn (c : ascii) : N := N_of_ascii c.
(** No counterpart in /repo: bytes ([u8]) as numbers. *)
Definition nb (n : N) : ascii := ascii_of_N n.

Lemma bn_nb n : n < 256 -> bn (nb n) = n.
Proof. exact (N_ascii_embedding n). Qed.

Lemma nb_bn c : nb (bn c) = c.
Proof. exact (ascii_N_embedding c). Qed.

Lemma bn_lt c : bn c < 256.
Proof. exact (N_ascii_bounded c). Qed.

Lemma bn_inj a b : bn a = bn b -> a = b.
Proof. intro H. rewrite <- (nb_bn a), <- (nb_bn b), H. reflexivity. Qed.

(** One-byte string. (No counterpart in /repo.) *)
Definition b1 (n : N) : string := String (nb n) EmptyString.

(** ** String lemmas missing from the standard library *)

Lemma sapp_assoc (a b c : string) : (a +++ b) +++ c = a +++ (b +++ c).
Proof. induction a as [|x a IH]; cbn; [reflexivity|]. now rewrite IH. Qed.

Lemma sapp_nil_r (a : string) : a +++ "" = a.
Proof. induction a as [|x a IH]; cbn; [reflexivity|]. now rewrite IH. Qed.

Lemma slen_app (a b : string) :
  String.length (a +++ b) = (String.length a + String.length b)%nat.
Proof. induction a as [|x a IH]; cbn; [reflexivity|]. now rewrite IH. Qed.

Lemma sapp_inj_l (a b c : string) : a +++ b = a +++ c -> b = c.
Proof. induction a as [|x a IH]; cbn; [auto|]. intro H. inversion H. auto. Qed.

Lemma sapp_inj_len (a b c d : string) :
  String.length a = String.length c -> a +++ b = c +++ d -> a = c /\ b = d.
Proof.
  revert c. induction a as [|x a IH]; intros [|y c]; cbn; intros Hl H;
    try discriminate; [auto|].
  injection H as -> H. injection Hl as Hl.
  destruct (IH c Hl H) as [-> ->]. auto.
Qed.

(** First [n] bytes and the rest; [None] if the string is shorter.
    ([slice::split_at], inside prost and serde_json_wasm; none in /repo.) *)
Fixpoint stake (n : nat) (s : string) : option (string * string) :=
  match n with
  | O => Some ("", s)
  | S n' =>
      match s with
      | "" => None
      | String c r =>
          match stake n' r with
          | Some (a, b) => Some (String c a, b)
          | None => None
          end
      end
  end.

Lemma stake_app a b : stake (String.length a) (a +++ b) = Some (a, b).
Proof. induction a as [|x a IH]; cbn; [reflexivity|]. now rewrite IH. Qed.

Lemma stake_spec n s a b :
  stake n s = Some (a, b) -> s = a +++ b /\ String.length a = n.
Proof.
  revert s a b. induction n as [|n IH]; cbn; intros s a b H.
  - now inversion H; subst.
  - destruct s as [|c r]; [discriminate|].
    destruct (stake n r) as [[a' b']|] eqn:E; [|discriminate].
    inversion H; subst. apply IH in E as [-> <-]. auto.
Qed.

(** No counterpart in /repo: concatenation of a list of byte strings. *)
Fixpoint sconcat (l : list string) : string :=
  match l with
  | [] => ""
  | x :: r => x +++ sconcat r
  end.

Lemma sconcat_app l1 l2 : sconcat (l1 ++ l2) = sconcat l1 +++ sconcat l2.
Proof.
  induction l1 as [|x l IH]; cbn; [reflexivity|]. now rewrite IH, sapp_assoc.
Qed.

(** [str::is_empty]
    (src/ibc/handshake.rs:116, 169; src/ibc/types/metadata.rs:135; src/types/query_msg.rs:535,
    541, 553.) *)
Definition sempty (s : string) : bool :=
  match s with "" => true | _ => false end.

Lemma sempty_spec s : sempty s = true <-> s = "".
Proof. destruct s; cbn; split; congruence. Qed.

(** [str::starts_with] (src/types/query_msg.rs:461-464.) *)
Definition starts_with (pre s : string) : bool := String.prefix pre s.

(** Length of a byte string as a number ([str::len], [Vec::len]).
    (src/ibc/types/metadata.rs:164.) *)
Definition slen (s : string) : N := N.of_nat (String.length s).

(** ** Options *)

(** [Option::and_then] (src/types/query_msg.rs:606); also used to chain the steps of the
    decoders and of the chain. *)
Definition obind {A B} (o : option A) (f : A -> option B) : option B :=
  match o with Some a => f a | None => None end.
Notation "x <-? e ;; k" := (obind e (fun x => k))
  (at level 61, e at next level, right associativity).
Notation "' p <-? e ;; k" := (obind e (fun p => k))
  (at level 61, p pattern, e at next level, right associativity).

(** [Option::is_some]; no counterpart in /repo. *)
Definition is_some {A} (o : option A) : bool :=
  match o with Some _ => true | None => false end.

(** [Option::unwrap_or], [unwrap_or_default] (src/ibc/types/packet.rs:187,
    src/types/cosmos_msg.rs:123, 154, 198, src/ibc/types/stargate.rs:38). *)
Definition unwrap_or {A} (o : option A) (d : A) : A :=
  match o with Some a => a | None => d end.

Lemma obind_some {A B} (o : option A) (f : A -> option B) b :
  obind o f = Some b <-> exists a, o = Some a /\ f a = Some b.
Proof.
  destruct o as [a|]; cbn; split.
  - intro H; exists a; auto.
  - intros (x & Hx & Hf). now inversion Hx; subst.
  - discriminate.
  - intros (x & Hx & _). discriminate.
Qed.

(** All-or-nothing map ([Iterator::collect::<Result<Vec<_>,_>>]).
    (Same shape as src/types/query_msg.rs:46-50; here used by the decoders of lists.) *)
Fixpoint omap {A B} (f : A -> option B) (l : list A) : option (list B) :=
  match l with
  | [] => Some []
  | x :: r => y <-? f x ;; ys <-? omap f r ;; Some (y :: ys)
  end.

Lemma omap_map {A B C} (f : A -> option B) (g : C -> A) (h : C -> B) l :
  (forall x, In x l -> f (g x) = Some (h x)) ->
  omap f (map g l) = Some (map h l).
Proof.
  induction l as [|x l IH]; cbn; intro H; [reflexivity|].
  rewrite H by auto. cbn. rewrite IH by auto. reflexivity.
Qed.

Lemma omap_length {A B} (f : A -> option B) l r :
  omap f l = Some r -> length r = length l.
Proof.
  revert r. induction l as [|x l IH]; cbn; intros r H.
  - now inversion H.
  - destruct (f x); [|discriminate]. destruct (omap f l) as [ys|]; [|discriminate].
    cbn in H. inversion H. cbn. now rewrite (IH ys).
Qed.

(** ** Machine integers *)

(** Bound of Rust's u64 (e.g. src/types/msg.rs:63). *)
Definition u64_max : N := 18446744073709551615.
(** Bound of Rust's u64 (e.g. src/types/msg.rs:63). *)
Definition u64_lim : N := 18446744073709551616.
(** Bound of Rust's u128 (Uint128, src/types/query_msg.rs:399). *)
Definition u128_lim : N := 340282366920938463463374607431768211456.
(** Bound of Rust's u32 (e.g. src/ibc/types/packet.rs:38). *)
Definition u32_lim : N := 4294967296.

(** Case analysis on a byte by its 8 bits. *)
Lemma ascii_all (P : ascii -> bool) :
  (forallb P (map nb (map N.of_nat (seq 0 256))) = true) -> forall c, P c = true.
Proof.
  intros H c. rewrite forallb_forall in H. apply H.
  apply in_map_iff. exists (bn c). split; [apply nb_bn|].
  apply in_map_iff. exists (N.to_nat (bn c)). split; [lia|].
  apply in_seq. pose proof (bn_lt c). lia.
Qed.

(** Numbers below a small bound, by computation. *)
Lemma below_all (P : N -> bool) (k : nat) :
  forallb P (map N.of_nat (seq 0 k)) = true ->
  forall n, n < N.of_nat k -> P n = true.
Proof.
  intros H n Hn. rewrite forallb_forall in H. apply H.
  apply in_map_iff. exists (N.to_nat n). split; [lia|].
  apply in_seq. lia.
Qed.
