(** * TextSpec: the texts of the interface, as grammars.

    UTF-8 (RFC 3629), decimal numbers, Base64 (RFC 4648) and JSON (RFC 8259),
    each as a relation between a text and what it means, without a parser.
    Specification only, none in /repo; nothing here uses a function of the
    model, except [json], the type of JSON trees. *)

From Verif Require Import Base Json.
Local Open Scope string_scope.
Local Open Scope list_scope.
Local Open Scope N_scope.

(** One byte, given by its number. *)
Definition byte (n : N) : string := String (ascii_of_N n) "".
Definition concat_map {A} (f : A -> string) (l : list A) : string := fold_right (fun a s => f a +++ s) "" l.

(** ** UTF-8 *)

(** A Unicode scalar value. *)
Definition scalar (cp : N) : Prop := cp <= 0xD7FF \/ 0xE000 <= cp <= 0x10FFFF.
(** The text of a scalar value: 7, 11, 16 or 21 bits, 6 in each byte after the first. *)
Definition encoded (cp : N) : string :=
  if cp <=? 0x7F then byte cp
  else if cp <=? 0x7FF then byte (0xC0 + cp / 2 ^ 6) +++ byte (0x80 + cp mod 2 ^ 6)
  else if cp <=? 0xFFFF then
    byte (0xE0 + cp / 2 ^ 12) +++ byte (0x80 + cp / 2 ^ 6 mod 2 ^ 6) +++ byte (0x80 + cp mod 2 ^ 6)
  else
    byte (0xF0 + cp / 2 ^ 18) +++ byte (0x80 + cp / 2 ^ 12 mod 2 ^ 6) +++ byte (0x80 + cp / 2 ^ 6 mod 2 ^ 6)
      +++ byte (0x80 + cp mod 2 ^ 6).
Definition utf8_text (s : string) (cps : list N) : Prop := Forall scalar cps /\ s = concat_map encoded cps.

(** ** Decimal numbers *)

Definition digits (ds : list N) : Prop := Forall (fun d => d < 10) ds.
Definition digits_text (ds : list N) : string := concat_map (fun d => byte (48 + d)) ds.
Definition digits_value (ds : list N) : N := fold_left (fun a d => 10 * a + d) ds 0.
(** Digits, leading zeros allowed. *)
Definition number_text (s : string) (n : N) : Prop :=
  exists ds, ds <> [] /\ digits ds /\ s = digits_text ds /\ n = digits_value ds.
(** An integer below [lim], possibly after a plus sign. *)
Definition uint_text (lim : N) (s : string) (n : N) : Prop :=
  n < lim /\ exists t, (s = t \/ s = "+" +++ t) /\ number_text t n.
(** A decimal fraction as a number of 10^-18: digits, or digits and up to 18
    digits after a point. *)
Definition decimal_text (s : string) (n : N) : Prop :=
  n < 2 ^ 128 /\
  ((exists w, uint_text (2 ^ 128) s w /\ n = w * 10 ^ 18) \/
   (exists a b w f, s = a +++ "." +++ b /\ uint_text (2 ^ 128) a w /\ uint_text (2 ^ 128) b f /\
      slen b <= 18 /\ n = w * 10 ^ 18 + f * 10 ^ (18 - slen b))).

(** ** Base64 *)

Definition alphabet : string := "ABCDEFGHIJKLMNOPQRSTUVWXYZabcdefghijklmnopqrstuvwxyz0123456789+/".
(** The [k] low bits of a number, most significant first. *)
Fixpoint bits (k : nat) (n : N) : list bool :=
  match k with O => [] | S k' => N.testbit n (N.of_nat k') :: bits k' n end.
Definition bytes_bits (s : string) : list bool := flat_map (fun c => bits 8 (N_of_ascii c)) (list_ascii_of_string s).
Definition symbols_bits (l : list N) : list bool := flat_map (bits 6) l.
Definition symbols_text (l : list N) (s : string) : Prop :=
  Forall2 (fun n c => String.get (N.to_nat n) alphabet = Some c) l (list_ascii_of_string s).
(** The bits in groups of six, the last one filled up with zeros; up to two
    characters that would be needed to fill up the last group of four symbols
    may be written as "=". *)
Definition padding (k : nat) : string := concat_map (fun _ : unit => "=") (repeat tt k).
Definition base64_text (s data : string) : Prop :=
  exists l t z k, symbols_text l t /\ symbols_bits l = bytes_bits data ++ repeat false z /\ (z < 6)%nat /\
    s = t +++ padding k /\ (List.length l + k <= 4 * ((List.length l + 3) / 4))%nat.

(** ** JSON *)

Definition blank (s : string) : Prop := Forall (fun c => In (N_of_ascii c) [0x20; 0x09; 0x0A; 0x0D]) (list_ascii_of_string s).

Definition hex (c : ascii) (n : N) : Prop :=
  String.get (N.to_nat n) "0123456789abcdef" = Some c \/ String.get (N.to_nat n) "0123456789ABCDEF" = Some c.
(** "\uXXXX" *)
Definition unit_escape (s : string) (u : N) : Prop :=
  exists a b c d x y z w, s = byte 92 +++ "u" +++ String a (String b (String c (String d ""))) /\
    hex a x /\ hex b y /\ hex c z /\ hex d w /\ u = x * 16 ^ 3 + y * 16 ^ 2 + z * 16 + w.
Definition escapes : list (N * N) :=
  [(34, 34); (92, 92); (47, 47); (98, 8); (102, 12); (110, 10); (114, 13); (116, 9)].

(** What stands between the quotes of a string, and the string. *)
Inductive chars : string -> string -> Prop :=
| chars_end : chars "" ""
| chars_plain c t x : 0x20 <= N_of_ascii c -> N_of_ascii c <> 34 -> N_of_ascii c <> 92 -> chars t x ->
    chars (String c t) (String c x)
| chars_escape e v t x : In (e, v) escapes -> chars t x -> chars (byte 92 +++ byte e +++ t) (byte v +++ x)
| chars_unicode s u t x : unit_escape s u -> scalar u -> chars t x -> chars (s +++ t) (encoded u +++ x)
| chars_pair s1 hi s2 lo t x : unit_escape s1 hi -> 0xD800 <= hi <= 0xDBFF ->
    unit_escape s2 lo -> 0xDC00 <= lo <= 0xDFFF -> chars t x ->
    chars (s1 +++ s2 +++ t) (encoded (0x10000 + (hi - 0xD800) * 2 ^ 10 + (lo - 0xDC00)) +++ x).
Definition quoted (s x : string) : Prop :=
  exists t, s = byte 34 +++ t +++ byte 34 /\ chars t x /\ exists cps, utf8_text x cps.

Inductive value_text : string -> json -> Prop :=
| value_null : value_text "null" JNull
| value_true : value_text "true" (JBool true)
| value_false : value_text "false" (JBool false)
| value_number s n ds : digits ds -> ds = [0] \/ (ds <> [] /\ hd 0 ds <> 0) ->
    s = digits_text ds -> n = digits_value ds -> value_text s (JNum n)
| value_string s x : quoted s x -> value_text s (JStr x)
| value_empty_array w : blank w -> value_text ("[" +++ w +++ "]") (JArr [])
| value_array s l : elements_text s l -> value_text ("[" +++ s +++ "]") (JArr l)
| value_empty_object w : blank w -> value_text ("{" +++ w +++ "}") (JObj [])
| value_object s l : members_text s l -> value_text ("{" +++ s +++ "}") (JObj l)
with elements_text : string -> list json -> Prop :=
| elements_one w s w' v : blank w -> value_text s v -> blank w' -> elements_text (w +++ s +++ w') [v]
| elements_more w s w' v r l : blank w -> value_text s v -> blank w' -> elements_text r l ->
    elements_text (w +++ s +++ w' +++ "," +++ r) (v :: l)
with members_text : string -> list (string * json) -> Prop :=
| members_one w1 k w2 w3 s w4 x v : blank w1 -> quoted k x -> blank w2 -> blank w3 -> value_text s v -> blank w4 ->
    members_text (w1 +++ k +++ w2 +++ ":" +++ w3 +++ s +++ w4) [(x, v)]
| members_more w1 k w2 w3 s w4 x v r l : blank w1 -> quoted k x -> blank w2 -> blank w3 -> value_text s v -> blank w4 ->
    members_text r l -> members_text (w1 +++ k +++ w2 +++ ":" +++ w3 +++ s +++ w4 +++ "," +++ r) ((x, v) :: l).

(** A JSON document. *)
Definition json_text (s : string) (j : json) : Prop :=
  exists w t w', s = w +++ t +++ w' /\ blank w /\ blank w' /\ value_text t j.
