(** * Json: the JSON layer, serde_json_wasm as called by
    [cosmwasm_std::to_json_binary]/[from_json] and [serde_json_wasm::from_str].

    Used by the contract in src/ibc/types/metadata.rs:145-155 (metadata text),
    src/ibc/handshake.rs:120,161 (parsing metadata), src/ibc/types/packet.rs:190
    (packet data), src/ibc/relay.rs:32 (acknowledgements), and
    src/types/callbacks.rs:67-70 (callbacks).

    Simplifications.
    - Documents are parsed to a tree which is then decoded; serde decodes while
      parsing.  Accepted documents and results are the same for the types used
      here (serde only differs in which error it reports).
    - Numbers are non-negative integers: no type in the contract's interface
      has a negative or fractional JSON number.  A negative number or a
      fraction is a parse failure in both.
    - serde_json_wasm's recursion limit (128) is not modelled: every type in
      the contract's interface has a small fixed depth.
    - A raw control character inside a string literal is a parse failure. *)

From Verif Require Import Base Utf8 Text Base64.
From Coq Require Import ZifyBool ZifyNat ZifyN.
Local Open Scope string_scope.
Local Open Scope N_scope.

(** The JSON data model (serde_json_wasm crate), restricted as said above. *)
Inductive json : Type :=
| JNull
| JBool (b : bool)
| JNum (n : N)
| JStr (s : string)
| JArr (l : list json)
| JObj (l : list (string * json)).

Section JsonInd.
  Variable P : json -> Prop.
  Hypothesis Hnull : P JNull.
  Hypothesis Hbool : forall b, P (JBool b).
  Hypothesis Hnum : forall n, P (JNum n).
  Hypothesis Hstr : forall s, P (JStr s).
  Hypothesis Harr : forall l, Forall P l -> P (JArr l).
  Hypothesis Hobj : forall l, Forall (fun kv => P (snd kv)) l -> P (JObj l).
  (** Induction principle for [json]; proof device, none in /repo. *)
  Fixpoint json_ind' (j : json) : P j :=
    match j with
    | JNull => Hnull
    | JBool b => Hbool b
    | JNum n => Hnum n
    | JStr s => Hstr s
    | JArr l => Harr l ((fix go l : Forall P l :=
        match l with [] => Forall_nil _ | x :: r => Forall_cons x (json_ind' x) (go r) end) l)
    | JObj l => Hobj l ((fix go l : Forall (fun kv => P (snd kv)) l :=
        match l with
        | [] => Forall_nil _
        | kv :: r => Forall_cons kv (json_ind' (snd kv)) (go r)
        end) l)
    end.
End JsonInd.

(** ** Printing (compact, as serde_json_wasm::to_string) *)

(** Characters of string literals (serde_json_wasm crate). *)
Definition quote : ascii := nb 34.
(** Characters of string literals (serde_json_wasm crate). *)
Definition bslash : ascii := nb 92.

(** Characters of string literals (serde_json_wasm crate). *)
Definition hex_digit (n : N) : ascii :=
  if n <? 10 then nb (48 + n) else nb (55 + n).

(** Escape of one byte inside a string literal.
    (serde_json_wasm::ser, called in src/ibc/types/metadata.rs:147,
    src/ibc/types/packet.rs:190, src/types/callbacks.rs:69.) *)
Definition esc_char (c : ascii) : string :=
  let x := bn c in
  if x =? 34 then String bslash (String quote "")
  else if x =? 92 then String bslash (String bslash "")
  else if x =? 8 then String bslash "b"
  else if x =? 9 then String bslash "t"
  else if x =? 10 then String bslash "n"
  else if x =? 12 then String bslash "f"
  else if x =? 13 then String bslash "r"
  else if x <? 32 then
    String bslash ("u00" +++ String (hex_digit (x / 16)) (String (hex_digit (x mod 16)) ""))
  else String c "".

(** serde_json_wasm::to_string / to_vec (src/ibc/types/metadata.rs:147,
    src/ibc/types/packet.rs:190, src/types/callbacks.rs:69). *)
Fixpoint esc (s : string) : string :=
  match s with "" => "" | String c r => esc_char c +++ esc r end.

(** serde_json_wasm::to_string / to_vec (src/ibc/types/metadata.rs:147,
    src/ibc/types/packet.rs:190, src/types/callbacks.rs:69). *)
Definition jstr_print (s : string) : string :=
  String quote (esc s +++ String quote "").

(** serde_json_wasm::to_string / to_vec (src/ibc/types/metadata.rs:147,
    src/ibc/types/packet.rs:190, src/types/callbacks.rs:69). *)
Fixpoint jprint (j : json) : string :=
  match j with
  | JNull => "null"
  | JBool true => "true"
  | JBool false => "false"
  | JNum n => dec n
  | JStr s => jstr_print s
  | JArr [] => "[]"
  | JArr (x :: l) =>
      "[" +++ jprint x +++
      (fix go l := match l with [] => "]" | y :: r => "," +++ jprint y +++ go r end) l
  | JObj [] => "{}"
  | JObj ((k, v) :: l) =>
      "{" +++ jstr_print k +++ ":" +++ jprint v +++
      (fix go l := match l with
        | [] => "}"
        | (k, v) :: r => "," +++ jstr_print k +++ ":" +++ jprint v +++ go r
        end) l
  end.

(** ** Parsing *)

(** serde_json_wasm crate, de: white space. *)
Definition is_ws (c : ascii) : bool :=
  let x := bn c in (x =? 32) || (x =? 10) || (x =? 9) || (x =? 13).

(** serde_json_wasm crate, de: white space. *)
Fixpoint skip_ws (s : string) : string :=
  match s with
  | "" => ""
  | String c r => if is_ws c then skip_ws r else s
  end.

(** Strip a literal prefix. (serde_json_wasm crate, de.) *)
Fixpoint eat (pre s : string) : option string :=
  match pre with
  | "" => Some s
  | String c p =>
      match s with
      | String d r => if Ascii.eqb c d then eat p r else None
      | "" => None
      end
  end.

(** serde_json_wasm crate, de: escapes in string literals. *)
Definition hex_val (c : ascii) : option N :=
  let x := bn c in
  if between 48 57 x then Some (x - 48)
  else if between 65 70 x then Some (x - 55)
  else if between 97 102 x then Some (x - 87)
  else None.

(** serde_json_wasm crate, de: escapes in string literals. *)
Definition hex4 (a b c d : ascii) : option N :=
  x <-? hex_val a ;; y <-? hex_val b ;; z <-? hex_val c ;; w <-? hex_val d ;;
  Some (x * 4096 + y * 256 + z * 16 + w).

(** serde_json_wasm crate, de: escapes in string literals. *)
Definition simple_escape (e : ascii) : option string :=
  let x := bn e in
  if x =? 34 then Some (b1 34)
  else if x =? 92 then Some (b1 92)
  else if x =? 47 then Some (b1 47)
  else if x =? 98 then Some (b1 8)
  else if x =? 102 then Some (b1 12)
  else if x =? 110 then Some (b1 10)
  else if x =? 114 then Some (b1 13)
  else if x =? 116 then Some (b1 9)
  else None.

(** Body of a string literal after the opening quote: contents and rest.
    (serde_json_wasm crate, de.) *)
Fixpoint pstr (s : string) : option (string * string) :=
  match s with
  | "" => None
  | String c r =>
      if bn c =? 34 then Some ("", r)
      else if bn c =? 92 then
        match r with
        | String e r1 =>
            if bn e =? 117 then
              match r1 with
              | String h1 (String h2 (String h3 (String h4 r2))) =>
                  u <-? hex4 h1 h2 h3 h4 ;;
                  if between 55296 56319 u then
                    match r2 with
                    | String k1 (String k2 (String g1 (String g2 (String g3 (String g4 r3))))) =>
                        if (bn k1 =? 92) && (bn k2 =? 117) then
                          lo <-? hex4 g1 g2 g3 g4 ;;
                          if between 56320 57343 lo then
                            ' (x, rest) <-? pstr r3 ;;
                            Some (utf8_enc (65536 + (u - 55296) * 1024 + (lo - 56320)) +++ x, rest)
                          else None
                        else None
                    | _ => None
                    end
                  else if between 56320 57343 u then None
                  else ' (x, rest) <-? pstr r2 ;; Some (utf8_enc u +++ x, rest)
              | _ => None
              end
            else
              t <-? simple_escape e ;;
              ' (x, rest) <-? pstr r1 ;; Some (t +++ x, rest)
        | _ => None
        end
      else if bn c <? 32 then None
      else ' (x, rest) <-? pstr r ;; Some (String c x, rest)
  end.

(** serde_json_wasm crate, de: a string literal, whose content must be UTF-8. *)
Definition pjstr (r : string) : option (string * string) :=
  ' (x, rest) <-? pstr r ;; if utf8_valid x then Some (x, rest) else None.

(** serde_json_wasm crate, de: the digits of a number. *)
Fixpoint pnum_acc (acc : N) (s : string) : N * string :=
  match s with
  | "" => (acc, "")
  | String c r =>
      if is_digit c then pnum_acc (acc * 10 + digit_val c) r else (acc, s)
  end.

(** A number starting with digit [c]; no leading zeros. (serde_json_wasm crate, de.) *)
Definition pnum (c : ascii) (r : string) : N * string :=
  if bn c =? 48 then (0, r) else pnum_acc (digit_val c) r.

(** serde_json_wasm crate, de: a value, the rest of an array, the rest of an object; the
    length of the input is the fuel. *)
Fixpoint pval (fuel : nat) (s : string) : option (json * string) :=
  match fuel with
  | O => None
  | S f =>
      match skip_ws s with
      | "" => None
      | String c r =>
          if bn c =? 34 then ' (x, r1) <-? pjstr r ;; Some (JStr x, r1)
          else if bn c =? 91 then
            match eat "]" (skip_ws r) with
            | Some r1 => Some (JArr [], r1)
            | None => ' (l, r1) <-? parr f r ;; Some (JArr l, r1)
            end
          else if bn c =? 123 then
            match eat "}" (skip_ws r) with
            | Some r1 => Some (JObj [], r1)
            | None => ' (l, r1) <-? pobj f r ;; Some (JObj l, r1)
            end
          else if is_digit c then let (n, r1) := pnum c r in Some (JNum n, r1)
          else if bn c =? 110 then r1 <-? eat "ull" r ;; Some (JNull, r1)
          else if bn c =? 116 then r1 <-? eat "rue" r ;; Some (JBool true, r1)
          else if bn c =? 102 then r1 <-? eat "alse" r ;; Some (JBool false, r1)
          else None
      end
  end
(** serde_json_wasm crate, de: a value, the rest of an array, the rest of an object; the
    length of the input is the fuel. *)
with parr (fuel : nat) (s : string) : option (list json * string) :=
  match fuel with
  | O => None
  | S f =>
      ' (v, r) <-? pval f s ;;
      match skip_ws r with
      | String c r1 =>
          if bn c =? 44 then ' (l, r2) <-? parr f r1 ;; Some (v :: l, r2)
          else if bn c =? 93 then Some ([v], r1)
          else None
      | "" => None
      end
  end
(** serde_json_wasm crate, de: a value, the rest of an array, the rest of an object; the
    length of the input is the fuel. *)
with pobj (fuel : nat) (s : string) : option (list (string * json) * string) :=
  match fuel with
  | O => None
  | S f =>
      match skip_ws s with
      | String q r =>
          if bn q =? 34 then
            ' (k, r1) <-? pjstr r ;;
            r2 <-? eat ":" (skip_ws r1) ;;
            ' (v, r3) <-? pval f r2 ;;
            match skip_ws r3 with
            | String c r4 =>
                if bn c =? 44 then ' (l, r5) <-? pobj f r4 ;; Some ((k, v) :: l, r5)
                else if bn c =? 125 then Some ([(k, v)], r4)
                else None
            | "" => None
            end
          else None
      | "" => None
      end
  end.

(** A whole document: one value, then only white space.
    (The serde_json_wasm crate: [from_json], src/ibc/relay.rs:32; [from_str],
    src/ibc/handshake.rs:120, 161, src/ibc/types/metadata.rs:90.) *)
Definition jparse (s : string) : option json :=
  ' (j, r) <-? pval (S (String.length s)) s ;;
  if sempty (skip_ws r) then Some j else None.

(** ** Round trip *)

(** Trees whose strings are Rust strings; for statements and proofs only, none in /repo. *)
Fixpoint jwf (j : json) : bool :=
  match j with
  | JStr s => utf8_valid s
  | JArr l => (fix go l := match l with [] => true | x :: r => jwf x && go r end) l
  | JObj l => (fix go l := match l with
      | [] => true | (k, v) :: r => utf8_valid k && jwf v && go r end) l
  | _ => true
  end.

(** Proof device, none in /repo. *)
Definition nodig (s : string) : bool :=
  match s with "" => true | String c _ => negb (is_digit c) end.

Lemma pstr_esc_char c s x rest :
  pstr s = Some (x, rest) -> pstr (esc_char c +++ s) = Some (String c x, rest).
Proof.
  intro H.
  assert (C : bn c < 32 \/ 32 <= bn c) by lia.
  destruct C as [C|C].
  - assert (D : forall n, n < 32 -> forall s x rest, pstr s = Some (x, rest) ->
        pstr (esc_char (nb n) +++ s) = Some (String (nb n) x, rest)).
    { clear. intros n Hn s x rest H.
      assert (E : exists k, (k < 32)%nat /\ n = N.of_nat k) by (exists (N.to_nat n); lia).
      destruct E as (k & Hk & ->).
      do 32 (destruct k as [|k];
        [cbn -[pstr]; cbn [pstr]; rewrite H; reflexivity|]). lia. }
    rewrite <- (nb_bn c). apply D; assumption.
  - unfold esc_char.
    destruct (N.eqb_spec (bn c) 34) as [E|E34].
    { cbn [String.append pstr]. change (bn bslash =? 34) with false.
      change (bn bslash =? 92) with true. change (bn quote =? 117) with false.
      change (simple_escape quote) with (Some (b1 34)). cbn [obind].
      rewrite H. cbn [obind]. unfold b1. cbn [String.append].
      now rewrite <- E, nb_bn. }
    destruct (N.eqb_spec (bn c) 92) as [E|E92].
    { cbn [String.append pstr]. change (bn bslash =? 34) with false.
      change (bn bslash =? 92) with true. change (bn bslash =? 117) with false.
      change (simple_escape bslash) with (Some (b1 92)). cbn [obind].
      rewrite H. cbn [obind]. unfold b1. cbn [String.append].
      now rewrite <- E, nb_bn. }
    rewrite !(proj2 (N.eqb_neq (bn c) _)) by lia.
    rewrite (proj2 (N.ltb_ge _ _)) by lia.
    cbn [String.append pstr].
    rewrite !(proj2 (N.eqb_neq (bn c) _)) by lia.
    rewrite (proj2 (N.ltb_ge _ _)) by lia.
    now rewrite H.
Qed.

Lemma pstr_esc s rest : pstr (esc s +++ String quote rest) = Some (s, rest).
Proof.
  induction s as [|c s IH]; cbn [esc].
  - reflexivity.
  - rewrite sapp_assoc. now apply pstr_esc_char.
Qed.

Lemma pjstr_esc s rest : utf8_valid s = true ->
  pjstr (esc s +++ String quote rest) = Some (s, rest).
Proof. intro H. unfold pjstr. rewrite pstr_esc. cbn [obind]. now rewrite H. Qed.

Lemma pnum_acc_digits s : forall a rest n,
  all_chars is_digit s = true -> nodig rest = true -> pdec_acc a s = Some n ->
  pnum_acc a (s +++ rest) = (n, rest).
Proof.
  induction s as [|c s IH]; intros a rest n Hd Hr Hp; cbn in *.
  - inversion Hp; subst. destruct rest as [|c r]; cbn in *; [reflexivity|].
    destruct (is_digit c); [discriminate|reflexivity].
  - apply andb_true_iff in Hd as [Hc Hd]. rewrite Hc in *.
    apply IH; assumption.
Qed.

Lemma pnum_dec n c s rest : dec n = String c s -> nodig rest = true ->
  pnum c (s +++ rest) = (n, rest).
Proof.
  intros E Hr. unfold pnum.
  pose proof (dec_digits n) as Hd. rewrite E in Hd. cbn in Hd.
  apply andb_true_iff in Hd as [Hc Hd].
  pose proof (pdec_dec n) as Hp. rewrite E in Hp. cbn in Hp. rewrite Hc in Hp.
  destruct (N.eqb_spec (bn c) 48) as [H0|H0].
  - assert (n = 0).
    { destruct (N.eq_dec n 0) as [|Hn]; [assumption|].
      exfalso. apply (dec_head n c s E Hn). apply bn_inj. exact H0. }
    subst n. rewrite dec_0 in E. inversion E; subst. reflexivity.
  - apply pnum_acc_digits; assumption.
Qed.

Lemma is_digit_not c : is_digit c = true ->
  bn c =? 34 = false /\ bn c =? 91 = false /\ bn c =? 123 = false /\ is_ws c = false.
Proof. unfold is_digit, is_ws. lia. Qed.

Lemma skip_ws_nows c s : is_ws c = false -> skip_ws (String c s) = String c s.
Proof. intro H. cbn. now rewrite H. Qed.

(** Proof device, none in /repo. *)
Definition head_ok (s : string) : Prop :=
  exists c r, s = String c r /\ is_ws c = false /\ Ascii.eqb "]" c = false.

Lemma jprint_head j : head_ok (jprint j).
Proof.
  destruct j as [|[]|n|s|[|x l]|[|[k v] l]];
    try (cbn -[String.append]; do 2 eexists; split; [reflexivity|split; reflexivity]).
  cbn [jprint]. destruct (dec_nonempty n) as (c & r & E). rewrite E.
  exists c, r. split; [reflexivity|].
  pose proof (dec_digits n) as Hd. rewrite E in Hd. cbn in Hd.
  apply andb_true_iff in Hd as [Hc _].
  split; [apply is_digit_not, Hc|].
  destruct (Ascii.eqb_spec "]" c) as [<-|]; [discriminate Hc|reflexivity].
Qed.

Lemma skip_ws_head s t : head_ok s -> skip_ws (s +++ t) = s +++ t.
Proof. intros (c & r & -> & H & _). cbn [String.append]. now apply skip_ws_nows. Qed.

Lemma eat_bracket_head s t : head_ok s -> eat "]" (s +++ t) = None.
Proof. intros (c & r & -> & _ & H). cbn [String.append eat]. now rewrite H. Qed.

(** Proof device, none in /repo. *)
Fixpoint jarr_tail (l : list json) : string :=
  match l with [] => "]" | y :: r => "," +++ jprint y +++ jarr_tail r end.
(** Proof device, none in /repo. *)
Fixpoint jobj_tail (l : list (string * json)) : string :=
  match l with
  | [] => "}"
  | (k, v) :: r => "," +++ jstr_print k +++ ":" +++ jprint v +++ jobj_tail r
  end.

Lemma jprint_arr x l : jprint (JArr (x :: l)) = "[" +++ jprint x +++ jarr_tail l.
Proof. reflexivity. Qed.
Lemma jprint_obj k v l :
  jprint (JObj ((k, v) :: l)) =
  "{" +++ jstr_print k +++ ":" +++ jprint v +++ jobj_tail l.
Proof. reflexivity. Qed.

(** Proof device, none in /repo. *)
Definition Pj (j : json) : Prop := jwf j = true -> forall fuel rest,
  (String.length (jprint j) < fuel)%nat -> nodig rest = true ->
  pval fuel (jprint j +++ rest) = Some (j, rest).

Lemma nodig_arr_tail l rest : nodig (jarr_tail l +++ rest) = true.
Proof. destruct l; reflexivity. Qed.
Lemma nodig_obj_tail l rest : nodig (jobj_tail l +++ rest) = true.
Proof. destruct l as [|[k v] l]; reflexivity. Qed.

Lemma parr_print l : Forall Pj l -> forall x fuel rest, Pj x ->
  jwf (JArr (x :: l)) = true ->
  (String.length (jprint x +++ jarr_tail l) < fuel)%nat ->
  parr fuel (jprint x +++ jarr_tail l +++ rest) = Some (x :: l, rest).
Proof.
  induction 1 as [|y l Hy Hl IH]; intros x fuel rest Hx Hwf Hf.
  - destruct fuel as [|f]; [lia|]. cbn [parr].
    rewrite slen_app in Hf. cbn [jarr_tail String.length] in Hf.
    cbn in Hwf. rewrite andb_true_r in Hwf.
    rewrite Hx by (try assumption; try reflexivity; lia). reflexivity.
  - destruct fuel as [|f]; [lia|]. cbn [parr].
    rewrite slen_app in Hf.
    change (jwf (JArr (x :: y :: l))) with (jwf x && jwf (JArr (y :: l))) in Hwf.
    apply andb_true_iff in Hwf as [H1 H2].
    cbn [jarr_tail] in *. rewrite !slen_app in Hf. cbn [String.length] in Hf.
    rewrite Hx by (try assumption; try reflexivity; lia).
    cbn [obind]. rewrite !sapp_assoc. cbn [String.append].
    rewrite skip_ws_nows by reflexivity.
    change (bn "," =? 44) with true. cbn iota.
    rewrite IH; [reflexivity|assumption|assumption|].
    rewrite slen_app. lia.
Qed.

Lemma pobj_print l : Forall (fun kv => Pj (snd kv)) l -> forall k x fuel rest, Pj x ->
  jwf (JObj ((k, x) :: l)) = true ->
  (String.length (jstr_print k +++ ":" +++ jprint x +++ jobj_tail l) < fuel)%nat ->
  pobj fuel (jstr_print k +++ ":" +++ jprint x +++ jobj_tail l +++ rest)
    = Some ((k, x) :: l, rest).
Proof.
  induction 1 as [|[k' y] l Hy Hl IH]; intros k x fuel rest Hx Hwf Hf.
  - destruct fuel as [|f]; [lia|]. cbn [pobj]. unfold jstr_print.
    cbn [String.append]. rewrite skip_ws_nows by reflexivity.
    change (bn quote =? 34) with true. cbn iota.
    rewrite sapp_assoc. cbn [String.append].
    cbn in Hwf. apply andb_true_iff in Hwf as [Hwf _]. apply andb_true_iff in Hwf as [Hk Hv].
    rewrite pjstr_esc by assumption. cbn [obind].
    rewrite skip_ws_nows by reflexivity. cbn [eat Ascii.eqb Bool.eqb andb obind].
    rewrite !slen_app in Hf. cbn [String.length jobj_tail] in Hf.
    rewrite Hx by (try assumption; try reflexivity; lia).
    reflexivity.
  - destruct fuel as [|f]; [lia|]. cbn [pobj]. unfold jstr_print at 1.
    cbn [String.append]. rewrite skip_ws_nows by reflexivity.
    change (bn quote =? 34) with true. cbn iota.
    rewrite sapp_assoc. cbn [String.append].
    change (jwf (JObj ((k, x) :: (k', y) :: l)))
      with (utf8_valid k && jwf x && jwf (JObj ((k', y) :: l))) in Hwf.
    apply andb_true_iff in Hwf as [Hwf Hrest]. apply andb_true_iff in Hwf as [Hk Hv].
    rewrite pjstr_esc by assumption. cbn [obind].
    rewrite skip_ws_nows by reflexivity. cbn [eat Ascii.eqb Bool.eqb andb obind].
    rewrite !slen_app in Hf. cbn [String.length] in Hf. cbn [jobj_tail] in *.
    rewrite !slen_app in Hf. cbn [String.length] in Hf.
    rewrite Hx by (try assumption; try reflexivity; lia).
    cbn [obind]. rewrite !sapp_assoc. cbn [String.append].
    rewrite skip_ws_nows by reflexivity.
    change (bn "," =? 44) with true. cbn iota.
    rewrite ?sapp_assoc.
    change (String ":" (jprint y +++ jobj_tail l +++ rest))
      with (":" +++ jprint y +++ jobj_tail l +++ rest).
    rewrite IH; [reflexivity|assumption|assumption|].
    rewrite !slen_app. cbn [String.length]. lia.
Qed.

Lemma pval_print j : Pj j.
Proof.
  induction j using json_ind'; unfold Pj; intros Hwf fuel rest Hf Hr;
    (destruct fuel as [|f]; [lia|]).
  - reflexivity.
  - destruct b; reflexivity.
  - cbn [jprint pval]. destruct (dec_nonempty n) as (c & r & E). rewrite E.
    cbn [String.append].
    pose proof (dec_digits n) as Hd. rewrite E in Hd. cbn in Hd.
    apply andb_true_iff in Hd as [Hc _].
    destruct (is_digit_not c Hc) as (H1 & H2 & H3 & H4).
    rewrite skip_ws_nows by exact H4. rewrite H1, H2, H3, Hc.
    now rewrite (pnum_dec n c r rest E Hr).
  - cbn [jprint pval]. unfold jstr_print. cbn [String.append].
    rewrite skip_ws_nows by reflexivity. change (bn quote =? 34) with true. cbn iota.
    rewrite sapp_assoc. cbn [String.append]. cbn in Hwf.
    now rewrite pjstr_esc by exact Hwf.
  - destruct l as [|x l]; [reflexivity|].
    rewrite jprint_arr in *. inversion H; subst.
    cbn [String.append pval]. rewrite skip_ws_nows by reflexivity.
    change (bn "[" =? 34) with false. change (bn "[" =? 91) with true. cbn iota.
    rewrite !sapp_assoc, skip_ws_head by apply jprint_head.
    rewrite eat_bracket_head by apply jprint_head.
    rewrite parr_print; [reflexivity|assumption|assumption|assumption|].
    cbn [String.append String.length] in Hf. lia.
  - destruct l as [|[k x] l]; [reflexivity|].
    rewrite jprint_obj in *. inversion H; subst.
    cbn [String.append pval]. rewrite skip_ws_nows by reflexivity.
    change (bn "{" =? 34) with false. change (bn "{" =? 91) with false.
    change (bn "{" =? 123) with true. cbn iota.
    change (eat "}" (skip_ws ((jstr_print k +++ String ":" (jprint x +++ jobj_tail l)) +++ rest)))
      with (@None string). cbn iota.
    rewrite !sapp_assoc. cbn [String.append]. rewrite !sapp_assoc.
    change (String ":" (jprint x +++ jobj_tail l +++ rest))
      with (":" +++ jprint x +++ jobj_tail l +++ rest).
    rewrite pobj_print; [reflexivity|assumption|assumption|assumption|].
    cbn [String.append String.length] in Hf |- *. lia.
Qed.

(** Every document prints to text that parses back to it. *)
Lemma jparse_print j : jwf j = true -> jparse (jprint j) = Some j.
Proof.
  intro H. unfold jparse.
  rewrite <- (sapp_nil_r (jprint j)) at 2.
  rewrite pval_print; [reflexivity|exact H|lia|reflexivity].
Qed.

Lemma jprint_inj a b : jwf a = true -> jwf b = true -> jprint a = jprint b -> a = b.
Proof.
  intros Ha Hb H. apply jparse_print in Ha, Hb. rewrite H in Ha. congruence.
Qed.

(** Printed documents are valid UTF-8. *)
Lemma utf8_valid_cons c s : bn c < 128 -> utf8_valid s = true -> utf8_valid (String c s) = true.
Proof.
  intros Hc Hs. unfold utf8_valid in *. cbn [utf8_cps].
  rewrite (proj2 (N.ltb_lt _ _) Hc). now destruct (utf8_cps s).
Qed.
