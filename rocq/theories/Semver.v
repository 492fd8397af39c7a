(** * Semver: the semver crate (1.x), as used in src/contract.rs:323-325.
    External library, transcribed from its source: parsing of
    MAJOR.MINOR.PATCH[-pre][+build] and the total order of [Version]. *)

From Verif Require Import Base Text.
Local Open Scope string_scope.
Local Open Scope N_scope.

(** semver::Version (src/contract.rs:323-324). *)
Record version := Version { vr_nums : N * N * N; vr_pre : list string; vr_build : list string }.

(** Longest prefix of characters satisfying [p], and the rest.
    (semver crate, part of the parser.) *)
Fixpoint span (p : ascii -> bool) (s : string) : string * string :=
  match s with
  | "" => ("", "")
  | String c r => if p c then let (x, y) := span p r in (String c x, y) else ("", s)
  end.

(** (semver crate; src/contract.rs:323-324.) *)
Definition lead0 (d : string) : bool :=
  match d with String c (String _ _) => Ascii.eqb c "0"%char | _ => false end.

(** numeric_identifier: no leading zero, fits u64 (semver crate; src/contract.rs:323-324.) *)
Definition num_ident (s : string) : option (N * string) :=
  let (d, r) := span is_digit s in
  if sempty d || lead0 d then None
  else n <-? pdec d ;; if n <? u64_lim then Some (n, r) else None.

(** (semver crate; src/contract.rs:323-324.) *)
Definition dot (s : string) : option string :=
  match s with String c r => if Ascii.eqb c "."%char then Some r else None | "" => None end.

(** (semver crate; src/contract.rs:323-324.) *)
Definition ident_char (c : ascii) : bool :=
  is_digit c || ((65 <=? bn c) && (bn c <=? 90)) || ((97 <=? bn c) && (bn c <=? 122))
  || Ascii.eqb c "-"%char.
(** (semver crate; src/contract.rs:323-324.) *)
Definition ident_or_dot (c : ascii) : bool := ident_char c || Ascii.eqb c "."%char.

(** [identifier]: dot separated, no empty segment; in a pre-release no numeric
    segment with leading zeros (semver crate; src/contract.rs:323-324.) *)
Definition segments (pre : bool) (s : string) : option (list string) :=
  let l := split_on "."%char s in
  if forallb (fun x => negb (sempty x) && negb (pre && all_chars is_digit x && lead0 x)) l
  then Some l else None.

(** Version::from_str (src/contract.rs:323-324.) *)
Definition parse_version (s : string) : option version :=
  ' (major, s) <-? num_ident s ;; s <-? dot s ;;
  ' (minor, s) <-? num_ident s ;; s <-? dot s ;;
  ' (patch, s) <-? num_ident s ;;
  ' (pre, s) <-? match s with
    | String c r =>
        if Ascii.eqb c "-"%char then
          let (p, r) := span ident_or_dot r in l <-? segments true p ;; Some (l, r)
        else Some ([], s)
    | "" => Some ([], s)
    end ;;
  ' (build, s) <-? match s with
    | String c r =>
        if Ascii.eqb c "+"%char then
          let (p, r) := span ident_or_dot r in l <-? segments false p ;; Some (l, r)
        else Some ([], s)
    | "" => Some ([], s)
    end ;;
  if sempty s then Some (Version (major, minor, patch) pre build) else None.

(** ** Ord for Version: major, minor, patch, pre, build, lexicographically *)

(** (Lexicographic [Ord]; semver crate.) *)
Definition cmp_then (c d : comparison) : comparison := match c with Eq => d | _ => c end.

(** (Lexicographic [Ord]; semver crate.) *)
Fixpoint cmp_str (a b : string) : comparison :=
  match a, b with
  | "", "" => Eq
  | "", _ => Lt
  | _, "" => Gt
  | String x a', String y b' => cmp_then (N.compare (bn x) (bn y)) (cmp_str a' b')
  end.

(** One pre-release identifier: numbers by value and before text
    (semver crate; src/contract.rs:325.) *)
Definition cmp_pre_id (a b : string) : comparison :=
  match all_chars is_digit a, all_chars is_digit b with
  | false, true => Gt
  | true, false => Lt
  | false, false => cmp_str a b
  | true, true => cmp_then (N.compare (slen a) (slen b)) (cmp_str a b)
  end.

(** (semver crate; src/contract.rs:325.) *)
Fixpoint trim_zeros (s : string) : string :=
  match s with String c r => if Ascii.eqb c "0"%char then trim_zeros r else s | "" => "" end.

(** One build identifier (semver crate; src/contract.rs:325.) *)
Definition cmp_build_id (a b : string) : comparison :=
  match all_chars is_digit a, all_chars is_digit b with
  | false, true => Gt
  | true, false => Lt
  | false, false => cmp_str a b
  | true, true =>
      let a' := trim_zeros a in let b' := trim_zeros b in
      cmp_then (cmp_then (N.compare (slen a') (slen b')) (cmp_str a' b'))
               (N.compare (slen a) (slen b))
  end.

(** (semver crate; src/contract.rs:325.) *)
Fixpoint cmp_list (f : string -> string -> comparison) (a b : list string) : comparison :=
  match a, b with
  | [], [] => Eq
  | [], _ => Lt
  | _, [] => Gt
  | x :: a', y :: b' => cmp_then (f x y) (cmp_list f a' b')
  end.

(** A version without pre-release is above all its pre-releases.
    (semver crate; src/contract.rs:325.) *)
Definition cmp_pre (a b : list string) : comparison :=
  match a, b with
  | [], [] => Eq
  | [], _ => Gt
  | _, [] => Lt
  | _, _ => cmp_list cmp_pre_id a b
  end.

(** (semver crate; src/contract.rs:325.) *)
Definition cmp_nums (a b : N * N * N) : comparison :=
  match a, b with
  | (x, y, z), (x', y', z') =>
      cmp_then (N.compare x x') (cmp_then (N.compare y y') (N.compare z z'))
  end.

(** (semver crate; src/contract.rs:325.) *)
Definition cmp_version (a b : version) : comparison :=
  cmp_then (cmp_nums (vr_nums a) (vr_nums b))
    (cmp_then (cmp_pre (vr_pre a) (vr_pre b)) (cmp_list cmp_build_id (vr_build a) (vr_build b))).

(** [a >= b] (src/contract.rs:325.) *)
Definition version_ge (a b : version) : bool :=
  match cmp_version a b with Lt => false | _ => true end.
