(** * Derive: the macro [ica_callback_execute] (derive/src/lib.rs).

    The macro works on source text: it adds a variant to an enum.  Modelled are
    the items it can be put on, and what [cw_serde] makes of the enum that
    results.  Documentation comments, attributes and the type parameters of the
    item are left alone by the macro and are not modelled. *)

From Verif Require Import Base Utf8 Json JsonCodec Types JsonTypes.
From Coq Require Import Ascii.
Local Open Scope string_scope.
Local Open Scope list_scope.
Local Open Scope N_scope.

(** What a variant holds: nothing, or something with its JSON (a type, several,
    or named fields). (syn crate; derive/src/lib.rs:77-81, 93.) *)
Inductive content : Type -> Type :=
| CUnit : content unit
| COne A (c : jcodec A) : content A.
Arguments COne {A}.

(** A variant of an enum. (syn crate; derive/src/lib.rs:26-29.) *)
Record evariant := EVariant { ev_name : string; ev_type : Type; ev_content : content ev_type }.

(** An item a macro can be put on: of structs and unions only the name matters.
    (syn crate; derive/src/lib.rs:22-23.) *)
Inductive item := IEnum (name : string) (vs : list evariant) | IOther (name : string).

(** merge_variants, derive/src/lib.rs:10-40; [args] are the arguments of the
    attribute, [None] is a compile error *)
Definition merge_variants (args : list string) (left right : item) : option item :=
  match args with
  | _ :: _ => None
  | [] =>
      match left, right with
      | IEnum name variants, IEnum _ to_add => Some (IEnum name (variants ++ to_add))
      | _, _ => None
      end
  end.

(** ica_callback_execute, derive/src/lib.rs:83-98; the type of the callback
    message depends on the features the library is built with, so its JSON is a
    parameter *)
Definition ica_callback_execute {A} (callback : jcodec A) (args : list string) (input : item) : option item :=
  merge_variants args input (IEnum "Right" [EVariant "ReceiveIcaCallback" A (COne callback)]).

(** The JSON name of a variant: serde's [rename_all = "snake_case"], which
    [cw_serde] adds.  Simplification: names are ASCII. (serde_derive crate.) *)
Definition is_upper (c : ascii) : bool := let n := N_of_ascii c in (65 <=? n) && (n <=? 90).
(** (serde_derive crate.) *)
Definition to_lower (c : ascii) : ascii := if is_upper c then ascii_of_N (N_of_ascii c + 32) else c.
(** (serde_derive crate.) *)
Fixpoint snake_from (first : bool) (s : string) : string :=
  match s with
  | "" => ""
  | String c r =>
      let t := String (to_lower c) (snake_from false r) in
      if is_upper c && negb first then String "_" t else t
  end.
(** (serde_derive crate.) *)
Definition snake_case (s : string) : string := snake_from true s.

(** The values of an enum. (Rust; e.g. testing/contracts/cw-ica-owner/src/msg.rs:13-28.) *)
Fixpoint evalue (vs : list evariant) : Type :=
  match vs with [] => Empty_set | v :: r => ev_type v + evalue r end.

(** The derived reader and writer of an enum: the first variant with the name.
    ([cw_serde], e.g. testing/contracts/cw-ica-owner/src/msg.rs:12.) *)
Definition evar_codec (v : evariant) : vcodec (ev_type v) :=
  match ev_content v in content T return vcodec T with
  | CUnit => v_unit (snake_case (ev_name v))
  | COne c => v_one (snake_case (ev_name v)) c
  end.
(** (serde crate.) *)
Fixpoint evars_codec (vs : list evariant) : vcodec (evalue vs) :=
  match vs return vcodec (evalue vs) with
  | [] => VC [] (fun x : Empty_set => match x with end) (fun _ _ => None) (fun x => match x with end)
  | v :: r => v_sum (evar_codec v) (evars_codec r)
  end.
(** (serde crate.) *)
Definition jc_derived (vs : list evariant) : jcodec (evalue vs) := jc_enum (evars_codec vs).

(** ** The two enums of /repo the macro is put on *)

(** testing/contracts/callback-counter/src/msg.rs:7-11 *)
Definition counter_item : item := IEnum "ExecuteMsg" [].
(** testing/contracts/cw-ica-owner/src/msg.rs:11-28 *)
Definition owner_item : item := IEnum "ExecuteMsg"
  [EVariant "CreateIcaContract" (option string * open_options)
     (COne (jc_struct true (o_opt "salt" jc_str &o o_req "channel_open_init_options" jc_options)));
   EVariant "SendPredefinedAction" (N * string)
     (COne (jc_struct true (o_req "ica_id" (jc_uint u64_lim) &o o_req "to_address" jc_str)))].
