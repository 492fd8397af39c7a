(** * CallFacts: the calls of a history are its events. *)

From Verif Require Import Base Utf8 Json JsonCodec Types JsonTypes Chain ChainSpec HistorySpec CallSpec.
Local Open Scope string_scope.
Local Open Scope list_scope.
Local Open Scope N_scope.

Lemma readable_app {A} (c : jcodec A) l1 l2 : readable c (l1 ++ l2) = readable c l1 ++ readable c l2.
Proof. induction l1 as [|x l1 IH]; cbn [app readable]; [reflexivity|]. rewrite IH. now destruct (from_json c x). Qed.
Lemma calls_app addr l1 l2 : calls addr (l1 ++ l2) = calls addr l2 ++ calls addr l1.
Proof.
  induction l1 as [|x l1 IH]; cbn [app calls]; [now rewrite app_nil_r|].
  destruct x; try exact IH. now rewrite IH, app_assoc.
Qed.

Lemma told_events c l addr : hist c l -> map plain (readable jc_receiver (calls addr l)) = events addr l.
Proof.
  induction 1 as [|l new Hl IH B]; [reflexivity|].
  destruct B as [B|B]; destruct B;
    repeat match goal with H : callback _ _ _ |- _ => destruct H as [J H]; subst i; destruct (callback_of l) as [ad|] eqn:Ecb end;
    cbn [app calls events]; unfold while_told; cbn [callback_of]; rewrite ?Ecb; rewrite ?app_nil_r; try exact IH;
    rewrite ?readable_app, ?map_app, IH;
    repeat match goal with H : from_json jc_metadata (ch_version _) = Some _ |- _ => rewrite H; clear H end;
    repeat match goal with H : from_json jc_ack _ = Some _ |- _ => rewrite H; clear H end;
    try (destruct (String.eqb ad addr); [|reflexivity]); try reflexivity;
    (f_equal; cbn [readable]; 
     rewrite json_roundtrip by first [exact jc_receiver_ok|assumption]; reflexivity).
Qed.

