(** * Witness: concrete histories.

    Used to show that the hypotheses of the theorems can be met and as
    counterexamples.  All of them are computed by [run]. *)

From Verif Require Import Base Utf8 Json JsonCodec Types JsonTypes Proto Schemas Stargate PacketFacts Chain ChainSpec HistorySpec HostSpec AnswerSpec Trans.
Local Open Scope string_scope.
Local Open Scope list_scope.
Local Open Scope N_scope.

Definition api0 : api := Api (fun x => negb (sempty x)) (fun _ => false) (Some 0) (fun _ _ => "decode error").
Definition cfg0 : cfg := Cfg api0 "controller".
Lemma cfg0_ok : cfg_ok cfg0. Proof. split; reflexivity. Qed.

Definition opts0 (o : option order) : open_options := OpenOptions "connection-0" "connection-1" None o.
Definition inst (o : option order) (cb : option string) : tx :=
  Tx (AInstantiate None 10 1000 "owner" (to_json jc_instantiate_msg (InstantiateMsg None (opts0 o) cb)) "channel-0" true) None.
Definition exec (sender : string) (m : execute_msg) (id : string) : tx :=
  Tx (AExecute 11 2000 sender (to_json jc_execute_msg m) id true) None.
Definition host_version (addr : string) : string :=
  to_json jc_metadata (Metadata "ics27-1" "connection-0" "connection-1" addr Protobuf "sdk_multi_msg").
Definition open_ack (id cp addr : string) : tx := Tx (AOpenAck id cp (host_version addr)) (Some []).
Definition ack (id : string) (n : N) (d : ack_data) : tx := Tx (AAck id n (to_json jc_ack d) "relayer") (Some []).
Definition timed_out (id : string) (n : N) : tx := Tx (ATimeout id n "relayer") (Some []).

Definition send0 (ms : list cosmos_msg) (qs : list query_request) : execute_msg := XSendCosmosMsgs ms qs (Some "memo") (Some 60).
Definition bank0 : cosmos_msg := MBank (BankSend "cosmos1to" [Coin "uatom" 100]).
Definition query0 : query_request := QBank (QBalance "cosmos1acc" "uatom").

Definition world_of (l : list tx) : world := history cfg0 l.
Definition ordered_open := [inst None (Some "cb"); open_ack "channel-0" "channel-7" "cosmos1acc"].
Definition unordered_open := [inst (Some Unordered) (Some "cb"); open_ack "channel-0" "channel-7" "cosmos1acc"].
Definition with_query := unordered_open ++ [exec "owner" (send0 [bank0] [query0]) ""].


(** The answers to the state queries, computed. *)
Lemma owner_reported_by w o : obind (ask w get_ownership) (from_json jc_ownership) = Some o -> owner_reported w o.
Proof. intro H. apply obind_some in H as (t & H1 & H2). exists t. auto. Qed.
Lemma state_reported_by w o : obind (ask w get_contract_state) (from_json jc_contract_state) = Some o -> state_reported w o.
Proof. intro H. apply obind_some in H as (t & H1 & H2). exists t. auto. Qed.
Lemma channel_reported_by w ch st :
  obind (ask w get_channel) (from_json jc_channel_state) = Some (ChannelState ch st) -> channel_reported w ch st.
Proof. intro H. apply obind_some in H as (t & H1 & H2). exists t. auto. Qed.

(** Every computed history is a history. *)
Lemma world_visited l : visited cfg0 (world_of l).
Proof. apply history_visited. Qed.
