(** * PropHelpers: property C51, the helpers for other contracts. *)

From Verif Require Import Base Text Utf8 Base64 Proto ProtoFacts Schemas Json JsonCodec Types JsonTypes Store
  CosmosMsg QueryMsg Metadata Stargate PacketData Ownable Semver Contract JsonSound HostSpec HostFacts PacketFacts
  AnswerSpec AnswerFacts AnswerJson EntryFacts Chain ChainSpec Trans Inv HistorySpec History Queries HistFacts Enabled Witness
  Helpers.
From Coq Require Import ZifyBool ZifyN.
Local Open Scope string_scope.
Local Open Scope list_scope.
Local Open Scope N_scope.

(** ** Messages

    Each helper makes one message for the given contract or code, without
    funds, and the body decodes to the given message ([jval]: a value of the
    Rust type). *)
Theorem C51_execute : forall addr m, jval jc_execute_msg m ->
  exists body, h_execute addr m = MWasm (WasmExecute addr body []) /\ from_json jc_execute_msg body = Some m.
Proof. intros addr m H. eexists. split; [reflexivity|]. apply json_roundtrip; [apply jc_execute_msg_ok|exact H]. Qed.

Theorem C51_migrate : forall addr code,
  exists body, h_migrate addr code = MWasm (WasmMigrate addr code body) /\ from_json jc_migrate_msg body = Some tt.
Proof. intros addr code. eexists. split; [reflexivity|]. apply json_roundtrip; [apply jc_migrate_msg_ok|exact I]. Qed.

Theorem C51_admin : forall addr admin,
  h_update_admin addr admin = MWasm (WasmUpdateAdmin addr admin) /\ h_clear_admin addr = MWasm (WasmClearAdmin addr).
Proof. intros addr admin. split; reflexivity. Qed.

Theorem C51_instantiate : forall code m label admin, jval jc_instantiate_msg m ->
  exists body, h_instantiate code m label admin = MWasm (WasmInstantiate admin code body [] label) /\
    from_json jc_instantiate_msg body = Some m.
Proof. intros code m label admin H. eexists. split; [reflexivity|]. apply json_roundtrip; [apply jc_instantiate_msg_ok|exact H]. Qed.

(** [instantiate2] also returns the address, which the chain computes from the
    code's checksum, the calling contract and the salt; and it fails if it
    cannot be computed. *)
Theorem C51_instantiate2 : forall ch self code m label admin salt r, jval jc_instantiate_msg m ->
  h_instantiate2 ch self code m label admin salt = Some r <->
  exists sum cr a addr body, code_checksum ch code = Some sum /\ canonicalize ch self = Some cr /\
    instantiate2_address ch sum cr salt = Some a /\ humanize ch a = Some addr /\
    r = (MWasm (WasmInstantiate2 admin code label body [] salt), addr) /\ body = to_json jc_instantiate_msg m /\
    from_json jc_instantiate_msg body = Some m.
Proof.
  intros ch self code m label admin salt r H. unfold h_instantiate2, predicted. split.
  - intro E. apply obind_some in E as (addr & E & R). injection R as <-.
    apply obind_some in E as (sum & E1 & E). apply obind_some in E as (cr & E2 & E). apply obind_some in E as (a & E3 & E4).
    exists sum, cr, a, addr. eexists. repeat (split; [eassumption|]). split; [reflexivity|]. split; [reflexivity|].
    apply json_roundtrip; [apply jc_instantiate_msg_ok|exact H].
  - intros (sum & cr & a & addr & body & E1 & E2 & E3 & E4 & -> & -> & _). rewrite E1. cbn [obind]. rewrite E2. cbn [obind].
    rewrite E3. cbn [obind]. rewrite E4. reflexivity.
Qed.

(** Different messages give different bodies. *)
Theorem C51_injective : forall addr addr' m m', jval jc_execute_msg m -> jval jc_execute_msg m' ->
  h_execute addr m = h_execute addr' m' -> addr = addr' /\ m = m'.
Proof.
  intros addr addr' m m' H H' E. injection E as -> E. split; [reflexivity|].
  assert (R := json_roundtrip jc_execute_msg m jc_execute_msg_ok H). rewrite E in R.
  rewrite (json_roundtrip jc_execute_msg m' jc_execute_msg_ok H') in R. congruence.
Qed.

(** Sending the body executes the given message: the transaction succeeds only
    if [execute] does with the message itself, and what the chain then has on
    record is that message. *)
Theorem C51_runs : forall c w s h t sender m id ok body w' b, jval jc_execute_msg m ->
  h_execute (c_self c) m = MWasm (WasmExecute (c_self c) body []) -> w_store w = Some s ->
  act c (AExecute h t sender body id ok) w = Some (w', b) ->
  (exists s' r, execute (c_api c) s (Env h t (c_self c)) sender m = Ok (s', r)) /\
  exists new, w_log w' = new ++ LExecuted (Env h t (c_self c)) sender m :: w_log w.
Proof.
  intros c w s h t sender m id ok body w' b Hm E Hs A. injection E as <-. cbn [act] in A.
  destruct (env_ok h t sender); [|discriminate A]. cbn [guard obind] in A. rewrite Hs in A. cbn [obind] in A.
  rewrite (json_roundtrip jc_execute_msg m jc_execute_msg_ok Hm) in A. cbn [obind] in A. cbv zeta in A.
  destruct (execute (c_api c) s (Env h t (c_self c)) sender m) as [[s' r]| |]; [|discriminate A|discriminate A].
  split; [eauto|]. cbn [ok_of obind] in A. apply obind_some in A as (w1 & D & A). injection A as <- _.
  apply dispatch_exec_adds in D as (new & D & _). exists new. exact D.
Qed.

Definition m51 : execute_msg := send0 [bank0] [query0].
Example C51_case : jval jc_execute_msg m51 /\ jval jc_instantiate_msg (InstantiateMsg (Some "owner") (opts0 None) None).
Proof.
  split.
  - apply (from_json_valid jc_execute_msg (to_json jc_execute_msg m51)); [apply jc_execute_msg_sound| vm_compute; reflexivity].
  - apply (from_json_valid jc_instantiate_msg (to_json jc_instantiate_msg (InstantiateMsg (Some "owner") (opts0 None) None)));
      [apply jc_instantiate_msg_sound| vm_compute; reflexivity].
Qed.
Definition ch51 : chain_api :=
  ChainApi (fun _ => Some "sum") (fun x => Some x) (fun x => Some x) (fun a b s => Some (a +++ b +++ s)).
Example C51_instantiate2_case : h_instantiate2 ch51 "me" 7 (InstantiateMsg (Some "owner") (opts0 None) None) "label" None "salt" =
  Some (MWasm (WasmInstantiate2 None 7 "label" (to_json jc_instantiate_msg (InstantiateMsg (Some "owner") (opts0 None) None)) [] "salt"), "summesalt").
Proof. reflexivity. Qed.
Definition w51 : world := world_of ordered_open.
Definition s51 : cstore := match w_store w51 with Some s => s | None => empty_store end.
Example C51_runs_case : w_store w51 = Some s51 /\
  is_some (act cfg0 (AExecute 10 1000 "owner" (to_json jc_execute_msg m51) "" true) w51) = true.
Proof. repeat (split; [vm_compute; reflexivity|]). vm_compute. reflexivity. Qed.

(** ** Queries

    At any time of any history the query helpers return what the contract has
    recorded (an error if it has nothing): they never fail to read an answer. *)
Definition chain_querier (c : cfg) (w : world) : querier := fun addr raw => if String.eqb addr (c_self c) then ask w raw else None.

Theorem C51_get_contract_state : forall c w, cfg_ok c -> visited c w -> w_log w <> [] ->
  h_get_contract_state (chain_querier c w) (c_self c) = Some (ContractState (account_of (w_log w)) (callback_of (w_log w))).
Proof.
  intros c w Hc V Hl. destruct (ask_state c w Hc V Hl) as (t & A & D). unfold h_get_contract_state, chain_querier.
  rewrite String.eqb_refl. change (to_json jc_query_msg QGetContractState) with get_contract_state. rewrite A. exact D.
Qed.
Theorem C51_get_channel : forall c w, cfg_ok c -> visited c w -> w_log w <> [] ->
  h_get_channel (chain_querier c w) (c_self c) =
  option_map (fun '(ch, b) => ChannelState ch (if b : bool then StOpen else StClosed)) (recorded (w_log w)).
Proof.
  intros c w Hc V Hl. pose proof (ask_channel c w Hc V Hl) as A. unfold h_get_channel, chain_querier.
  rewrite String.eqb_refl. change (to_json jc_query_msg QGetChannel) with get_channel.
  destruct (recorded (w_log w)) as [[ch b]|]; [|now rewrite A]. destruct A as (t & A & D). rewrite A. exact D.
Qed.
Theorem C51_ownership : forall c w, cfg_ok c -> visited c w -> w_log w <> [] ->
  h_ownership (chain_querier c w) (c_self c) =
  Some (Ownership (owner_of (w_log w)) (option_map fst (nominee_of (w_log w))) (n <-? nominee_of (w_log w) ;; snd n)).
Proof.
  intros c w Hc V Hl. destruct (ask_ownership c w Hc V Hl) as (t & A & D). unfold h_ownership, chain_querier.
  rewrite String.eqb_refl. change (to_json jc_query_msg QOwnership) with get_ownership. rewrite A. exact D.
Qed.
Example C51_queries_case : cfg_ok cfg0 /\ visited cfg0 w51 /\ w_log w51 <> [] /\
  h_get_contract_state (chain_querier cfg0 w51) "controller" =
    Some (ContractState (Some (IcaInfo "cosmos1acc" "channel-0" Protobuf)) (Some "cb")).
Proof. split; [exact cfg0_ok|]. split; [apply world_visited|]. split; [vm_compute; discriminate| vm_compute; reflexivity]. Qed.

Print Assumptions C51_execute.
Print Assumptions C51_migrate.
Print Assumptions C51_admin.
Print Assumptions C51_instantiate.
Print Assumptions C51_instantiate2.
Print Assumptions C51_injective.
Print Assumptions C51_runs.
Print Assumptions C51_get_contract_state.
Print Assumptions C51_get_channel.
Print Assumptions C51_ownership.
