(** * PropUpgrade: property C91, why a migration is refused. *)

From Verif Require Import Base Text Utf8 Json JsonCodec Types JsonTypes Store CosmosMsg QueryMsg Metadata PacketData Ownable Semver Contract
  JsonSound HostSpec EntryFacts Chain ChainSpec Trans Inv HistorySpec History Queries
  HistFacts Enabled Witness SemverFacts PropMigrate Errors.
From Coq Require Import ZifyBool ZifyN.
Local Open Scope string_scope.
Local Open Scope list_scope.
Local Open Scope N_scope.

(** ** Specification *)

(** Why the migration of a contract with this storage is refused.  [older] is
    the order of semver.org against 0.20.0. *)
Inductive migration_refusal (s : cstore) : cerr -> Prop :=
| M_no_record : st_version s = None -> migration_refusal s EStd
| M_other_contract name text : st_version s = Some (name, text) -> name <> "crates.io:cw-ica-controller" ->
    migration_refusal s (EInvalidMigrationVersion "crates.io:cw-ica-controller" name)
| M_no_version text : st_version s = Some ("crates.io:cw-ica-controller", text) ->
    (forall v, wf_version v -> version_text v <> text) -> migration_refusal s ESemver
| M_not_older v : st_version s = Some ("crates.io:cw-ica-controller", version_text v) -> wf_version v -> ~ older v ->
    migration_refusal s (EInvalidMigrationVersion ("> " +++ version_text v) "0.20.0")
| M_no_state v : st_version s = Some ("crates.io:cw-ica-controller", version_text v) -> wf_version v -> older v ->
    st_state s = None -> migration_refusal s EStd
| M_encoding v st i : st_version s = Some ("crates.io:cw-ica-controller", version_text v) -> wf_version v -> older v ->
    st_state s = Some st -> cs_ica st = Some i -> ii_encoding i = Proto3Json ->
    migration_refusal s (EUnsupportedPacketEncoding """proto3json""").

(** ** C91 *)

Lemma refused s x : migration_refusal s x -> migrate s = Err x.
Proof.
  assert (P : forall v, wf_version v -> parse_version (version_text v) = Some v)
    by (intros v W; now apply parse_version_spec).
  intro R. unfold migrate, validate_semver, validate_channel_encoding.
  change (parse_version CONTRACT_VERSION) with (Some (Version (0, 20, 0) [] [])). cbn [of_option bindo].
  destruct R as [E|name text E N|text E N| v E W O| v E W O S| v st i E W O S I X]; rewrite E; cbn [load of_option bindo].
  - reflexivity.
  - destruct (String.eqb_spec name CONTRACT_NAME); [contradiction|reflexivity].
  - change (String.eqb "crates.io:cw-ica-controller" CONTRACT_NAME) with true. cbn [negb].
    destruct (parse_version text) as [v|] eqn:Ev; [|reflexivity]. apply parse_version_spec in Ev as [W ->]. now elim (N v W).
  - change (String.eqb "crates.io:cw-ica-controller" CONTRACT_NAME) with true. cbn [negb]. rewrite (P v W). cbn [of_option bindo].
    destruct (version_ge v (Version (0, 20, 0) [] [])) eqn:G; [reflexivity|]. apply older_cmp in G. contradiction.
  - change (String.eqb "crates.io:cw-ica-controller" CONTRACT_NAME) with true. cbn [negb]. rewrite (P v W). cbn [of_option bindo].
    rewrite (proj2 (older_cmp v) O), S. reflexivity.
  - change (String.eqb "crates.io:cw-ica-controller" CONTRACT_NAME) with true. cbn [negb]. rewrite (P v W). cbn [of_option bindo].
    rewrite (proj2 (older_cmp v) O), S. cbn [load of_option bindo]. rewrite I, X. reflexivity.
Qed.

(** Whatever is stored, a migration never aborts, and it is refused exactly for
    one of the reasons, which the error gives. *)
Theorem C91_why : forall s, migrate s <> Panic /\ forall x, migrate s = Err x <-> migration_refusal s x.
Proof.
  intros s. 
  assert (K : match migrate s with
    | Ok _ => exists v st, st_version s = Some ("crates.io:cw-ica-controller", version_text v) /\ wf_version v /\ older v /\
        st_state s = Some st /\ forall i, cs_ica st = Some i -> ii_encoding i = Protobuf
    | Err x => migration_refusal s x
    | Panic => False
    end).
  { destruct (migrate s) as [[s' r]|x|] eqn:E.
    - apply C39_iff in E as (v & st & E1 & E2 & E3 & E4 & E5 & _). eauto 10.
    - revert E. unfold migrate, validate_semver, validate_channel_encoding.
      change (parse_version CONTRACT_VERSION) with (Some (Version (0, 20, 0) [] [])). cbn [of_option bindo].
      destruct (st_version s) as [[name ver]|] eqn:E0; cbn [load of_option bindo]; [|intro H; injection H as <-; now apply M_no_record].
      destruct (String.eqb_spec name CONTRACT_NAME) as [->|N]; cbn [negb bindo];
        [|intro H; injection H as <-; exact (M_other_contract s name ver E0 N)].
      destruct (parse_version ver) as [v|] eqn:Ev; cbn [of_option bindo].
      2:{ intro H. injection H as <-. apply (M_no_version s ver E0). intros v W T.
          rewrite (proj2 (parse_version_spec ver v) (conj W (eq_sym T))) in Ev. discriminate. }
      apply parse_version_spec in Ev as [W ->].
      destruct (version_ge v (Version (0, 20, 0) [] [])) eqn:G; cbn [bindo].
      { intro H. injection H as <-. apply (M_not_older s v E0 W). intro O. apply older_cmp in O. congruence. }
      apply older_cmp in G. destruct (st_state s) as [st|] eqn:Es; cbn [load of_option bindo].
      2:{ intro H. injection H as <-. exact (M_no_state s v E0 W G Es). }
      destruct (cs_ica st) as [i|] eqn:Ei; [|discriminate]. destruct (ii_encoding i) eqn:En; [discriminate|].
      intro H. injection H as <-. exact (M_encoding s v st i E0 W G Es Ei En).
    - revert E. unfold migrate, validate_semver, validate_channel_encoding.
      destruct (st_version s) as [[name ver]|]; cbn [load of_option bindo]; [|discriminate].
      destruct (negb _); [discriminate|]. destruct (parse_version CONTRACT_VERSION); [|discriminate]. cbn [of_option bindo].
      destruct (parse_version ver); [|discriminate]. cbn [of_option bindo]. destruct (version_ge _ _); [discriminate|]. cbn [bindo].
      destruct (st_state s) as [st|]; cbn [load of_option bindo]; [|discriminate].
      destruct (cs_ica st) as [i|]; [destruct (ii_encoding i)|]; discriminate. }
  destruct (migrate s) as [o|y|] eqn:E; [..|contradiction]; (split; [discriminate|]); intro x;
    (split; [intro H; first [discriminate H | injection H as <-; exact K]|intro R; rewrite <- E; exact (refused s x R)]).
Qed.

(** In every history: a contract that this release created or migrated refuses
    every migration to this release, and the text says so. *)
Theorem C91_current : forall c w w' s, cfg_ok c -> visited c w ->
  (exists h t sender raw id ok b, w = init_world /\ act c (AInstantiate None h t sender raw id ok) w = Some (w', b)) \/
  (exists raw b, act c (AMigrate raw) w = Some (w', b)) ->
  forall w2, later c w' w2 -> w_store w2 = Some s ->
  exists x, migrate s = Err x /\ error_text x = Some "invalid migration version: expected > 0.20.0, got 0.20.0".
Proof.
  intros c w w' s Hc V H w2 L Hs.
  assert (C : current w').
  { destruct H as [(h & t & sender & raw & id & ok & b & -> & A)|(raw & b & A)].
    - exact (inst_store c h t sender raw id ok w' b Hc A).
    - cbn [act] in A. apply obind_some in A as (s1 & Es & A). apply obind_some in A as (? & _ & A).
      apply obind_some in A as ([s' r] & M & A). apply ok_of_some in M. injection A as <- _.
      apply C39_iff in M as (v & st & _ & _ & _ & _ & _ & -> & _). eexists. split; reflexivity. }
  assert (V' : visited c w') by (destruct H as [(h & t & sender & raw & id & ok & b & _ & A)|(raw & b & A)]; eapply visited_act; eassumption).
  destruct (current_later c w' w2 Hc V' C L) as (s0 & E & Ev). rewrite Hs in E. injection E as <-.
  eexists. split.
  - apply C91_why. apply (M_not_older s (Version (0, 20, 0) [] [])); [exact Ev|apply (parse_version_spec "0.20.0"); vm_compute; reflexivity|].
    unfold older. cbn [vr_nums vr_pre]. intros (_ & [K|(_ & _ & K)]); [lia|congruence].
  - reflexivity.
Qed.

(** Replies with an id the contract does not use are refused with that id. *)
Theorem C91_reply : forall a s id r, id <> 1 ->
  exists x, reply a s id r = Err x /\ error_text x = Some ("unknown reply id: " +++ dec id).
Proof.
  intros a s id r N. unfold reply. destruct (N.eqb_spec id SEND_QUERY_PACKET) as [E|E]; [contradiction|].
  eexists. split; reflexivity.
Qed.

(** Cases: storage of another contract, of a pre-release, of a later release,
    and of an account with the other encoding. *)
Definition stored91 (name text : string) (enc : tx_encoding) : cstore :=
  set_version (Some (name, text)) (set_state (Some (ContractState (Some (IcaInfo "cosmos1acc" "channel-0" enc)) None)) empty_store).
Example C91_case :
  migration_refusal empty_store EStd /\
  migration_refusal (stored91 "crates.io:cw20-base" "1.0.0" Protobuf)
    (EInvalidMigrationVersion "crates.io:cw-ica-controller" "crates.io:cw20-base") /\
  migration_refusal (stored91 "crates.io:cw-ica-controller" "v0.19.0" Protobuf) ESemver /\
  migration_refusal (stored91 "crates.io:cw-ica-controller" "0.21.0-rc.1" Protobuf)
    (EInvalidMigrationVersion "> 0.21.0-rc.1" "0.20.0") /\
  migration_refusal (stored91 "crates.io:cw-ica-controller" "0.19.0" Proto3Json)
    (EUnsupportedPacketEncoding """proto3json""") /\
  (exists s', migrate (stored91 "crates.io:cw-ica-controller" "0.20.0-rc.1" Protobuf) = Ok (s', response_default)).
Proof. repeat split; try (apply C91_why; vm_compute; reflexivity). eexists. vm_compute. reflexivity. Qed.

Example C91_current_case : visited cfg0 w39 /\ act cfg0 (AMigrate "{}") w39 = Some (w39', false) /\ later cfg0 w39' w39' /\
  exists s, w_store w39' = Some s.
Proof. split; [apply world_visited|]. split; [vm_compute; reflexivity|]. split; [constructor|]. eexists. vm_compute. reflexivity. Qed.

Print Assumptions C91_why.
Print Assumptions C91_current.
Print Assumptions C91_reply.
