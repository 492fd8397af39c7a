(** * AnswerSpec: what the host's answers say.

    Specification of the acknowledgement result and of the answers to queries
    as the Cosmos SDK, wasmd and ibc-go encode them (their own descriptors).
    Written by query, with none of the contract's conversion functions. *)

From Verif Require Import Base Utf8 Text Proto Types HostSpec.
Local Open Scope string_scope.
Local Open Scope list_scope.
Local Open Scope N_scope.

(** ** Descriptors of responses *)

Definition h_denom_unit := [s_ 1 (* denom *); i_ 2 (* exponent *); ss_ 3 (* aliases *)].
(** description, denom_units, base, display, name, symbol, uri, uri_hash *)
Definition h_denom_metadata := [s_ 1; ms_ 2 h_denom_unit; s_ 3; s_ 4; s_ 5; s_ 6; s_ 7; s_ 8].
(** code_id, creator, admin, label, created, ibc_port_id, extension *)
Definition h_contract_info := [u_ 1; s_ 2; s_ 3; s_ 4; m_ 5 [u_ 1; u_ 2]; s_ 6; m_ 7 h_any].
Definition h_time := [u_ 1; i_ 2].
Definition h_commission := [m_ 1 [s_ 1; s_ 2; s_ 3]; m_ 2 h_time].
(** operator_address, consensus_pubkey, jailed, status, tokens, delegator_shares, description,
    unbonding_height, unbonding_time, commission, min_self_delegation,
    unbonding_on_hold_ref_count, unbonding_ids *)
Definition h_validator :=
  [s_ 1; m_ 2 h_any; f_ 3; i_ 4; s_ 5; s_ 6; m_ 7 [s_ 1; s_ 2; s_ 3; s_ 4; s_ 5]; u_ 8; m_ 9 h_time;
   m_ 10 h_commission; s_ 11; u_ 12; (13, (Single, KPack))].
Definition h_delegation_response := [m_ 1 [s_ 1; s_ 2; s_ 3]; m_ 2 h_coin].
Definition h_params := [m_ 1 h_time; i_ 2; i_ 3; i_ 4; s_ 5 (* bond_denom *); s_ 6].

(** ** Reading an answer *)

Definition opt_text (s : string) : option string := if String.eqb s "" then None else Some s.

Definition rd_amount (v : pv) : option coin :=
  match v with
  | VMsg [[VStr d]; [VStr a]] => n <-? parse_u128 a ;; Some (Coin d n)
  | _ => None
  end.
(** An absent coin is the empty coin. *)
Definition rd_amount_opt (l : list pv) : option coin :=
  match l with [] => Some (Coin "" 0) | [v] => rd_amount v | _ => None end.
Definition rd_text (v : pv) : option string := match v with VStr s => Some s | _ => None end.
Definition rd_unit (v : pv) : option denom_unit :=
  match v with
  | VMsg [[VStr d]; [VNum e]; al] => a <-? omap rd_text al ;; Some (DenomUnit d e a)
  | _ => None
  end.
Definition rd_metadata (v : pv) : option denom_metadata :=
  match v with
  | VMsg [[VStr a]; us; [VStr b]; [VStr c]; [VStr d]; [VStr e]; [VStr f]; [VStr g]] =>
      u <-? omap rd_unit us ;; Some (DenomMetadata a u b c d e f g)
  | _ => None
  end.
Definition rd_validator (v : pv) : option validator :=
  match v with
  | VMsg [[VStr op]; _; _; _; _; _; _; _; _; comm; _; _; _] =>
      let rates := match comm with
        | [VMsg [[VMsg [[VStr a]; [VStr b]; [VStr c]]]; _]] => (a, b, c)
        | _ => ("", "", "")
        end in
      let '(a, b, c) := rates in
      x <-? decimal_from_string a ;; y <-? decimal_from_string b ;; z <-? decimal_from_string c ;;
      Some (Validator op x y z)
  | _ => None
  end.
(** [Some None]: no delegation in the response *)
Definition rd_delegation (v : pv) : option (option delegation) :=
  match v with
  | VMsg [[]; _] => Some None
  | VMsg [[VMsg [[VStr d]; [VStr v]; _]]; bal] =>
      c <-? match bal with [] => None | [b] => rd_amount b | _ => None end ;;
      Some (Some (Delegation d v c))
  | _ => None
  end.
Fixpoint somes {A} (l : list (option A)) : list A :=
  match l with [] => [] | Some x :: r => x :: somes r | None :: r => somes r end.

(** The response the user gets for the answer [b] to the query [q]; [None] if
    the answer is not acceptable. *)
Definition answer (q : query_request) (b : string) : option query_response :=
  match q with
  | QStargate path _ => Some (RStargate b path)
  | QBank (QBalance _ _) =>
      match pb_decode [m_ 1 h_coin] b with
      | Some [c] => x <-? rd_amount_opt c ;; Some (RBank (RBalance x)) | _ => None end
  | QBank (QSupply _) =>
      match pb_decode [m_ 1 h_coin] b with
      | Some [c] => x <-? rd_amount_opt c ;; Some (RBank (RSupply x)) | _ => None end
  | QBank (QAllBalances _) =>
      match pb_decode [ms_ 1 h_coin; m_ 2 h_page_response] b with
      | Some [cs; _] => x <-? omap rd_amount cs ;; Some (RBank (RAllBalances x)) | _ => None end
  | QBank (QDenomMetadata _) =>
      match pb_decode [m_ 1 h_denom_metadata] b with
      | Some [[]] => Some (RBank (RDenomMetadata (DenomMetadata "" [] "" "" "" "" "" "")))
      | Some [[m]] => x <-? rd_metadata m ;; Some (RBank (RDenomMetadata x))
      | _ => None end
  | QBank (QAllDenomMetadata _) =>
      match pb_decode [ms_ 1 h_denom_metadata; m_ 2 h_page_response] b with
      | Some [ms; page] =>
          x <-? omap rd_metadata ms ;;
          k <-? match page with
                | [] => Some None | [VMsg [[VStr k]; _]] => Some (Some k) | _ => None end ;;
          Some (RBank (RAllDenomMetadata x k))
      | _ => None end
  | QWasm (QContractInfo _) =>
      match pb_decode [s_ 1; m_ 2 h_contract_info] b with
      | Some [_; []] => Some (RWasm (RContractInfo None))
      | Some [_; [VMsg [[VNum id]; [VStr cr]; [VStr adm]; _; _; [VStr port]; _]]] =>
          Some (RWasm (RContractInfo (Some (ContractInfo id cr (opt_text adm) false (opt_text port)))))
      | _ => None end
  | QWasm (QRaw _ _) =>
      match pb_decode [b_ 1] b with
      | Some [[VStr d]] => Some (RWasm (RRaw (opt_text d))) | _ => None end
  | QWasm (QSmart _ _) =>
      match pb_decode [b_ 1] b with
      | Some [[VStr d]] => Some (RWasm (RSmart d)) | _ => None end
  | QStaking (QValidator _) =>
      match pb_decode [m_ 1 h_validator] b with
      | Some [[]] => Some (RStaking (RValidator None))
      | Some [[v]] => x <-? rd_validator v ;; Some (RStaking (RValidator (Some x)))
      | _ => None end
  | QStaking QAllValidators =>
      match pb_decode [ms_ 1 h_validator; m_ 2 h_page_response] b with
      | Some [vs; _] => x <-? omap rd_validator vs ;; Some (RStaking (RAllValidators x))
      | _ => None end
  | QStaking (QDelegation _ _) =>
      match pb_decode [m_ 1 h_delegation_response] b with
      | Some [[]] => Some (RStaking (RDelegation None))
      | Some [[d]] => x <-? rd_delegation d ;; Some (RStaking (RDelegation x))
      | _ => None end
  | QStaking (QAllDelegations _) =>
      match pb_decode [ms_ 1 h_delegation_response; m_ 2 h_page_response] b with
      | Some [ds; _] => x <-? omap rd_delegation ds ;; Some (RStaking (RAllDelegations (somes x)))
      | _ => None end
  | QStaking QBondedDenom =>
      match pb_decode [m_ 1 h_params] b with
      | Some [[VMsg [_; _; _; _; [VStr d]; _]]] => Some (RStaking (RBondedDenom d))
      | _ => None end
  | _ => None
  end.

(** The kind of response that belongs to a query. *)
Definition answers_kind (q : query_request) (r : query_response) : Prop :=
  match q, r with
  | QStargate p _, RStargate _ p' => p = p'
  | QBank (QBalance _ _), RBank (RBalance _)
  | QBank (QSupply _), RBank (RSupply _)
  | QBank (QAllBalances _), RBank (RAllBalances _)
  | QBank (QDenomMetadata _), RBank (RDenomMetadata _)
  | QBank (QAllDenomMetadata _), RBank (RAllDenomMetadata _ _)
  | QWasm (QContractInfo _), RWasm (RContractInfo _)
  | QWasm (QRaw _ _), RWasm (RRaw _)
  | QWasm (QSmart _ _), RWasm (RSmart _)
  | QStaking (QValidator _), RStaking (RValidator _)
  | QStaking QAllValidators, RStaking (RAllValidators _)
  | QStaking (QDelegation _ _), RStaking (RDelegation _)
  | QStaking (QAllDelegations _), RStaking (RAllDelegations _)
  | QStaking QBondedDenom, RStaking (RBondedDenom _) => True
  | _, _ => False
  end.

(** ** The result bytes of a success acknowledgement

    cosmos.base.abci.v1beta1.TxMsgData: data (1, legacy) and msg_responses (2);
    the last response is the MsgModuleQuerySafeResponse: height, responses. *)
Definition h_tx_msg_data := [ms_ 1 [s_ 1; b_ 2]; ms_ 2 h_any].
Definition h_query_safe_response := [u_ 1; bs_ 2].

Definition query_safe_response (result : string) : option (N * list string) :=
  match pb_decode h_tx_msg_data result with
  | Some [_; resps] =>
      match rev resps with
      | VMsg [_; [VStr v]] :: _ =>
          match pb_decode h_query_safe_response v with
          | Some [[VNum h]; rs] => l <-? omap rd_text rs ;; Some (h, l)
          | _ => None
          end
      | _ => None
      end
  | _ => None
  end.

(** The text of the error for a reply with the wrong number of answers. *)
Definition wrong_count (qs : list query_request) (bs : list string) : string :=
  String.append "expected " (String.append (dec (N.of_nat (length qs)))
    (String.append " responses, got " (dec (N.of_nat (length bs))))).

(** The query result for the queries [qs] and the host's reply [(h, bs)]. *)
Definition result_spec (qs : list query_request) (h : N) (bs : list string) (r : query_result) : Prop :=
  (exists rs, length bs = length qs /\
     Forall2 (fun qb x => answer (fst qb) (snd qb) = Some x) (combine qs bs) rs /\ r = QRSuccess h rs) \/
  (((length bs <> length qs /\ r = QRError (wrong_count qs bs)) \/
    length bs = length qs /\ Exists (fun qb => answer (fst qb) (snd qb) = None) (combine qs bs)) /\
   exists e, r = QRError e).

(** ** Typed answers of the host, and how it encodes them *)

Record host_validator := HostValidator {
  hv_operator : string;
  hv_pubkey : option (string * string);
  hv_jailed : bool;
  hv_status : N;
  hv_tokens : N;
  hv_shares : N;                        (* LegacyDec, in units of 10^-18 *)
  hv_description : string * string * string * string * string;
  hv_unbonding_height : N;
  hv_unbonding_time : N * N;
  hv_rate : N; hv_max_rate : N; hv_max_change : N;    (* LegacyDec, in units of 10^-18 *)
  hv_update_time : N * N;
  hv_min_self : N;
  hv_on_hold : N;
  hv_ids : list N
}.

Inductive host_answer :=
| HABalance (c : string * N)
| HASupply (c : string * N)
| HAAllBalances (cs : coins) (page : option (string * N))
| HADenomMetadata (m : denom_metadata)
| HADenomsMetadata (ms : list denom_metadata) (page : option (string * N))
| HAContractInfo (address : string) (code_id : N) (creator admin label : string)
    (created : option (N * N)) (ibc_port : string) (extension : option (string * string))
| HARaw (data : string)
| HASmart (data : string)
| HAValidator (v : host_validator)
| HAValidators (vs : list host_validator) (page : option (string * N))
| HADelegation (d : string * string * N) (balance : string * N)   (* delegator, validator, shares *)
| HADelegations (ds : list (string * string * N * (string * N))) (page : option (string * N))
| HAParams (unbonding : N * N) (max_validators max_entries historical : N) (bond_denom : string)
    (min_commission : N).

Definition ts (s : string) : list pv := [VStr s].
Definition tn (n : N) : list pv := [VNum n].
(** math.Int and LegacyDec are written as the decimal digits of the underlying
    integer (for LegacyDec: the number of 10^-18 units). *)
Definition ti (n : N) : list pv := [VStr (dec n)].
Definition w_coin (c : string * N) : pv := VMsg [ts (fst c); ti (snd c)].
Definition w_page (p : option (string * N)) : list pv :=
  match p with Some (k, n) => [VMsg [ts k; tn n]] | None => [] end.
Definition w_time (t : N * N) : list pv := [VMsg [tn (fst t); tn (snd t)]].
Definition w_any (a : option (string * string)) : list pv :=
  match a with Some (u, v) => [VMsg [ts u; ts v]] | None => [] end.
Definition w_unit (u : denom_unit) : pv :=
  VMsg [ts (du_denom u); tn (du_exponent u); map VStr (du_aliases u)].
Definition w_metadata (m : denom_metadata) : pv :=
  VMsg [ts (dm_description m); map w_unit (dm_units m); ts (dm_base m); ts (dm_display m);
        ts (dm_name m); ts (dm_symbol m); ts (dm_uri m); ts (dm_uri_hash m)].
Definition w_validator (v : host_validator) : pv :=
  let '(d1, d2, d3, d4, d5) := hv_description v in
  VMsg [ts (hv_operator v); w_any (hv_pubkey v); tn (if hv_jailed v then 1 else 0); tn (hv_status v);
        ti (hv_tokens v); ti (hv_shares v); [VMsg [ts d1; ts d2; ts d3; ts d4; ts d5]];
        tn (hv_unbonding_height v); w_time (hv_unbonding_time v);
        [VMsg [[VMsg [ti (hv_rate v); ti (hv_max_rate v); ti (hv_max_change v)]];
               w_time (hv_update_time v)]];
        ti (hv_min_self v); tn (hv_on_hold v); [VPack (hv_ids v)]].
Definition w_delegation (d : string * string * N) (b : string * N) : pv :=
  let '(x, v, sh) := d in VMsg [[VMsg [ts x; ts v; ti sh]]; [w_coin b]].

Definition answer_bytes (a : host_answer) : string :=
  match a with
  | HABalance c | HASupply c => pb_encode [m_ 1 h_coin] [[w_coin c]]
  | HAAllBalances cs p => pb_encode [ms_ 1 h_coin; m_ 2 h_page_response] [map w_coin cs; w_page p]
  | HADenomMetadata m => pb_encode [m_ 1 h_denom_metadata] [[w_metadata m]]
  | HADenomsMetadata ms p =>
      pb_encode [ms_ 1 h_denom_metadata; m_ 2 h_page_response] [map w_metadata ms; w_page p]
  | HAContractInfo addr id cr adm lab created port ext =>
      pb_encode [s_ 1; m_ 2 h_contract_info]
        [ts addr; [VMsg [tn id; ts cr; ts adm; ts lab;
           match created with Some t => w_time t | None => [] end; ts port; w_any ext]]]
  | HARaw d | HASmart d => pb_encode [b_ 1] [ts d]
  | HAValidator v => pb_encode [m_ 1 h_validator] [[w_validator v]]
  | HAValidators vs p => pb_encode [ms_ 1 h_validator; m_ 2 h_page_response] [map w_validator vs; w_page p]
  | HADelegation d b => pb_encode [m_ 1 h_delegation_response] [[w_delegation d b]]
  | HADelegations ds p =>
      pb_encode [ms_ 1 h_delegation_response; m_ 2 h_page_response]
        [map (fun '(d, b) => w_delegation d b) ds; w_page p]
  | HAParams ub mv me hi d mc =>
      pb_encode [m_ 1 h_params] [[VMsg [w_time ub; tn mv; tn me; tn hi; ts d; ti mc]]]
  end.

(** Which answer belongs to which query, and what the user must get.  The
    rates of validators are left open here, see [rates_exact]. *)
Definition coin_of (c : string * N) : coin := Coin (fst c) (snd c).
Definition same_address (v : host_validator) (x : validator) : Prop := v_address x = hv_operator v.
Definition shows (q : query_request) (a : host_answer) (r : query_response) : Prop :=
  match q, a with
  | QBank (QBalance _ _), HABalance c => r = RBank (RBalance (coin_of c))
  | QBank (QSupply _), HASupply c => r = RBank (RSupply (coin_of c))
  | QBank (QAllBalances _), HAAllBalances cs _ => r = RBank (RAllBalances (map coin_of cs))
  | QBank (QDenomMetadata _), HADenomMetadata m => r = RBank (RDenomMetadata m)
  | QBank (QAllDenomMetadata _), HADenomsMetadata ms p => r = RBank (RAllDenomMetadata ms (option_map fst p))
  | QWasm (QContractInfo _), HAContractInfo _ id cr adm _ _ port _ =>
      r = RWasm (RContractInfo (Some (ContractInfo id cr (opt_text adm) false (opt_text port))))
  | QWasm (QRaw _ _), HARaw d => r = RWasm (RRaw (opt_text d))
  | QWasm (QSmart _ _), HASmart d => r = RWasm (RSmart d)
  | QStaking (QValidator _), HAValidator v =>
      exists x, r = RStaking (RValidator (Some x)) /\ same_address v x
  | QStaking QAllValidators, HAValidators vs _ =>
      exists l, r = RStaking (RAllValidators l) /\ Forall2 same_address vs l
  | QStaking (QDelegation _ _), HADelegation (d, v, _) b =>
      r = RStaking (RDelegation (Some (Delegation d v (coin_of b))))
  | QStaking (QAllDelegations _), HADelegations ds _ =>
      r = RStaking (RAllDelegations (map (fun '(d, v, _, b) => Delegation d v (coin_of b)) ds))
  | QStaking QBondedDenom, HAParams _ _ _ _ d _ => r = RStaking (RBondedDenom d)
  | _, _ => False
  end.

(** The query an answer is for. *)
Definition fits (q : query_request) (a : host_answer) : Prop :=
  match q, a with
  | QBank (QBalance _ _), HABalance _ | QBank (QSupply _), HASupply _
  | QBank (QAllBalances _), HAAllBalances _ _ | QBank (QDenomMetadata _), HADenomMetadata _
  | QBank (QAllDenomMetadata _), HADenomsMetadata _ _ | QWasm (QContractInfo _), HAContractInfo _ _ _ _ _ _ _ _
  | QWasm (QRaw _ _), HARaw _ | QWasm (QSmart _ _), HASmart _
  | QStaking (QValidator _), HAValidator _ | QStaking QAllValidators, HAValidators _ _
  | QStaking (QDelegation _ _), HADelegation _ _ | QStaking (QAllDelegations _), HADelegations _ _
  | QStaking QBondedDenom, HAParams _ _ _ _ _ _ => True
  | _, _ => False
  end.

Definition rates_exact (v : host_validator) (x : validator) : Prop :=
  v_commission x = hv_rate v /\ v_max_commission x = hv_max_rate v /\ v_max_change_rate x = hv_max_change v.

(** Values the host can hold. *)
Definition u32 (n : N) : Prop := n < u32_lim.
Definition wf_hcoin (c : string * N) : Prop := utf8 (fst c) /\ snd c < u128_lim.
Definition wf_htime (t : N * N) : Prop := u64 (fst t) /\ u32 (snd t).
Definition wf_hpage (p : option (string * N)) : Prop := match p with Some (_, n) => u64 n | None => True end.
Definition wf_hany (a : option (string * string)) : Prop := match a with Some (u, _) => utf8 u | None => True end.
Definition wf_hunit (u : denom_unit) : Prop :=
  utf8 (du_denom u) /\ u32 (du_exponent u) /\ Forall utf8 (du_aliases u).
Definition wf_hmetadata (m : denom_metadata) : Prop :=
  utf8 (dm_description m) /\ Forall wf_hunit (dm_units m) /\ utf8 (dm_base m) /\ utf8 (dm_display m) /\
  utf8 (dm_name m) /\ utf8 (dm_symbol m) /\ utf8 (dm_uri m) /\ utf8 (dm_uri_hash m).
(** Commission rates are between 0 and 1. *)
Definition wf_hvalidator (v : host_validator) : Prop :=
  let '(d1, d2, d3, d4, d5) := hv_description v in
  utf8 (hv_operator v) /\ wf_hany (hv_pubkey v) /\ u32 (hv_status v) /\
  (utf8 d1 /\ utf8 d2 /\ utf8 d3 /\ utf8 d4 /\ utf8 d5) /\
  u64 (hv_unbonding_height v) /\ wf_htime (hv_unbonding_time v) /\
  hv_rate v <= 10 ^ 18 /\ hv_max_rate v <= 10 ^ 18 /\ hv_max_change v <= 10 ^ 18 /\
  wf_htime (hv_update_time v) /\ u64 (hv_on_hold v) /\ Forall u64 (hv_ids v).
Definition wf_hdelegation (x : string * string * N * (string * N)) : Prop :=
  let '(d, v, _, b) := x in utf8 d /\ utf8 v /\ wf_hcoin b.
Definition wf_answer (a : host_answer) : Prop :=
  match a with
  | HABalance c | HASupply c => wf_hcoin c
  | HAAllBalances cs p => Forall wf_hcoin cs /\ wf_hpage p
  | HADenomMetadata m => wf_hmetadata m
  | HADenomsMetadata ms p => Forall wf_hmetadata ms /\ wf_hpage p
  | HAContractInfo addr id cr adm lab created port ext =>
      utf8 addr /\ u64 id /\ utf8 cr /\ utf8 adm /\ utf8 lab /\
      match created with Some (h, i) => u64 h /\ u64 i | None => True end /\ utf8 port /\ wf_hany ext
  | HARaw _ | HASmart _ => True
  | HAValidator v => wf_hvalidator v
  | HAValidators vs p => Forall wf_hvalidator vs /\ wf_hpage p
  | HADelegation d b => wf_hdelegation (d, b)
  | HADelegations ds p => Forall wf_hdelegation ds /\ wf_hpage p
  | HAParams ub mv me hi d mc => wf_htime ub /\ u32 mv /\ u32 me /\ u32 hi /\ utf8 d
  end.
