(* The contracts of icon-dex as one transition system.

   Assumptions about the ICON service (iconservice is not part of the repository):
   - a message call carries sender, receiver, ICX value; the value is moved before the code runs;
   - a call to an externally owned account only moves ICX; a call to a contract address without
     contract fails; sending ICX (icx.transfer) to a contract runs its payable fallback and fails if it has none;
   - methods not marked @payable refuse a non-zero value; a read-only method runs in a read-only
     context in which nothing can be written, logged or paid, by the method or by what it calls;
   - any uncaught exception aborts the whole transaction and rolls everything back.  Only unknown contracts
     catch exceptions; the effects of the call that failed are then rolled back;
   - a failed type conversion of an argument, an unknown method and running out of steps abort the call.
   Unknown contracts are arbitrary programs ([prog]); [adv] gives the code at each address.
   Call depth is bounded by [fuel]; every theorem is for all fuels.
   Not modelled: SCORE update, None arguments (except the optional connector of the converter's installation),
   JSON text (payloads are raw bytes or an already parsed dictionary; JsonModel.v models the parsing), JSON floats. *)
From Coq Require Import String Ascii ZArith Lia.
From stdpp Require Import base countable list numbers strings gmap.
From Verif Require Import Res FormulaConsts FormulaModel Codec.
Local Open Scope Z_scope.

(* ------------------------------------------------------------------ data ---- *)
(* parsed JSON values; JOther: floats, lists, nested objects *)
Inductive json := JNull | JBool (b : bool) | JInt (z : Z) | JStr (s : string) | JOther.
(* the _data argument of token transfers: bytes that are not a JSON object, or a JSON object *)
Inductive data := DRaw (s : string) | DJson (m : gmap string json).
(* irc_token.py:91 b'None' *)
Definition data_none : data := DRaw "None".
(* converter.py:28 TRANSFER_DATA, network.py:172 *)
Definition data_result : data := DRaw "conversionResult".
Global Instance json_eq_dec : EqDecision json.
Proof. solve_decision. Defined.
Global Instance data_eq_dec : EqDecision data.
Proof. solve_decision. Defined.

Inductive kind := KIrc | KIcx | KFlex | KConv | KNet | KReg | KAdv.
Global Instance kind_eq_dec : EqDecision kind.
Proof. solve_decision. Defined.

(* converter.py:37-52 Connector; an unset entry reads as all defaults *)
Record connector := Connector {
  cn_virtual : Z; cn_weight : Z; cn_venabled : bool; cn_penabled : bool; cn_set : bool }.
Definition no_connector : connector := Connector 0 0 false false false.

(* The storage of one contract.  One record serves all kinds of contract: a kind uses the variables
   its class declares, the others keep their initial value. *)
Record score := Score {
  s_kind : kind;
  (* irc_token.py:42-46 *)
  s_name : string;
  s_symbol : string;
  s_decimals : Z;
  s_supply : Z;
  s_bal : gmap addr Z;
  (* owned.py:31-32 *)
  s_owner : addr;
  s_new_owner : addr;
  (* flexible_token.py:44 *)
  s_transferable : bool;
  (* managed.py:34-35 (None until set) *)
  s_manager : option addr;
  s_new_manager : option addr;
  (* flexible_token_controller.py:43 *)
  s_token : addr;
  (* converter.py:158-176 *)
  s_allow_reg : bool;
  s_registry : addr;
  s_prev_registry : addr;
  s_conn_tokens : list addr;
  s_total_weight : Z;
  s_max_fee : Z;
  s_fee : Z;
  s_enabled : bool;
  s_connectors : gmap addr connector;
  (* network.py:40 *)
  s_icx_tokens : gmap addr bool;
  (* score_registry.py:33 (no entry = None) *)
  s_addrs : gmap string addr;
  (* storage of an unknown contract *)
  s_store : Z
}.

(* assignment to one database variable *)
Definition set_name (v : string) (sc : score) : score :=
  Score (s_kind sc) v (s_symbol sc) (s_decimals sc) (s_supply sc) (s_bal sc) (s_owner sc) (s_new_owner sc) (s_transferable sc) (s_manager sc) (s_new_manager sc) (s_token sc) (s_allow_reg sc) (s_registry sc) (s_prev_registry sc) (s_conn_tokens sc) (s_total_weight sc) (s_max_fee sc) (s_fee sc) (s_enabled sc) (s_connectors sc) (s_icx_tokens sc) (s_addrs sc) (s_store sc).
Definition set_symbol (v : string) (sc : score) : score :=
  Score (s_kind sc) (s_name sc) v (s_decimals sc) (s_supply sc) (s_bal sc) (s_owner sc) (s_new_owner sc) (s_transferable sc) (s_manager sc) (s_new_manager sc) (s_token sc) (s_allow_reg sc) (s_registry sc) (s_prev_registry sc) (s_conn_tokens sc) (s_total_weight sc) (s_max_fee sc) (s_fee sc) (s_enabled sc) (s_connectors sc) (s_icx_tokens sc) (s_addrs sc) (s_store sc).
Definition set_decimals (v : Z) (sc : score) : score :=
  Score (s_kind sc) (s_name sc) (s_symbol sc) v (s_supply sc) (s_bal sc) (s_owner sc) (s_new_owner sc) (s_transferable sc) (s_manager sc) (s_new_manager sc) (s_token sc) (s_allow_reg sc) (s_registry sc) (s_prev_registry sc) (s_conn_tokens sc) (s_total_weight sc) (s_max_fee sc) (s_fee sc) (s_enabled sc) (s_connectors sc) (s_icx_tokens sc) (s_addrs sc) (s_store sc).
Definition set_supply (v : Z) (sc : score) : score :=
  Score (s_kind sc) (s_name sc) (s_symbol sc) (s_decimals sc) v (s_bal sc) (s_owner sc) (s_new_owner sc) (s_transferable sc) (s_manager sc) (s_new_manager sc) (s_token sc) (s_allow_reg sc) (s_registry sc) (s_prev_registry sc) (s_conn_tokens sc) (s_total_weight sc) (s_max_fee sc) (s_fee sc) (s_enabled sc) (s_connectors sc) (s_icx_tokens sc) (s_addrs sc) (s_store sc).
Definition set_bal (v : gmap addr Z) (sc : score) : score :=
  Score (s_kind sc) (s_name sc) (s_symbol sc) (s_decimals sc) (s_supply sc) v (s_owner sc) (s_new_owner sc) (s_transferable sc) (s_manager sc) (s_new_manager sc) (s_token sc) (s_allow_reg sc) (s_registry sc) (s_prev_registry sc) (s_conn_tokens sc) (s_total_weight sc) (s_max_fee sc) (s_fee sc) (s_enabled sc) (s_connectors sc) (s_icx_tokens sc) (s_addrs sc) (s_store sc).
Definition set_owner (v : addr) (sc : score) : score :=
  Score (s_kind sc) (s_name sc) (s_symbol sc) (s_decimals sc) (s_supply sc) (s_bal sc) v (s_new_owner sc) (s_transferable sc) (s_manager sc) (s_new_manager sc) (s_token sc) (s_allow_reg sc) (s_registry sc) (s_prev_registry sc) (s_conn_tokens sc) (s_total_weight sc) (s_max_fee sc) (s_fee sc) (s_enabled sc) (s_connectors sc) (s_icx_tokens sc) (s_addrs sc) (s_store sc).
Definition set_new_owner (v : addr) (sc : score) : score :=
  Score (s_kind sc) (s_name sc) (s_symbol sc) (s_decimals sc) (s_supply sc) (s_bal sc) (s_owner sc) v (s_transferable sc) (s_manager sc) (s_new_manager sc) (s_token sc) (s_allow_reg sc) (s_registry sc) (s_prev_registry sc) (s_conn_tokens sc) (s_total_weight sc) (s_max_fee sc) (s_fee sc) (s_enabled sc) (s_connectors sc) (s_icx_tokens sc) (s_addrs sc) (s_store sc).
Definition set_transferable (v : bool) (sc : score) : score :=
  Score (s_kind sc) (s_name sc) (s_symbol sc) (s_decimals sc) (s_supply sc) (s_bal sc) (s_owner sc) (s_new_owner sc) v (s_manager sc) (s_new_manager sc) (s_token sc) (s_allow_reg sc) (s_registry sc) (s_prev_registry sc) (s_conn_tokens sc) (s_total_weight sc) (s_max_fee sc) (s_fee sc) (s_enabled sc) (s_connectors sc) (s_icx_tokens sc) (s_addrs sc) (s_store sc).
Definition set_manager (v : option addr) (sc : score) : score :=
  Score (s_kind sc) (s_name sc) (s_symbol sc) (s_decimals sc) (s_supply sc) (s_bal sc) (s_owner sc) (s_new_owner sc) (s_transferable sc) v (s_new_manager sc) (s_token sc) (s_allow_reg sc) (s_registry sc) (s_prev_registry sc) (s_conn_tokens sc) (s_total_weight sc) (s_max_fee sc) (s_fee sc) (s_enabled sc) (s_connectors sc) (s_icx_tokens sc) (s_addrs sc) (s_store sc).
Definition set_new_manager (v : option addr) (sc : score) : score :=
  Score (s_kind sc) (s_name sc) (s_symbol sc) (s_decimals sc) (s_supply sc) (s_bal sc) (s_owner sc) (s_new_owner sc) (s_transferable sc) (s_manager sc) v (s_token sc) (s_allow_reg sc) (s_registry sc) (s_prev_registry sc) (s_conn_tokens sc) (s_total_weight sc) (s_max_fee sc) (s_fee sc) (s_enabled sc) (s_connectors sc) (s_icx_tokens sc) (s_addrs sc) (s_store sc).
Definition set_token (v : addr) (sc : score) : score :=
  Score (s_kind sc) (s_name sc) (s_symbol sc) (s_decimals sc) (s_supply sc) (s_bal sc) (s_owner sc) (s_new_owner sc) (s_transferable sc) (s_manager sc) (s_new_manager sc) v (s_allow_reg sc) (s_registry sc) (s_prev_registry sc) (s_conn_tokens sc) (s_total_weight sc) (s_max_fee sc) (s_fee sc) (s_enabled sc) (s_connectors sc) (s_icx_tokens sc) (s_addrs sc) (s_store sc).
Definition set_allow_reg (v : bool) (sc : score) : score :=
  Score (s_kind sc) (s_name sc) (s_symbol sc) (s_decimals sc) (s_supply sc) (s_bal sc) (s_owner sc) (s_new_owner sc) (s_transferable sc) (s_manager sc) (s_new_manager sc) (s_token sc) v (s_registry sc) (s_prev_registry sc) (s_conn_tokens sc) (s_total_weight sc) (s_max_fee sc) (s_fee sc) (s_enabled sc) (s_connectors sc) (s_icx_tokens sc) (s_addrs sc) (s_store sc).
Definition set_registry (v : addr) (sc : score) : score :=
  Score (s_kind sc) (s_name sc) (s_symbol sc) (s_decimals sc) (s_supply sc) (s_bal sc) (s_owner sc) (s_new_owner sc) (s_transferable sc) (s_manager sc) (s_new_manager sc) (s_token sc) (s_allow_reg sc) v (s_prev_registry sc) (s_conn_tokens sc) (s_total_weight sc) (s_max_fee sc) (s_fee sc) (s_enabled sc) (s_connectors sc) (s_icx_tokens sc) (s_addrs sc) (s_store sc).
Definition set_prev_registry (v : addr) (sc : score) : score :=
  Score (s_kind sc) (s_name sc) (s_symbol sc) (s_decimals sc) (s_supply sc) (s_bal sc) (s_owner sc) (s_new_owner sc) (s_transferable sc) (s_manager sc) (s_new_manager sc) (s_token sc) (s_allow_reg sc) (s_registry sc) v (s_conn_tokens sc) (s_total_weight sc) (s_max_fee sc) (s_fee sc) (s_enabled sc) (s_connectors sc) (s_icx_tokens sc) (s_addrs sc) (s_store sc).
Definition set_conn_tokens (v : list addr) (sc : score) : score :=
  Score (s_kind sc) (s_name sc) (s_symbol sc) (s_decimals sc) (s_supply sc) (s_bal sc) (s_owner sc) (s_new_owner sc) (s_transferable sc) (s_manager sc) (s_new_manager sc) (s_token sc) (s_allow_reg sc) (s_registry sc) (s_prev_registry sc) v (s_total_weight sc) (s_max_fee sc) (s_fee sc) (s_enabled sc) (s_connectors sc) (s_icx_tokens sc) (s_addrs sc) (s_store sc).
Definition set_total_weight (v : Z) (sc : score) : score :=
  Score (s_kind sc) (s_name sc) (s_symbol sc) (s_decimals sc) (s_supply sc) (s_bal sc) (s_owner sc) (s_new_owner sc) (s_transferable sc) (s_manager sc) (s_new_manager sc) (s_token sc) (s_allow_reg sc) (s_registry sc) (s_prev_registry sc) (s_conn_tokens sc) v (s_max_fee sc) (s_fee sc) (s_enabled sc) (s_connectors sc) (s_icx_tokens sc) (s_addrs sc) (s_store sc).
Definition set_max_fee (v : Z) (sc : score) : score :=
  Score (s_kind sc) (s_name sc) (s_symbol sc) (s_decimals sc) (s_supply sc) (s_bal sc) (s_owner sc) (s_new_owner sc) (s_transferable sc) (s_manager sc) (s_new_manager sc) (s_token sc) (s_allow_reg sc) (s_registry sc) (s_prev_registry sc) (s_conn_tokens sc) (s_total_weight sc) v (s_fee sc) (s_enabled sc) (s_connectors sc) (s_icx_tokens sc) (s_addrs sc) (s_store sc).
Definition set_fee (v : Z) (sc : score) : score :=
  Score (s_kind sc) (s_name sc) (s_symbol sc) (s_decimals sc) (s_supply sc) (s_bal sc) (s_owner sc) (s_new_owner sc) (s_transferable sc) (s_manager sc) (s_new_manager sc) (s_token sc) (s_allow_reg sc) (s_registry sc) (s_prev_registry sc) (s_conn_tokens sc) (s_total_weight sc) (s_max_fee sc) v (s_enabled sc) (s_connectors sc) (s_icx_tokens sc) (s_addrs sc) (s_store sc).
Definition set_enabled (v : bool) (sc : score) : score :=
  Score (s_kind sc) (s_name sc) (s_symbol sc) (s_decimals sc) (s_supply sc) (s_bal sc) (s_owner sc) (s_new_owner sc) (s_transferable sc) (s_manager sc) (s_new_manager sc) (s_token sc) (s_allow_reg sc) (s_registry sc) (s_prev_registry sc) (s_conn_tokens sc) (s_total_weight sc) (s_max_fee sc) (s_fee sc) v (s_connectors sc) (s_icx_tokens sc) (s_addrs sc) (s_store sc).
Definition set_connectors (v : gmap addr connector) (sc : score) : score :=
  Score (s_kind sc) (s_name sc) (s_symbol sc) (s_decimals sc) (s_supply sc) (s_bal sc) (s_owner sc) (s_new_owner sc) (s_transferable sc) (s_manager sc) (s_new_manager sc) (s_token sc) (s_allow_reg sc) (s_registry sc) (s_prev_registry sc) (s_conn_tokens sc) (s_total_weight sc) (s_max_fee sc) (s_fee sc) (s_enabled sc) v (s_icx_tokens sc) (s_addrs sc) (s_store sc).
Definition set_icx_tokens (v : gmap addr bool) (sc : score) : score :=
  Score (s_kind sc) (s_name sc) (s_symbol sc) (s_decimals sc) (s_supply sc) (s_bal sc) (s_owner sc) (s_new_owner sc) (s_transferable sc) (s_manager sc) (s_new_manager sc) (s_token sc) (s_allow_reg sc) (s_registry sc) (s_prev_registry sc) (s_conn_tokens sc) (s_total_weight sc) (s_max_fee sc) (s_fee sc) (s_enabled sc) (s_connectors sc) v (s_addrs sc) (s_store sc).
Definition set_addrs (v : gmap string addr) (sc : score) : score :=
  Score (s_kind sc) (s_name sc) (s_symbol sc) (s_decimals sc) (s_supply sc) (s_bal sc) (s_owner sc) (s_new_owner sc) (s_transferable sc) (s_manager sc) (s_new_manager sc) (s_token sc) (s_allow_reg sc) (s_registry sc) (s_prev_registry sc) (s_conn_tokens sc) (s_total_weight sc) (s_max_fee sc) (s_fee sc) (s_enabled sc) (s_connectors sc) (s_icx_tokens sc) v (s_store sc).
Definition set_store (v : Z) (sc : score) : score :=
  Score (s_kind sc) (s_name sc) (s_symbol sc) (s_decimals sc) (s_supply sc) (s_bal sc) (s_owner sc) (s_new_owner sc) (s_transferable sc) (s_manager sc) (s_new_manager sc) (s_token sc) (s_allow_reg sc) (s_registry sc) (s_prev_registry sc) (s_conn_tokens sc) (s_total_weight sc) (s_max_fee sc) (s_fee sc) (s_enabled sc) (s_connectors sc) (s_icx_tokens sc) (s_addrs sc) v.


Definition blank (k : kind) : score :=
  Score k "" "" 0 0 ∅ zero_score zero_score false None None zero_score false zero_score zero_score
        [] 0 0 0 false ∅ ∅ ∅ 0.

(* DictDB int read: 0 for a missing key *)
Definition balance (sc : score) (a : addr) : Z := default 0 (s_bal sc !! a).
Definition add_bal (a : addr) (v : Z) (sc : score) : score :=
  set_bal (<[a := balance sc a + v]> (s_bal sc)) sc.
(* ConnectorDict read, converter.py:64-69 *)
Definition conn (sc : score) (a : addr) : connector := default no_connector (s_connectors sc !! a).
Definition set_conn (a : addr) (cn : connector) (sc : score) : score :=
  set_connectors (<[a := cn]> (s_connectors sc)) sc.

(* @eventlog methods *)
Inductive event :=
| EvTransfer (from to : addr) (v : Z) (d : data)           (* irc_token.py:36-38 *)
| EvIssuance (v : Z) | EvDestruction (v : Z)               (* icx_token.py:28-34, flexible_token.py:33-39 *)
| EvNewFlexibleToken (t : addr)                            (* flexible_token.py:29-31 *)
| EvOwnerUpdate (prev new : addr)                          (* owned.py:25-27 *)
| EvManagerUpdate (prev new : option addr)                 (* managed.py:28-30 *)
| EvConversion (from to trader : addr) (amount ret fee : Z)(* converter.py:98-106 *)
| EvPriceDataUpdate (t : addr) (supply bal weight : Z)     (* converter.py:109-115 *)
| EvConversionFeeUpdate (prev new : Z)                     (* converter.py:118-120 *)
| EvConversionsEnable (b : bool)                           (* converter.py:123-125 *)
| EvAddressUpdate (n : string) (a : addr)                  (* score_registry.py:27-29 *)
| EvOther (z : Z).

Record world := World {
  w_icx : gmap addr Z;
  w_scores : gmap addr score;
  w_log : list (addr * event) (* newest first *) }.
Definition icx (w : world) (a : addr) : Z := default 0 (w_icx w !! a).

(* external methods of all contracts, with their arguments; MFallback is a plain ICX transfer *)
Inductive msg :=
| MFallback
(* owned.py *)      | MGetOwner | MGetNewOwner | MTransferOwnership (a : addr) | MAcceptOwnership
(* managed.py *)    | MGetManager | MGetNewManager | MTransferManagement (a : addr) | MAcceptManagement
(* irc_token.py *)  | MName | MSymbol | MDecimals | MTotalSupply | MBalanceOf (a : addr)
                    | MTransfer (to : addr) (v : Z) (d : option data)
(* icx_token.py *)  | MDeposit | MWithdraw (v : Z) | MWithdrawTo (v : Z) (to : addr)
(* flexible_token*) | MDisableTransfer (b : bool) | MGetVersion | MGetTransferPossibility
                    | MIssue (to : addr) (v : Z) | MDestroy (from : addr) (v : Z)
(* token_holder *)  | MWithdrawTokens (t to : addr) (v : Z)
(* controller *)    | MIsActive | MTransferTokenOwnership (a : addr) | MAcceptTokenOwnership
                    | MDisableTokenTransfers (b : bool) | MWithdrawFromToken (t to : addr) (v : Z) | MGetToken
(* converter, network *) | MTokenFallback (from : addr) (v : Z) (d : data)
(* converter.py *)  | MAddConnector (t : addr) (weight : Z) (venabled : bool)
                    | MUpdateConnector (t : addr) (weight : Z) (venabled : bool) (virtual : Z)
                    | MDisableConnectorPurchases (t : addr) (b : bool)
                    | MUpdateRegistry | MRestoreRegistry | MDisableRegistryUpdate (b : bool)
                    | MDisableConversions (b : bool) | MSetConversionFee (z : Z)
                    | MIsAllowRegistryUpdate | MGetPreviousRegistry | MGetRegistry | MGetConnectorTokenCount
                    | MGetMaxConversionFee | MGetConversionFee | MIsConversionsEnabled
                    | MGetConnectorAt (i : Z) | MGetConnector (t : addr) | MGetConnectorBalance (t : addr)
                    | MGetReturn (from to : addr) (v : Z) | MGetFinalAmount (v magnitude : Z)
(* network.py *)    | MGetExpectedReturnByPath (path : string) (v : Z) | MGetIcxTokenRegistered (t : addr)
                    | MRegisterIcxToken (t : addr) (b : bool)
                    | MConvert (path : string) (min_return : Z)
                    | MConvertFor (path : string) (min_return : Z) (for_ : addr)
(* registry *)      | MGetAddress (n : string) | MGetScoreIds | MRegisterAddress (n : string) (a : addr)
                    | MUnregisterAddress (n : string)
(* anything else, for unknown contracts *) | MOther (z : Z).

(* returned values; RRet: the dictionary {amount, fee} of getReturn *)
Inductive rv := RNone | RBool (b : bool) | RInt (z : Z) | RAddr (a : addr) | RStr (s : string)
| RStrs (l : list string) | RRet (amount fee : Z) | RConn (c : option connector).

(* @external(readonly=True) *)
Definition is_readonly (m : msg) : bool :=
  match m with
  | MGetOwner | MGetNewOwner | MGetManager | MGetNewManager
  | MName | MSymbol | MDecimals | MTotalSupply | MBalanceOf _ | MGetVersion | MGetTransferPossibility
  | MIsActive | MGetToken | MIsAllowRegistryUpdate | MGetPreviousRegistry | MGetRegistry
  | MGetConnectorTokenCount | MGetMaxConversionFee | MGetConversionFee | MIsConversionsEnabled
  | MGetConnectorAt _ | MGetConnector _ | MGetConnectorBalance _ | MGetReturn _ _ _ | MGetFinalAmount _ _
  | MGetExpectedReturnByPath _ _ | MGetIcxTokenRegistered _ | MGetAddress _ | MGetScoreIds => true
  | _ => false
  end.

(* @payable: icx_token.py:47-53, network.py:185-186, 200-201 *)
Definition is_payable (k : kind) (m : msg) : bool :=
  match k, m with
  | KIcx, (MFallback | MDeposit) => true
  | KNet, (MConvert _ _ | MConvertFor _ _ _) => true
  | KAdv, _ => true
  | _, _ => false
  end.

(* ----------------------------------------------------------------- monad ---- *)
Definition M (A : Type) : Type := world -> res (A * world).
Definition ret {A} (a : A) : M A := fun w => Ok (a, w).
Definition bind {A B} (m : M A) (f : A -> M B) : M B :=
  fun w => match m w with Ok (a, w') => f a w' | Err e => Err e end.
Definition fail {A} (e : string) : M A := fun _ => Err e.
Definition lift {A} (r : res A) : M A := fun w => match r with Ok a => Ok (a, w) | Err e => Err e end.
Declare Scope M_scope.
Notation "x <~ m ; k" := (bind m (fun x => k)) (at level 100, m at next level, k at level 200, right associativity) : M_scope.
Notation "m ;; k" := (bind m (fun _ => k)) (at level 100, k at level 200, right associativity) : M_scope.
Local Open Scope M_scope.

(* utils.py:33-41 require *)
Definition require (b : bool) (e : string) : M unit := if b then ret tt else fail e.

(* the frame of a message call: self.address, self.msg.sender, self.msg.value, read-only context *)
Record ctx := Ctx { c_self : addr; c_sender : addr; c_value : Z; c_ro : bool }.

(* read the storage of the contract at address a *)
Definition get_score (a : addr) : M score :=
  fun w => match w_scores w !! a with Some sc => Ok (sc, w) | None => Err "no contract" end.
(* write the storage of the contract at address a *)
Definition put_score (a : addr) (sc : score) : M unit :=
  fun w => Ok (tt, World (w_icx w) (<[a := sc]> (w_scores w)) (w_log w)).
Definition this (c : ctx) : M score := get_score (c_self c).
Definition modify (c : ctx) (f : score -> score) : M unit :=
  sc <~ this c; put_score (c_self c) (f sc).
(* @eventlog: events carry the address of the contract that logs them *)
Definition emit (c : ctx) (e : event) : M unit :=
  fun w => Ok (tt, World (w_icx w) (w_scores w) ((c_self c, e) :: w_log w)).

(* the value transfer of a message call *)
Definition move_icx (s t : addr) (v : Z) : M unit :=
  fun w =>
    if v =? 0 then Ok (tt, w) else
    if (v <? 0) || (icx w s <? v) then Err "out of balance" else
    let m1 := <[s := icx w s - v]> (w_icx w) in
    Ok (tt, World (<[t := default 0 (m1 !! t) + v]> m1) (w_scores w) (w_log w)).

(* utils.py:19-57 *)
Definition require_positive_value (v : Z) : M unit := require (0 <? v) "Amount should be greater than 0".
Definition is_valid_address (a : addr) : bool := bool_decide (a <> zero_score).
Definition require_valid_address (a : addr) : M unit := require (is_valid_address a) "".
Definition require_not_this (c : ctx) (a : addr) : M unit := require (bool_decide (c_self c <> a)) "".
Definition safe_sub (x y : Z) : M Z :=
  if x <? y then fail "Difference between two numbers should be positive" else ret (x - y).

(* use of returned values where the code needs a certain type (otherwise TypeError) *)
Definition as_int (r : rv) : M Z := match r with RInt z => ret z | _ => fail "TypeError" end.
Definition as_addr (r : rv) : M addr := match r with RAddr a => ret a | _ => fail "TypeError" end.

(* isinstance(x, int): a Python bool is an int *)
Definition json_int (j : json) : option Z :=
  match j with JInt z => Some z | JBool b => Some (if b then 1 else 0) | _ => None end.

Section handlers.
(* the message call of the service: read-only context, sender, receiver, value, message *)
Variable call : bool -> addr -> addr -> Z -> msg -> M rv.

(* self.create_interface_score(to, ...).method(...): a call without ICX from this contract *)
Definition ecall (c : ctx) (to : addr) (m : msg) : M rv := call (c_ro c) (c_self c) to 0 m.
(* self.icx.transfer(to, v) *)
Definition icx_transfer (c : ctx) (to : addr) (v : Z) : M rv := call (c_ro c) (c_self c) to v MFallback.

(* ----------------------------------------------------------------- owned.py ---- *)
(* owned.py:34-36 on_install *)
Definition owned_install (c : ctx) : M unit :=
  modify c (set_owner (c_sender c));; modify c (set_new_owner zero_score).
(* owned.py:41-44 require_owner_only *)
Definition require_owner_only (c : ctx) : M unit :=
  sc <~ this c; require (bool_decide (c_sender c = s_owner sc)) "Invalid owner".
(* owned.py:54-59 transferOwnerShip *)
Definition transferOwnerShip (c : ctx) (new : addr) : M unit :=
  require_owner_only c;;
  sc <~ this c;
  require (bool_decide (new <> s_owner sc)) "New owner is already owner";;
  modify c (set_new_owner new).
(* owned.py:61-70 acceptOwnerShip *)
Definition acceptOwnerShip (c : ctx) : M unit :=
  sc <~ this c;
  require (bool_decide (c_sender c = s_new_owner sc)) "You are not a new owner";;
  emit c (EvOwnerUpdate (s_owner sc) (s_new_owner sc));;
  modify c (set_owner (s_new_owner sc));;
  modify c (set_new_owner zero_score).

(* --------------------------------------------------------------- managed.py ---- *)
(* managed.py:49-51 require_owner_or_manager_only *)
Definition require_owner_or_manager_only (c : ctx) : M unit :=
  sc <~ this c;
  require (bool_decide (Some (c_sender c) = s_manager sc) || bool_decide (c_sender c = s_owner sc)) "Invalid sender".
(* managed.py:61-73 transferManagement *)
Definition transferManagement (c : ctx) (new : addr) : M unit :=
  require_owner_or_manager_only c;;
  sc <~ this c;
  require (bool_decide (s_manager sc <> Some new)) "New manager is already manager";;
  modify c (set_new_manager (Some new)).
(* managed.py:75-87 acceptManagement *)
Definition acceptManagement (c : ctx) : M unit :=
  sc <~ this c;
  require (bool_decide (Some (c_sender c) = s_new_manager sc)) "You are not a new manager";;
  emit c (EvManagerUpdate (s_manager sc) (s_new_manager sc));;
  modify c (set_manager (s_new_manager sc));;
  modify c (set_new_manager (Some zero_score)).

(* -------------------------------------------------------------- irc_token.py ---- *)
(* irc_token.py:48-63 on_install *)
Definition irc_install (c : ctx) (name symbol : string) (initial decimals : Z) : M unit :=
  require (negb (initial <? 0)) "Initial supply cannot be less than zero";;
  require (negb (decimals <? 0)) "Decimals cannot be less than zero";;
  let total := initial * 10 ^ decimals in
  modify c (set_name name);; modify c (set_symbol symbol);;
  modify c (set_supply total);; modify c (set_decimals decimals);;
  modify c (fun sc => set_bal (<[c_sender c := total]> (s_bal sc)) sc).
(* irc_token.py:94-113 _transfer *)
Definition irc_transfer_ (c : ctx) (from to : addr) (v : Z) (d : data) : M unit :=
  require (negb (v <? 0)) "Transferring value cannot be less than zero";;
  sc <~ this c;
  require (negb (balance sc from <? v)) "Out of balance";;
  modify c (add_bal from (- v));;
  modify c (add_bal to v);;
  (if is_contract to then ecall c to (MTokenFallback from v d) else ret RNone);;
  emit c (EvTransfer from to v d).
(* irc_token.py:88-92 transfer *)
Definition irc_transfer (c : ctx) (to : addr) (v : Z) (d : option data) : M unit :=
  irc_transfer_ c (c_sender c) to v (default data_none d).

(* ----------------------------------------------------------- token_holder.py ---- *)
(* token_holder.py:33-41 withdrawTokens *)
Definition withdrawTokens (c : ctx) (token to : addr) (v : Z) : M unit :=
  require_owner_only c;;
  require_positive_value v;;
  require_not_this c to;;
  require_valid_address to;;
  ecall c token (MTransfer to v None);;
  ret tt.

(* -------------------------------------------------------------- icx_token.py ---- *)
(* icx_token.py:39-41 on_install *)
Definition icx_install (c : ctx) : M unit :=
  irc_install c "ICX Token" "ICXT" 0 18;; owned_install c.
(* icx_token.py:47-59 fallback, deposit *)
Definition icx_deposit (c : ctx) : M unit :=
  modify c (add_bal (c_sender c) (c_value c));;
  modify c (fun sc => set_supply (s_supply sc + c_value c) sc);;
  emit c (EvIssuance (c_value c));;
  emit c (EvTransfer (c_self c) (c_sender c) (c_value c) data_none).
(* icx_token.py:65-76 withdrawTo *)
Definition icx_withdrawTo (c : ctx) (v : Z) (to : addr) : M unit :=
  require_positive_value v;;
  sc <~ this c;
  require (negb (balance sc (c_sender c) <? v)) "Out of balance";;
  modify c (add_bal (c_sender c) (- v));;
  modify c (fun sc => set_supply (s_supply sc - v) sc);;
  icx_transfer c to v;;
  emit c (EvDestruction v).
(* icx_token.py:78-81 transfer *)
Definition icx_transferTo (c : ctx) (to : addr) (v : Z) (d : option data) : M unit :=
  require_not_this c to;; irc_transfer c to v d.

(* --------------------------------------------------------- flexible_token.py ---- *)
(* flexible_token.py:46-53 on_install *)
Definition flex_install (c : ctx) (name symbol : string) (initial decimals : Z) : M unit :=
  irc_install c name symbol initial decimals;; owned_install c;;
  modify c (set_transferable true);;
  emit c (EvNewFlexibleToken (c_self c)).
(* flexible_token.py:62-65 disableTransfer *)
Definition flex_disableTransfer (c : ctx) (b : bool) : M unit :=
  require_owner_only c;; modify c (set_transferable (negb b)).
(* flexible_token.py:75-87 issue *)
Definition flex_issue (c : ctx) (to : addr) (v : Z) : M unit :=
  require_positive_value v;;
  require_owner_only c;;
  require_valid_address to;;
  require_not_this c to;;
  modify c (add_bal to v);;
  modify c (fun sc => set_supply (s_supply sc + v) sc);;
  emit c (EvIssuance v);;
  emit c (EvTransfer (c_self c) to v data_none).
(* flexible_token.py:89-101 destroy *)
Definition flex_destroy (c : ctx) (from : addr) (v : Z) : M unit :=
  require_positive_value v;;
  sc <~ this c;
  require (v <=? balance sc from) "Out of balance";;
  require (bool_decide (c_sender c = from) || bool_decide (c_sender c = s_owner sc))
          "You are not token holder or flexible token owner";;
  modify c (add_bal from (- v));;
  modify c (fun sc => set_supply (s_supply sc - v) sc);;
  emit c (EvDestruction v);;
  emit c (EvTransfer from (c_self c) v data_none).
(* flexible_token.py:103-106 transfer *)
Definition flex_transfer (c : ctx) (to : addr) (v : Z) (d : option data) : M unit :=
  sc <~ this c;
  require (s_transferable sc) "This flexible token cannot transfer";;
  irc_transfer c to v d.

(* ----------------------------------------------- flexible_token_controller.py ---- *)
(* flexible_token_controller.py:45-48 on_install *)
Definition controller_install (c : ctx) (token : addr) : M unit :=
  require_valid_address token;; owned_install c;; modify c (set_token token).
(* flexible_token_controller.py:53-59 _is_active; a returned value that is no address is just unequal *)
Definition is_active (c : ctx) : M bool :=
  sc <~ this c;
  r <~ ecall c (s_token sc) MGetOwner;
  ret (match r with RAddr a => bool_decide (a = c_self c) | _ => false end).
(* flexible_token_controller.py:61-71 *)
Definition require_active (c : ctx) : M unit := b <~ is_active c; require b "required active".
Definition require_inactive (c : ctx) : M unit := b <~ is_active c; require (negb b) "required inactive".
(* flexible_token_controller.py:81-127: owner-only forwarding to the token *)
Definition controller_forward (c : ctx) (m : msg) : M unit :=
  require_owner_only c;; sc <~ this c; ecall c (s_token sc) m;; ret tt.

(* -------------------------------------------------------------- converter.py ---- *)
(* converter.py:128-129 _require_valid_connector *)
Definition require_valid_connector (c : ctx) (t : addr) : M unit :=
  sc <~ this c; require (cn_set (conn sc t)) "invalid connector".

(* converter.py:788-805 getConnectorBalance *)
Definition getConnectorBalance (c : ctx) (t : addr) : M Z :=
  require_valid_connector c t;;
  sc <~ this c;
  if cn_venabled (conn sc t) then ret (cn_virtual (conn sc t))
  else r <~ ecall c t (MBalanceOf (c_self c)); as_int r.

(* converter.py:829-839 getFinalAmount; a negative magnitude gives Python floats: not modelled (fails) *)
Definition final_amount (fee v magnitude : Z) : Z :=
  v * (1000000 - fee) ^ magnitude / 1000000 ^ magnitude.
Definition getFinalAmount (c : ctx) (v magnitude : Z) : M Z :=
  require (0 <=? magnitude) "float";;
  sc <~ this c; ret (final_amount (s_fee sc) v magnitude).

(* flexible_token.totalSupply() of the converter's token *)
Definition token_supply (c : ctx) : M Z :=
  sc <~ this c; r <~ ecall c (s_token sc) MTotalSupply; as_int r.

(* converter.py:457-458, 481-482, 515-516: fee split *)
Definition with_fee (c : ctx) (calculated magnitude : Z) : M (Z * Z) :=
  final <~ getFinalAmount c calculated magnitude;
  fee <~ safe_sub calculated final;
  ret (final, fee).

(* converter.py:431-458 get_purchase_return *)
Definition get_purchase_return (c : ctx) (t : addr) (amount : Z) (from_conversion : bool) : M (Z * Z) :=
  require_active c;;
  require_valid_connector c t;;
  sc <~ this c;
  require (cn_penabled (conn sc t)) "required purchase enabled";;
  supply <~ token_supply c;
  bal <~ getConnectorBalance c t;
  let bal := if from_conversion then bal - amount else bal in
  sc <~ this c;
  calculated <~ lift (calculate_purchase_return supply bal (cn_weight (conn sc t)) amount);
  with_fee c calculated 1.

(* converter.py:460-482 get_sale_return *)
Definition get_sale_return (c : ctx) (t : addr) (amount : Z) : M (Z * Z) :=
  require_active c;;
  require_valid_connector c t;;
  supply <~ token_supply c;
  bal <~ getConnectorBalance c t;
  sc <~ this c;
  calculated <~ lift (calculate_sale_return supply bal (cn_weight (conn sc t)) amount);
  with_fee c calculated 1.

(* converter.py:484-516 get_cross_connector_return *)
Definition get_cross_connector_return (c : ctx) (from to : addr) (amount : Z) (from_conversion : bool)
  : M (Z * Z) :=
  require_active c;;
  require_valid_connector c from;;
  require_valid_connector c to;;
  sc <~ this c;
  require (cn_penabled (conn sc to)) "required purchase enabled";;
  from_bal <~ getConnectorBalance c from;
  let from_bal := if from_conversion then from_bal - amount else from_bal in
  to_bal <~ getConnectorBalance c to;
  sc <~ this c;
  calculated <~ lift (calculate_cross_connector_return from_bal (cn_weight (conn sc from))
                        to_bal (cn_weight (conn sc to)) amount);
  with_fee c calculated 2.

(* connector.virtual_balance.set(...) *)
Definition set_virtual (t : addr) (v : Z) (sc : score) : score :=
  let cn := conn sc t in
  set_conn t (Connector v (cn_weight cn) (cn_venabled cn) (cn_penabled cn) (cn_set cn)) sc.

(* converter.py:316-319, 371-374, 425-428: logging PriceDataUpdate *)
Definition price_data_update (c : ctx) (t : addr) (supply : Z) : M unit :=
  bal <~ getConnectorBalance c t;
  sc <~ this c;
  emit c (EvPriceDataUpdate t supply bal (cn_weight (conn sc t))).

(* converter.py:283-321 _buy *)
Definition buy (c : ctx) (trader t : addr) (amount min_return : Z) : M Z :=
  r <~ get_purchase_return c t amount true;
  let '(ret_amount, fee) := r in
  require (min_return <=? ret_amount) "returning amount less than minimum requested amount";;
  sc <~ this c;
  (if cn_venabled (conn sc t) then modify c (set_virtual t (cn_virtual (conn sc t) + amount)) else ret tt);;
  sc <~ this c;
  ecall c (s_token sc) (MIssue trader ret_amount);;
  emit c (EvConversion t (s_token sc) trader amount ret_amount fee);;
  supply <~ token_supply c;
  price_data_update c t supply;;
  ret ret_amount.

(* converter.py:323-376 _sell *)
Definition sell (c : ctx) (trader t : addr) (amount min_return : Z) : M Z :=
  r <~ get_sale_return c t amount;
  let '(ret_amount, fee) := r in
  require (min_return <=? ret_amount) "returning amount less than minimum requested amount";;
  supply <~ token_supply c;
  bal <~ getConnectorBalance c t;
  require ((ret_amount <? bal) || ((ret_amount =? bal) && (amount =? supply)))
          "returning amount does not meet connector balance condition";;
  sc <~ this c;
  (if cn_venabled (conn sc t) then
     v <~ safe_sub (cn_virtual (conn sc t)) ret_amount; modify c (set_virtual t v)
   else ret tt);;
  sc <~ this c;
  ecall c (s_token sc) (MDestroy (c_self c) amount);;
  ecall c t (MTransfer trader ret_amount (Some data_result));;
  emit c (EvConversion (s_token sc) t trader amount ret_amount fee);;
  supply <~ token_supply c;
  price_data_update c t supply;;
  ret ret_amount.

(* converter.py:378-429 _convert_cross_connector *)
Definition convert_cross (c : ctx) (trader from to : addr) (amount min_return : Z) : M Z :=
  r <~ get_cross_connector_return c from to amount true;
  let '(ret_amount, fee) := r in
  require (min_return <=? ret_amount) "returning amount less than minimum requested amount";;
  sc <~ this c;
  (if cn_venabled (conn sc from) then modify c (set_virtual from (cn_virtual (conn sc from) + amount)) else ret tt);;
  sc <~ this c;
  (if cn_venabled (conn sc to) then
     v <~ safe_sub (cn_virtual (conn sc to)) ret_amount; modify c (set_virtual to v)
   else ret tt);;
  to_bal <~ getConnectorBalance c to;
  require (ret_amount <? to_bal) "returning amount does not meet connector balance condition";;
  ecall c to (MTransfer trader ret_amount (Some data_result));;
  emit c (EvConversion from to trader amount ret_amount fee);;
  supply <~ token_supply c;
  price_data_update c from supply;;
  price_data_update c to supply;;
  ret ret_amount.

(* converter.py:252-281 _convert *)
Definition conv_convert (c : ctx) (trader from to : addr) (amount min_return : Z) : M Z :=
  sc <~ this c;
  require (s_enabled sc) "required conversions enabled";;
  require_positive_value min_return;;
  require (bool_decide (from <> to)) "from token and to token must not be same";;
  if bool_decide (to = s_token sc) then buy c trader from amount min_return
  else if bool_decide (from = s_token sc) then sell c trader to amount min_return
  else convert_cross c trader from to amount min_return.

(* converter.py:245-247: toToken and minReturn of the request *)
Definition conv_request (d : data) : option (addr * Z) :=
  match d with
  | DRaw _ => None
  | DJson m =>
      match m !! "toToken"%string, m !! "minReturn"%string with
      | Some (JStr s), Some j =>
          match addr_from_string s, json_int j with Some a, Some z => Some (a, z) | _, _ => None end
      | _, _ => None
      end
  end.

(* converter.py:210-250 tokenFallback.  Line 231 compares _from with the method object
   self.getManager (it is not called), which is never equal to an address. *)
Definition conv_tokenFallback (c : ctx) (from : addr) (v : Z) (d : data) : M rv :=
  require_positive_value v;;
  sc <~ this c;
  let from_token := c_sender c in
  accepted <~ (if bool_decide (from = s_owner sc) && cn_set (conn sc from_token)
               then b <~ is_active c; ret (negb b) else ret false);
  if (accepted : bool) then ret RNone
  else
    sc <~ this c;
    r <~ ecall c (s_registry sc) (MGetAddress "Network");
    require (match r with RAddr network => bool_decide (from = network) | _ => false end)
            "trader must be network only";;
    match conv_request d with
    | None => fail "invalid request"
    | Some (to_token, min_return) =>
        r <~ conv_convert c from from_token to_token v min_return; ret (RInt r)
    end.

(* converter.py:807-827 getReturn *)
Definition getReturn (c : ctx) (from to : addr) (amount : Z) : M (Z * Z) :=
  require (bool_decide (from <> to)) "from token and to token must not be same";;
  sc <~ this c;
  if bool_decide (to = s_token sc) then get_purchase_return c from amount false
  else if bool_decide (from = s_token sc) then get_sale_return c to amount
  else get_cross_connector_return c from to amount false.

(* converter.py:145-146 _require_valid_connector_weight *)
Definition require_valid_connector_weight (weight : Z) : M unit :=
  require ((0 <? weight) && (weight <=? 1000000)) "invalid connector weight".

(* converter.py:518-547 addConnector *)
Definition addConnector (c : ctx) (t : addr) (weight : Z) (venabled : bool) : M unit :=
  require_owner_only c;;
  require_inactive c;;
  require_valid_address t;;
  require_not_this c t;;
  require_valid_connector_weight weight;;
  sc <~ this c;
  require (bool_decide (s_token sc <> t)) "the input token should not be the flexible token";;
  require (negb (cn_set (conn sc t))) "the input token has already been set";;
  require (s_total_weight sc + weight <=? 1000000) "total connector weight is overflow";;
  modify c (set_conn t (Connector 0 weight venabled true true));;
  modify c (fun sc => set_conn_tokens (s_conn_tokens sc ++ [t]) sc);;
  modify c (fun sc => set_total_weight (s_total_weight sc + weight) sc).

(* converter.py:549-574 updateConnector *)
Definition updateConnector (c : ctx) (t : addr) (weight : Z) (venabled : bool) (virtual : Z) : M unit :=
  require_owner_only c;;
  require_valid_connector c t;;
  require_valid_connector_weight weight;;
  sc <~ this c;
  let new_total := s_total_weight sc - cn_weight (conn sc t) + weight in
  require (new_total <=? 1000000) "total connector weight is overflow";;
  modify c (set_total_weight new_total);;
  modify c (fun sc => set_conn t (Connector virtual weight venabled (cn_penabled (conn sc t)) (cn_set (conn sc t))) sc).

(* converter.py:576-589 disableConnectorPurchases *)
Definition disableConnectorPurchases (c : ctx) (t : addr) (b : bool) : M unit :=
  require_owner_only c;;
  require_valid_connector c t;;
  modify c (fun sc => set_conn t (Connector (cn_virtual (conn sc t)) (cn_weight (conn sc t)) (cn_venabled (conn sc t))
                                            (negb b) (cn_set (conn sc t))) sc).

(* converter.py:591-612 updateRegistry *)
Definition updateRegistry (c : ctx) : M unit :=
  sc <~ this c;
  require (s_allow_reg sc || bool_decide (c_sender c = s_owner sc)) "should be allowed updating or caller is the owner";;
  r <~ ecall c (s_registry sc) (MGetAddress "ScoreRegistry");
  new <~ as_addr r;
  require_valid_address new;;
  sc <~ this c;
  require (bool_decide (new <> s_registry sc)) "new registry should not be same with old one";;
  modify c (set_prev_registry (s_registry sc));;
  modify c (set_registry new).

(* converter.py:614-626 restoreRegistry *)
Definition restoreRegistry (c : ctx) : M unit :=
  require_owner_or_manager_only c;;
  modify c (fun sc => set_registry (s_prev_registry sc) sc);;
  modify c (set_allow_reg false).

(* converter.py:628-639 disableRegistryUpdate *)
Definition disableRegistryUpdate (c : ctx) (b : bool) : M unit :=
  require_owner_or_manager_only c;; modify c (set_allow_reg (negb b)).

(* converter.py:641-655 disableConversions *)
Definition disableConversions (c : ctx) (b : bool) : M unit :=
  require_owner_or_manager_only c;;
  sc <~ this c;
  if Bool.eqb (s_enabled sc) b then
    modify c (set_enabled (negb b));; emit c (EvConversionsEnable (negb b))
  else ret tt.

(* converter.py:657-670 setConversionFee *)
Definition setConversionFee (c : ctx) (fee : Z) : M unit :=
  require_owner_or_manager_only c;;
  sc <~ this c;
  require ((0 <=? fee) && (fee <=? s_max_fee sc)) "invalid conversion fee";;
  emit c (EvConversionFeeUpdate (s_fee sc) fee);;
  modify c (set_fee fee).

(* converter.py:672-685 withdrawTokens *)
Definition conv_withdrawTokens (c : ctx) (t to : addr) (v : Z) : M unit :=
  b <~ is_active c;
  sc <~ this c;
  require (negb b || negb (cn_set (conn sc t))) "withdrawing token should be inactive or not a connector token";;
  withdrawTokens c t to v.

(* converter.py:760-768 getConnectorAt; ArrayDB accepts negative indices like a list *)
Definition getConnectorAt (c : ctx) (i : Z) : M addr :=
  sc <~ this c;
  let n := Z.of_nat (List.length (s_conn_tokens sc)) in
  let j := if i <? 0 then i + n else i in
  require ((0 <=? j) && (j <? n)) "IndexError";;
  match s_conn_tokens sc !! Z.to_nat j with Some a => ret a | None => fail "IndexError" end.

(* converter.py:178-205 on_install; the managing part (managed.py:37-39) is never called *)
Definition conv_install (c : ctx) (token registry : addr) (max_fee : Z) (connector : option addr) (weight : Z) : M unit :=
  require_valid_address registry;;
  require ((0 <=? max_fee) && (max_fee <=? 1000000)) "invalid max conversion fee";;
  controller_install c token;;
  modify c (set_allow_reg true);;
  modify c (set_registry registry);;
  modify c (set_prev_registry registry);;
  modify c (set_enabled true);;
  modify c (set_max_fee max_fee);;
  match connector with
  | Some t => if is_valid_address t then addConnector c t weight false else ret tt
  | None => ret tt
  end.

(* ---------------------------------------------------------- score_registry.py ---- *)
(* interfaces/abc_score_registry.py:24-28 SCORE_KEYS *)
Definition score_keys : list string := ["ScoreRegistry"; "Network"]%string.
(* score_registry.py:53-61 registerAddress *)
Definition registerAddress (c : ctx) (n : string) (a : addr) : M unit :=
  require_owner_only c;;
  require_valid_address a;;
  require (is_contract a) "only SCORE address can be registered";;
  require (bool_decide (n ∈ score_keys)) "_scoreName is not in the score key list";;
  modify c (fun sc => set_addrs (<[n := a]> (s_addrs sc)) sc);;
  emit c (EvAddressUpdate n a).
(* score_registry.py:63-69 unregisterAddress *)
Definition unregisterAddress (c : ctx) (n : string) : M unit :=
  require_owner_only c;;
  sc <~ this c;
  require (bool_decide (s_addrs sc !! n <> None)) "this score is not registered";;
  modify c (fun sc => set_addrs (delete n (s_addrs sc)) sc);;
  emit c (EvAddressUpdate n zero_score).
(* score_registry.py:35-37 on_install *)
Definition reg_install (c : ctx) : M unit :=
  owned_install c;; registerAddress c "ScoreRegistry" (c_self c).

(* ----------------------------------------------------------------- network.py ---- *)
(* network.py:123-135 _require_valid_path: the set comprehension over the odd positions *)
Fixpoint odd_positions (p : list addr) : list addr :=
  match p with
  | _ :: f :: p' => f :: odd_positions p'
  | _ => []
  end.
Definition valid_path (p : list addr) : bool :=
  let n := List.length p in
  bool_decide (2 < n)%nat && bool_decide (n <= 21)%nat && bool_decide (n mod 2 = 1)%nat
  && bool_decide (size (list_to_set (odd_positions p) : gset addr) = n / 2)%nat.
Definition require_valid_path (p : list addr) : M unit := require (valid_path p) "invalid path".

(* network.py:91-121 _convert_bytes_data *)
Record request := Request { rq_path : list addr; rq_min : json; rq_for : addr }.
Definition convert_bytes_data (d : data) (sender : addr) : option request :=
  match d with
  | DRaw _ => None
  | DJson m =>
      match m !! "path"%string, m !! "minReturn"%string with
      | Some (JStr path), Some jmin =>
          match convert_path path, json_int jmin with
          | Some p, Some _ =>
              match m !! "for"%string with
              | None | Some JNull => Some (Request p jmin sender)
              | Some (JStr s) => match addr_from_string s with Some a => Some (Request p jmin a) | None => None end
              | Some _ => None
              end
          | _, _ => None
          end
      | _, _ => None
      end
  end.

(* network.py:280-282: the data for the converter, as the converter reads it (JsonModel.hop_bytes are the bytes) *)
Definition hop_data (to : addr) (min_return : json) : data :=
  DJson (<["toToken"%string := JStr (addr_to_string to)]> (<["minReturn"%string := min_return]> ∅)).

(* network.py:254-290 _convert_by_path: the loop over the hops (rest = path after from) *)
Fixpoint convert_by_path (c : ctx) (from : addr) (rest : list addr) (amount : Z) (min_return : json) : M (addr * Z) :=
  match rest with
  | flexible :: to :: rest' =>
      r <~ ecall c flexible MGetOwner;
      converter <~ as_addr r;
      r <~ ecall c to (MBalanceOf (c_self c));
      before <~ as_int r;
      let m := match rest' with [] => min_return | _ => JInt 1 end in
      ecall c from (MTransfer converter amount (Some (hop_data to m)));;
      r <~ ecall c to (MBalanceOf (c_self c));
      after <~ as_int r;
      convert_by_path c to rest' (after - before) min_return
  | _ => ret (from, amount)
  end.

(* network.py:230-252 _convert_for_internal *)
Definition convert_for_internal (c : ctx) (path : list addr) (amount : Z) (min_return : json) (for_ : addr) : M Z :=
  match path with
  | [] => fail "IndexError"
  | p0 :: rest =>
      r <~ convert_by_path c p0 rest amount min_return;
      let '(to, amount) := r in
      sc <~ this c;
      (if default false (s_icx_tokens sc !! to)
       then ecall c to (MWithdrawTo amount for_)
       else ecall c to (MTransfer for_ amount (Some data_none)));;
      ret amount
  end.

(* network.py:151-183 tokenFallback *)
Definition net_tokenFallback (c : ctx) (from : addr) (v : Z) (d : data) : M unit :=
  if bool_decide (d = data_result) then ret tt
  else match convert_bytes_data d from with
       | None => fail "invalid request"
       | Some rq =>
           require (bool_decide (head (rq_path rq) = Some (c_sender c))) "wrong access, only token can call this method";;
           match json_int (rq_min rq) with
           | None => fail "need valid minReturn data"
           | Some z => require_positive_value z
           end;;
           require_valid_address (rq_for rq);;
           require_valid_path (rq_path rq);;
           convert_for_internal c (rq_path rq) v (rq_min rq) (rq_for rq);;
           ret tt
       end.

(* network.py:200-228 convertFor *)
Definition convertFor (c : ctx) (path : string) (min_return : Z) (for_ : addr) : M Z :=
  match convert_path path with
  | None => fail "invalid address"
  | Some p =>
      require_valid_path p;;
      require_positive_value min_return;;
      require_valid_address for_;;
      require_not_this c for_;;
      sc <~ this c;
      match p with
      | [] => fail "IndexError"
      | p0 :: _ =>
          require (default false (s_icx_tokens sc !! p0)) "wrong path, first address must be icx token";;
          icx_transfer c p0 (c_value c);;
          convert_for_internal c p (c_value c) (JInt min_return) for_
      end
  end.

(* network.py:137-149 registerIcxToken *)
Definition registerIcxToken (c : ctx) (t : addr) (b : bool) : M unit :=
  require_owner_only c;;
  require_valid_address t;;
  require_not_this c t;;
  modify c (fun sc => set_icx_tokens (<[t := b]> (s_icx_tokens sc)) sc).

(* network.py:64-74: the loop of getExpectedReturnByPath *)
Fixpoint expected_return (c : ctx) (from : addr) (rest : list addr) (amount : Z) : M Z :=
  match rest with
  | flexible :: to :: rest' =>
      r <~ ecall c flexible MGetOwner;
      converter <~ as_addr r;
      r <~ ecall c converter (MGetReturn from to amount);
      match r with
      | RRet amount' _ => expected_return c to rest' amount'
      | _ => fail "KeyError"
      end
  | _ => ret amount
  end.
(* network.py:48-74 getExpectedReturnByPath *)
Definition getExpectedReturnByPath (c : ctx) (path : string) (amount : Z) : M Z :=
  match convert_path path with
  | None => fail "invalid address"
  | Some p =>
      require_valid_path p;;
      require_positive_value amount;;
      match p with
      | [] => fail "IndexError"
      | p0 :: rest => expected_return c p0 rest amount
      end
  end.

(* ------------------------------------------------------- dispatch of methods ---- *)
Definition done_ (m : M unit) : M rv := m;; ret RNone.
Definition no_method : M rv := fail "MethodNotFound".

(* owned.py external methods *)
Definition owned_methods (c : ctx) (m : msg) (other : M rv) : M rv :=
  match m with
  | MGetOwner => sc <~ this c; ret (RAddr (s_owner sc))
  | MGetNewOwner => sc <~ this c; ret (RAddr (s_new_owner sc))
  | MTransferOwnership a => done_ (transferOwnerShip c a)
  | MAcceptOwnership => done_ (acceptOwnerShip c)
  | _ => other
  end.
(* irc_token.py:68-86 read-only methods *)
Definition irc_views (c : ctx) (m : msg) (other : M rv) : M rv :=
  match m with
  | MName => sc <~ this c; ret (RStr (s_name sc))
  | MSymbol => sc <~ this c; ret (RStr (s_symbol sc))
  | MDecimals => sc <~ this c; ret (RInt (s_decimals sc))
  | MTotalSupply => sc <~ this c; ret (RInt (s_supply sc))
  | MBalanceOf a => sc <~ this c; ret (RInt (balance sc a))
  | _ => other
  end.
(* managed.py external methods *)
Definition managed_methods (c : ctx) (m : msg) (other : M rv) : M rv :=
  match m with
  | MGetManager => sc <~ this c; ret (match s_manager sc with Some a => RAddr a | None => RNone end)
  | MGetNewManager => sc <~ this c; ret (match s_new_manager sc with Some a => RAddr a | None => RNone end)
  | MTransferManagement a => done_ (transferManagement c a)
  | MAcceptManagement => done_ (acceptManagement c)
  | _ => other
  end.

(* class IRCToken *)
Definition irc_handler (c : ctx) (m : msg) : M rv :=
  irc_views c m
    match m with
    | MTransfer to v d => done_ (irc_transfer c to v d)
    | _ => no_method
    end.
(* class IcxToken(IRCToken, TokenHolder) *)
Definition icx_handler (c : ctx) (m : msg) : M rv :=
  irc_views c m (owned_methods c m
    match m with
    | MFallback | MDeposit => done_ (icx_deposit c)
    | MWithdraw v => done_ (icx_withdrawTo c v (c_sender c))   (* icx_token.py:61-63 *)
    | MWithdrawTo v to => done_ (icx_withdrawTo c v to)
    | MTransfer to v d => done_ (icx_transferTo c to v d)
    | MWithdrawTokens t to v => done_ (withdrawTokens c t to v)
    | _ => no_method
    end).
(* class FlexibleToken(IRCToken, TokenHolder) *)
Definition flex_handler (c : ctx) (m : msg) : M rv :=
  irc_views c m (owned_methods c m
    match m with
    | MTransfer to v d => done_ (flex_transfer c to v d)
    | MDisableTransfer b => done_ (flex_disableTransfer c b)
    | MGetVersion => ret (RStr "0.1")
    | MGetTransferPossibility => sc <~ this c; ret (RBool (s_transferable sc))
    | MIssue to v => done_ (flex_issue c to v)
    | MDestroy from v => done_ (flex_destroy c from v)
    | MWithdrawTokens t to v => done_ (withdrawTokens c t to v)
    | _ => no_method
    end).
(* class Converter(FlexibleTokenController, Managed) *)
Definition conv_handler (c : ctx) (m : msg) : M rv :=
  owned_methods c m (managed_methods c m
    match m with
    | MTokenFallback from v d => conv_tokenFallback c from v d
    | MIsActive => b <~ is_active c; ret (RBool b)
    | MTransferTokenOwnership a => done_ (controller_forward c (MTransferOwnership a))
    | MAcceptTokenOwnership => done_ (controller_forward c MAcceptOwnership)
    | MDisableTokenTransfers b => done_ (controller_forward c (MDisableTransfer b))
    | MWithdrawFromToken t to v => done_ (controller_forward c (MWithdrawTokens t to v))
    | MGetToken => sc <~ this c; ret (RAddr (s_token sc))
    | MAddConnector t weight venabled => done_ (addConnector c t weight venabled)
    | MUpdateConnector t weight venabled virtual => done_ (updateConnector c t weight venabled virtual)
    | MDisableConnectorPurchases t b => done_ (disableConnectorPurchases c t b)
    | MUpdateRegistry => done_ (updateRegistry c)
    | MRestoreRegistry => done_ (restoreRegistry c)
    | MDisableRegistryUpdate b => done_ (disableRegistryUpdate c b)
    | MDisableConversions b => done_ (disableConversions c b)
    | MSetConversionFee z => done_ (setConversionFee c z)
    | MWithdrawTokens t to v => done_ (conv_withdrawTokens c t to v)
    (* converter.py:687-758 *)
    | MIsAllowRegistryUpdate => sc <~ this c; ret (RBool (s_allow_reg sc))
    | MGetPreviousRegistry => sc <~ this c; ret (RAddr (s_prev_registry sc))
    | MGetRegistry => sc <~ this c; ret (RAddr (s_registry sc))
    | MGetConnectorTokenCount => sc <~ this c; ret (RInt (Z.of_nat (List.length (s_conn_tokens sc))))
    | MGetMaxConversionFee => sc <~ this c; ret (RInt (s_max_fee sc))
    | MGetConversionFee => sc <~ this c; ret (RInt (s_fee sc))
    | MIsConversionsEnabled => sc <~ this c; ret (RBool (s_enabled sc))
    | MGetConnectorAt i => a <~ getConnectorAt c i; ret (RAddr a)
    (* converter.py:770-786 *)
    | MGetConnector t => sc <~ this c; ret (RConn (if cn_set (conn sc t) then Some (conn sc t) else None))
    | MGetConnectorBalance t => z <~ getConnectorBalance c t; ret (RInt z)
    | MGetReturn from to v => r <~ getReturn c from to v; ret (RRet r.1 r.2)
    | MGetFinalAmount v magnitude => z <~ getFinalAmount c v magnitude; ret (RInt z)
    | _ => no_method
    end).
(* class Network(TokenHolder) *)
Definition net_handler (c : ctx) (m : msg) : M rv :=
  owned_methods c m
    match m with
    | MGetExpectedReturnByPath path v => z <~ getExpectedReturnByPath c path v; ret (RInt z)
    | MGetIcxTokenRegistered t => sc <~ this c; ret (RBool (default false (s_icx_tokens sc !! t)))
    | MRegisterIcxToken t b => done_ (registerIcxToken c t b)
    | MTokenFallback from v d => done_ (net_tokenFallback c from v d)
    | MConvert path min_return => z <~ convertFor c path min_return (c_sender c); ret (RInt z) (* network.py:185-198 *)
    | MConvertFor path min_return for_ => z <~ convertFor c path min_return for_; ret (RInt z)
    | MWithdrawTokens t to v => done_ (withdrawTokens c t to v)
    | _ => no_method
    end.
(* class ScoreRegistry(Owned) *)
Definition reg_handler (c : ctx) (m : msg) : M rv :=
  owned_methods c m
    match m with
    | MGetAddress n => sc <~ this c; ret (RAddr (default zero_score (s_addrs sc !! n))) (* score_registry.py:42-47 *)
    | MGetScoreIds => ret (RStrs score_keys)
    | MRegisterAddress n a => done_ (registerAddress c n a)
    | MUnregisterAddress n => done_ (unregisterAddress c n)
    | _ => no_method
    end.

Definition honest_handler (k : kind) (c : ctx) (m : msg) : M rv :=
  match k with
  | KIrc => irc_handler c m
  | KIcx => icx_handler c m
  | KFlex => flex_handler c m
  | KConv => conv_handler c m
  | KNet => net_handler c m
  | KReg => reg_handler c m
  | KAdv => no_method
  end.

End handlers.

(* -------------------------------------------------------- unknown contracts ---- *)
(* the code of an unknown contract, as an interaction with the service *)
Inductive prog :=
| PRet (r : rv)
| PFail
| PCall (ro : bool) (to : addr) (v : Z) (m : msg) (k : rv -> prog)         (* failure propagates *)
| PTry (ro : bool) (to : addr) (v : Z) (m : msg) (k : option rv -> prog)   (* failure is caught *)
| PGet (k : Z -> prog) | PSet (z : Z) (k : prog)                          (* own storage *)
| PBalance (a : addr) (k : Z -> prog)                                     (* ICX balance *)
| PEmit (z : Z) (k : prog).                                               (* own event *)

Fixpoint run_prog (call : bool -> addr -> addr -> Z -> msg -> M rv) (c : ctx) (p : prog) : M rv :=
  match p with
  | PRet r => ret r
  | PFail => fail "adversary"
  | PCall ro to v m k => r <~ call (ro || c_ro c) (c_self c) to v m; run_prog call c (k r)
  | PTry ro to v m k =>
      fun w => match call (ro || c_ro c) (c_self c) to v m w with
               | Ok (r, w') => run_prog call c (k (Some r)) w'
               | Err _ => run_prog call c (k None) w
               end
  | PGet k => sc <~ this c; run_prog call c (k (s_store sc))
  | PSet z k => require (negb (c_ro c)) "read-only";; modify c (set_store z);; run_prog call c k
  | PBalance a k => fun w => run_prog call c (k (icx w a)) w
  | PEmit z k => require (negb (c_ro c)) "read-only";; emit c (EvOther z);; run_prog call c k
  end.

(* code of unknown contracts: by address, called with the frame and the message *)
Definition adversary := addr -> ctx -> msg -> prog.

(* ------------------------------------------------------------- message calls ---- *)
Section exec.
Variable adv : adversary.

(* one message call: value transfer, then the method of the contract at [t] *)
Fixpoint exec (fuel : nat) (ro : bool) (s t : addr) (v : Z) (m : msg) : M rv :=
  match fuel with
  | O => fail "call depth"
  | S f =>
      require (negb (ro && negb (v =? 0))) "read-only";;
      move_icx s t v;;
      match t with
      | EOA _ => match m with MFallback => ret RNone | _ => fail "not a contract" end
      | SCORE _ =>
          sc <~ get_score t;
          match s_kind sc with
          | KAdv => let c := Ctx t s v ro in run_prog (exec f) c (adv t c m)
          | k =>
              require (is_payable k m || (v =? 0)) "not payable";;
              require (negb (ro && negb (is_readonly m))) "read-only";;
              honest_handler (exec f) k (Ctx t s v (ro || is_readonly m)) m
          end
      end
  end.

(* ------------------------------------------------------------- transactions ---- *)
Inductive install :=
| IIrc (name symbol : string) (initial decimals : Z)
| IIcx
| IFlex (name symbol : string) (initial decimals : Z)
| IConv (token registry : addr) (max_fee : Z) (connector : option addr) (weight : Z)
| INet
| IReg
| IAdv.

Definition install_kind (i : install) : kind :=
  match i with
  | IIrc _ _ _ _ => KIrc | IIcx => KIcx | IFlex _ _ _ _ => KFlex | IConv _ _ _ _ _ => KConv
  | INet => KNet | IReg => KReg | IAdv => KAdv
  end.

(* the constructor; network.py:42-43 (TokenHolder.on_install = Owned.on_install) *)
Definition run_install (f : nat) (c : ctx) (i : install) : M unit :=
  match i with
  | IIrc n s i d => irc_install c n s i d
  | IIcx => icx_install c
  | IFlex n s i d => flex_install c n s i d
  | IConv t r f' cn w => conv_install (exec f) c t r f' cn w
  | INet => owned_install c
  | IReg => reg_install c
  | IAdv => ret tt
  end.

(* transactions are sent by externally owned accounts: a call, or the deployment of a new contract
   at a fresh non-zero contract address *)
Inductive tx :=
| TCall (from : N) (to : addr) (v : Z) (m : msg)
| TDeploy (from : N) (at_ : N) (i : install).

Definition tx_sender (t : tx) : addr := match t with TCall n _ _ _ | TDeploy n _ _ => EOA n end.

Definition run_tx (fuel : nat) (t : tx) : M rv :=
  match t with
  | TCall n to v m => exec fuel false (EOA n) to v m
  | TDeploy n a i =>
      fun w =>
        if bool_decide (a = 0%N) then Err "zero address"
        else match w_scores w !! SCORE a with
             | Some _ => Err "address in use"
             | None => (put_score (SCORE a) (blank (install_kind i));;
                        run_install fuel (Ctx (SCORE a) (EOA n) 0 false) i;;
                        ret RNone) w
             end
  end.

(* a failed transaction has no effect *)
Definition apply_tx (fuel : nat) (t : tx) (w : world) : world :=
  match run_tx fuel t w with Ok (_, w') => w' | Err _ => w end.

(* the start: externally owned accounts hold ICX, nothing is deployed *)
Definition genesis (w : world) : Prop :=
  w_scores w = ∅ /\ w_log w = [] /\ (forall a, 0 <= icx w a) /\ (forall n, icx w (SCORE n) = 0).

(* states between transactions of any finite history *)
Inductive reachable : world -> Prop :=
| reach_genesis w : genesis w -> reachable w
| reach_tx w fuel t : reachable w -> reachable (apply_tx fuel t w).

End exec.
