(* What the properties talk about: the observable state of the contracts.  [views_answer] states that
   these are what the contracts' own read-only methods return. *)
From Coq Require Import String Ascii ZArith Lia.
From stdpp Require Import base countable list numbers strings gmap relations.
From Verif Require Import Res FormulaModel Codec World.
Local Open Scope Z_scope.

(* the contract at an address *)
Definition kind_at (w : world) (a : addr) : option kind := s_kind <$> w_scores w !! a.
Definition is_token (w : world) (t : addr) : Prop :=
  kind_at w t = Some KIrc \/ kind_at w t = Some KIcx \/ kind_at w t = Some KFlex.
(* contracts deriving from Owned *)
Definition is_owned (w : world) (t : addr) : Prop :=
  exists k, kind_at w t = Some k /\ k <> KIrc /\ k <> KAdv.

Definition var {X} (d : X) (f : score -> X) (w : world) (a : addr) : X :=
  match w_scores w !! a with Some sc => f sc | None => d end.

(* tokens *)
Definition balance_of (w : world) (t a : addr) : Z := var 0 (fun sc => default 0 (s_bal sc !! a)) w t.
Definition supply_of : world -> addr -> Z := var 0 s_supply.
Definition name_of : world -> addr -> string := var ""%string s_name.
Definition symbol_of : world -> addr -> string := var ""%string s_symbol.
Definition decimals_of : world -> addr -> Z := var 0 s_decimals.
Definition transferable : world -> addr -> bool := var false s_transferable.
(* owned, managed *)
Definition owner_of : world -> addr -> addr := var zero_score s_owner.
Definition pending_owner_of : world -> addr -> addr := var zero_score s_new_owner.
Definition manager_of : world -> addr -> option addr := var None s_manager.
Definition pending_manager_of : world -> addr -> option addr := var None s_new_manager.
(* converters *)
Definition token_of : world -> addr -> addr := var zero_score s_token.
Definition registry_of : world -> addr -> addr := var zero_score s_registry.
Definition prev_registry_of : world -> addr -> addr := var zero_score s_prev_registry.
Definition registry_updates_allowed : world -> addr -> bool := var false s_allow_reg.
Definition connectors_of : world -> addr -> list addr := var [] s_conn_tokens.
Definition total_weight_of : world -> addr -> Z := var 0 s_total_weight.
Definition connector_of (w : world) (c t : addr) : connector :=
  var no_connector (fun sc => default no_connector (s_connectors sc !! t)) w c.
Definition is_connector (w : world) (c t : addr) : Prop := cn_set (connector_of w c t) = true.
Definition fee_of : world -> addr -> Z := var 0 s_fee.
Definition max_fee_of : world -> addr -> Z := var 0 s_max_fee.
Definition conversions_enabled : world -> addr -> bool := var false s_enabled.
(* network, registry *)
Definition icx_registered (w : world) (n t : addr) : bool := var false (fun sc => default false (s_icx_tokens sc !! t)) w n.
Definition registered (w : world) (r : addr) (n : string) : addr :=
  var zero_score (fun sc => default zero_score (s_addrs sc !! n)) w r.

(* the converter owns its flexible token *)
Definition active (w : world) (c : addr) : Prop := owner_of w (token_of w c) = c.
Global Instance active_dec w c : Decision (active w c).
Proof. unfold active. apply _. Defined.
(* the balance of a connector: virtual or held *)
Definition reserve (w : world) (c t : addr) : Z :=
  if cn_venabled (connector_of w c t) then cn_virtual (connector_of w c t) else balance_of w t c.

(* a converter whose flexible token is genuine *)
Definition conv_at (w : world) (c : addr) : Prop :=
  is_contract c = true /\ kind_at w c = Some KConv /\ is_contract (token_of w c) = true /\ kind_at w (token_of w c) = Some KFlex.
(* a genuine token *)
Definition token_at (w : world) (t : addr) : Prop := is_contract t = true /\ is_token w t.

(* the token can be transferred: transfers of a flexible token can be disabled *)
Definition movable (w : world) (t : addr) : Prop := kind_at w t = Some KFlex -> transferable w t = true.

(* an amount x added to the balance of account a in token t *)
Definition credit (t a : addr) (x : Z) (X b : addr) : Z := if decide (X = t) then if decide (b = a) then x else 0 else 0.

(* a read-only method answers r in state w, whoever asks, and changes nothing *)
Definition answers (adv : adversary) (w : world) (t : addr) (m : msg) (r : rv) : Prop :=
  forall fuel ro s, exec adv (S fuel) ro s t 0 m w = Ok (r, w).

(* the state after the contract at t changed its storage to sc and logged evs (oldest first) *)
Definition after (t : addr) (sc : score) (evs : list event) (w : world) : world :=
  World (w_icx w) (<[t := sc]> (w_scores w)) (rev (map (pair t) evs) ++ w_log w).
(* the state after v coins moved from s to t *)
Definition paid (s t : addr) (v : Z) (w : world) : world :=
  World (<[t := icx w t + v]> (<[s := icx w s - v]> (w_icx w))) (w_scores w) (w_log w).
(* a call succeeds *)
Definition succeeds (m : M rv) (w : world) : Prop := exists r w', m w = Ok (r, w').

(* one transaction, in any state; calls inside a transaction have [exec] *)
Definition tx_ok (adv : adversary) (fuel : nat) (t : tx) (w w' : world) : Prop :=
  exists r, run_tx adv fuel t w = Ok (r, w').

(* the sum of a list *)
Definition sum_Z (l : list Z) : Z := foldr Z.add 0 l.

(* the events logged between two states (the log only grows), oldest first *)
Definition new_events (w w' : world) : list (addr * event) :=
  rev (take (length (w_log w') - length (w_log w)) (w_log w')).

(* what a token's Issuance and Destruction events add up to *)
Definition net_issued (t : addr) (log : list (addr * event)) : Z :=
  sum_Z (map (fun '(a, e) => if decide (a = t) then match e with EvIssuance v => v | EvDestruction v => - v | _ => 0 end else 0) log).

(* states reached from w by further transactions *)
Definition later (adv : adversary) : world -> world -> Prop := rtc (fun w w' => exists fuel t, w' = apply_tx adv fuel t w).

(* Addresses that the sender s of a transaction cannot use as administrator of anything:
   other users, the zero address, genuine contracts other than converters (they never call
   admin methods), and converters whose own owner and pending owner are of this kind. *)
Inductive secure (w : world) (s : addr) : addr -> Prop :=
| secure_user n : EOA n <> s -> secure w s (EOA n)
| secure_zero : secure w s zero_score
| secure_plain a k : kind_at w a = Some k -> k <> KAdv -> k <> KConv -> secure w s a
| secure_conv a : kind_at w a = Some KConv -> secure w s (owner_of w a) -> secure w s (pending_owner_of w a) -> secure w s a.

(* a path through genuine contracts: tokens at the even positions; between them flexible tokens, each owned by a
   converter whose registry is a score registry *)
Fixpoint genuine_path (w : world) (p : list addr) : Prop :=
  match p with
  | [] => False
  | [t] => is_token w t
  | t :: f :: p' =>
      is_token w t /\ kind_at w f = Some KFlex /\ kind_at w (owner_of w f) = Some KConv /\
      kind_at w (registry_of w (owner_of w f)) = Some KReg /\ genuine_path w p'
  end.
(* the converters along a path *)
Definition converters (w : world) (p : list addr) : list addr := map (owner_of w) (odd_positions p).
(* no converter on the path has a virtual balance of the token it receives *)
Fixpoint real_path (w : world) (p : list addr) : Prop :=
  match p with
  | t :: f :: p' => cn_venabled (connector_of w (owner_of w f) t) = false /\ real_path w p'
  | _ => True
  end.
(* a conversion request sent with a token transfer by [from]: the path, the minimum return, the beneficiary *)
Definition asks (d : data) (from : addr) (p : list addr) (z : Z) (for_ : addr) : Prop :=
  exists m text j, d = DJson m /\ m !! "path"%string = Some (JStr text) /\ convert_path text = Some p /\
    m !! "minReturn"%string = Some j /\ json_int j = Some z /\
    ((m !! "for"%string = None \/ m !! "for"%string = Some JNull) /\ for_ = from \/
     exists s, m !! "for"%string = Some (JStr s) /\ addr_from_string s = Some for_).

(* a conversion request sent by the network to a converter: the token wanted, the minimum return *)
Definition wants (d : data) (to : addr) (min : Z) : Prop :=
  exists m text j, d = DJson m /\ m !! "toToken"%string = Some (JStr text) /\ addr_from_string text = Some to /\
    m !! "minReturn"%string = Some j /\ json_int j = Some min.
(* a converter whose flexible token and registry are genuine *)
Definition genuine_converter (w : world) (C : addr) : Prop :=
  conv_at w C /\ is_contract (registry_of w C) = true /\ kind_at w (registry_of w C) = Some KReg.
(* a genuine network *)
Definition network_at (w : world) (N : addr) : Prop := is_contract N = true /\ N <> zero_score /\ kind_at w N = Some KNet.
(* the network a converter trades with *)
Definition network_of (w : world) (C : addr) : addr := registered w (registry_of w C) "Network".
(* what the Bancor formula gives for v of [from] in exchange for [to] at converter C, with the connector balances
   of the state w; adj is subtracted from the balance of [from] *)
Definition formula_result (w : world) (C from to : addr) (v adj : Z) : res Z :=
  let F := token_of w C in
  if decide (to = F) then calculate_purchase_return (supply_of w F) (reserve w C from - adj) (cn_weight (connector_of w C from)) v
  else if decide (from = F) then calculate_sale_return (supply_of w F) (reserve w C to) (cn_weight (connector_of w C to)) v
  else calculate_cross_connector_return (reserve w C from - adj) (cn_weight (connector_of w C from))
         (reserve w C to) (cn_weight (connector_of w C to)) v.
(* the number of times the fee is charged: a cross conversion counts as two *)
Definition fee_steps (w : world) (C from to : addr) : Z :=
  if decide (to = token_of w C) then 1 else if decide (from = token_of w C) then 1 else 2.
(* x of y is left after the fee, charged k times: x is y * (1 - fee)^k, rounded down *)
Definition after_fee (fee k y x : Z) : Prop :=
  0 <= x <= y /\ x * 1000000 ^ k <= y * (1000000 - fee) ^ k < (x + 1) * 1000000 ^ k.
(* [from] can be exchanged for [to] at C: one is the flexible token and the other a connector, or both are connectors.
   NB in an exchange of two connectors it is the purchase switch of [to] that counts *)
Definition tradable (w : world) (C from to : addr) : Prop :=
  from <> to /\ active w C /\
  if decide (to = token_of w C) then is_connector w C from /\ cn_penabled (connector_of w C from) = true
  else if decide (from = token_of w C) then is_connector w C to
  else is_connector w C from /\ is_connector w C to /\ cn_penabled (connector_of w C to) = true.
(* x is what the formula, with the balance of [from] lowered by adj, gives for v of [from], less the fee *)
Definition worth (w : world) (C from to : addr) (v adj x : Z) : Prop :=
  exists y, formula_result w C from to v adj = Ok y /\ after_fee (fee_of w C) (fee_steps w C from to) y x.
(* the lowering in an executed conversion; see C40 *)
Definition lowered (w : world) (C from : addr) (v : Z) : Z := if cn_venabled (connector_of w C from) then v else 0.
(* C has x of [to] and can pay it for v of [from] *)
Definition deliverable (w : world) (C T to : addr) (v x : Z) : Prop :=
  let F := token_of w C in
  if decide (to = F) then True
  else x <= balance_of w to C /\ movable w to /\
    if decide (T = F) then x < reserve w C to \/ x = reserve w C to /\ v = supply_of w F
    else x < reserve w C to - (if cn_venabled (connector_of w C to) then x else 0).
(* a read-only method answers r, given enough call depth, whoever asks, and changes nothing *)
Definition replies (adv : adversary) (w : world) (t : addr) (m : msg) (r : rv) : Prop :=
  exists n, forall fuel ro s, (n <= fuel)%nat -> exec adv fuel ro s t 0 m w = Ok (r, w).

(* methods reserved to the owner, and to the owner or manager *)
Definition owner_only (m : msg) : bool :=
  match m with
  | MTransferOwnership _ | MIssue _ _ | MDisableTransfer _ | MWithdrawTokens _ _ _ | MTransferTokenOwnership _ | MAcceptTokenOwnership
  | MDisableTokenTransfers _ | MWithdrawFromToken _ _ _ | MAddConnector _ _ _ | MUpdateConnector _ _ _ _
  | MDisableConnectorPurchases _ _ | MRegisterIcxToken _ _ | MRegisterAddress _ _ | MUnregisterAddress _ => true
  | _ => false
  end.
Definition manager_only (m : msg) : bool :=
  match m with
  | MTransferManagement _ | MRestoreRegistry | MDisableRegistryUpdate _ | MDisableConversions _ | MSetConversionFee _ => true
  | _ => false
  end.
(* what a token's Transfer events say about account a: received minus sent *)
Definition net_transferred (t a : addr) (log : list (addr * event)) : Z :=
  sum_Z (map (fun '(x, e) => if decide (x = t) then
     match e with EvTransfer from to v _ => (if decide (to = a) then v else 0) - (if decide (from = a) then v else 0) | _ => 0 end else 0) log).
(* only the ledger of token t changed: account a by db a, the supply by ds; the events logged, oldest first *)
Definition ledger_change (t : addr) (db : addr -> Z) (ds : Z) (evs : list event) (w w' : world) : Prop :=
  w_icx w' = w_icx w /\ w_log w' = rev (map (pair t) evs) ++ w_log w /\
  (forall X, X <> t -> w_scores w' !! X = w_scores w !! X) /\
  (exists sc b, w_scores w !! t = Some sc /\ w_scores w' !! t = Some (set_supply (supply_of w t + ds) (set_bal b sc))) /\
  forall a, balance_of w' t a = balance_of w t a + db a.
(* an amount x at account a, nothing elsewhere *)
Definition at_ (a : addr) (x : Z) (b : addr) : Z := if decide (b = a) then x else 0.

(* two states of a contract that differ at most in token balances, supply and connectors; no contract differs otherwise *)
Definition ledger_diff (sc sc' : score) : Prop := exists b sp cm, sc' = set_connectors cm (set_supply sp (set_bal b sc)).
Definition scores_ledger (w w' : world) : Prop := forall X, match w_scores w !! X, w_scores w' !! X with
            | None, None => True | Some sc, Some sc' => ledger_diff sc sc' | _, _ => False end.
Definition ledger_only (w w' : world) : Prop := w_icx w' = w_icx w /\ scores_ledger w w'.

(* the network pays x of the last token L of a path: as coins if L is a registered ICX token *)
Definition to_coins (w : world) (N L : addr) (x : Z) : Z := if icx_registered w N L then x else 0.
Definition to_tokens (w : world) (N L : addr) (x : Z) : Z := if icx_registered w N L then 0 else x.

(* the events of contract t in a log (newest first, as in the state), and what the newest event of some sort says *)
Definition own_events (t : addr) (log : list (addr * event)) : list event :=
  omap (fun '(a, e) => if decide (a = t) then Some e else None) log.
Fixpoint latest {X} (f : event -> option X) (evs : list event) : option X :=
  match evs with [] => None | e :: evs' => match f e with Some x => Some x | None => latest f evs' end end.
Definition says_owner (e : event) : option addr := match e with EvOwnerUpdate _ a => Some a | _ => None end.
Definition says_manager (e : event) : option (option addr) := match e with EvManagerUpdate _ a => Some a | _ => None end.
Definition says_fee (e : event) : option Z := match e with EvConversionFeeUpdate _ z => Some z | _ => None end.
Definition says_enabled (e : event) : option bool := match e with EvConversionsEnable b => Some b | _ => None end.
Definition says_address (n : string) (e : event) : option addr :=
  match e with EvAddressUpdate n' a => if decide (n' = n) then Some a else None | _ => None end.
(* the events logged since an earlier state, newest first *)
Definition log_since (w w' : world) : list (addr * event) := take (length (w_log w') - length (w_log w)) (w_log w').
