(* Property theorems about converters (C27 - C42). *)
From Coq Require Import String Ascii ZArith Lia.
From stdpp Require Import base countable list numbers strings gmap relations.
From Verif Require Import Res FormulaModel Codec World WorldBasics WorldSteps WorldExec WorldSpec Scenario WorldInv WorldMoney WorldAuth
  WorldNet WorldCalls WorldViews WorldConv WorldHop WorldPath WorldOwner WorldCoins WorldTrade WorldMore WorldLive WorldKeep.
Local Open Scope Z_scope.

(* what the theorems talk about is what the converter's read-only methods return *)
Theorem C27_converter_is_observable : forall adv w t, reachable adv w -> kind_at w t = Some KConv ->
  answers adv w t MGetManager (match manager_of w t with Some a => RAddr a | None => RNone end) /\
  answers adv w t MGetNewManager (match pending_manager_of w t with Some a => RAddr a | None => RNone end) /\
  answers adv w t MGetToken (RAddr (token_of w t)) /\ answers adv w t MGetRegistry (RAddr (registry_of w t)) /\
  answers adv w t MGetPreviousRegistry (RAddr (prev_registry_of w t)) /\
  answers adv w t MIsAllowRegistryUpdate (RBool (registry_updates_allowed w t)) /\
  answers adv w t MGetConnectorTokenCount (RInt (Z.of_nat (length (connectors_of w t)))) /\
  answers adv w t MGetMaxConversionFee (RInt (max_fee_of w t)) /\ answers adv w t MGetConversionFee (RInt (fee_of w t)) /\
  answers adv w t MIsConversionsEnabled (RBool (conversions_enabled w t)) /\
  forall a, answers adv w t (MGetConnector a) (RConn (if cn_set (connector_of w t a) then Some (connector_of w t a) else None)).
Proof. intros adv w t Hr Ht. apply conv_answers; [by eapply kind_contract|done]. Qed.
Print Assumptions C27_converter_is_observable.

(* C27 *)
Theorem C27_connectors_consistent : forall adv w C, reachable adv w -> kind_at w C = Some KConv ->
  NoDup (connectors_of w C) /\
  (forall t, is_connector w C t <-> t ∈ connectors_of w C) /\
  (forall t, is_connector w C t -> 1 <= cn_weight (connector_of w C t) <= 1000000 /\ t <> token_of w C /\ t <> C /\ t <> zero_score) /\
  (forall t, ~ is_connector w C t -> connector_of w C t = no_connector) /\
  total_weight_of w C = sum_Z (map (fun t => cn_weight (connector_of w C t)) (connectors_of w C)) /\
  total_weight_of w C <= 1000000.
Proof.
  intros adv w C Hr HK. apply kind_at_Some in HK as (sc & Hsc & K). pose proof (conn_reachable _ _ _ _ Hr Hsc) as H.
  assert (forall t, connector_of w C t = conn sc t) as E by (intros t; by apply connector_of_sc).
  unfold is_connector, connectors_of, total_weight_of. rewrite !(var_sc _ _ _ _ _ Hsc), (token_of_sc _ _ _ Hsc).
  split; [apply H|]. split; [intros t; rewrite E; apply H|]. split; [|split; [|split; [|apply H]]].
  - intros t. rewrite E. intros Ht. pose proof (co_weight _ _ H t Ht). split; [lia|]. by apply (co_other _ _ H).
  - intros t. rewrite E. intros Ht. apply (co_unset _ _ H). by destruct (cn_set _).
  - rewrite (co_total _ _ H). unfold weight_sum. f_equal. apply map_ext. intros t. by rewrite E.
Qed.
Print Assumptions C27_connectors_consistent.
Example C27_example : connectors_of ready convA = [icxt; irct] /\ total_weight_of ready convA = 800000 /\ cn_weight (connector_of ready convA irct) = 300000.
Proof. vm_compute. done. Qed.

(* C28 *)
Theorem C28_fee_bounded : forall adv w C, reachable adv w -> kind_at w C = Some KConv ->
  0 <= fee_of w C <= max_fee_of w C /\ max_fee_of w C <= 1000000.
Proof.
  intros adv w C Hr HK. apply kind_at_Some in HK as (sc & Hsc & K). pose proof (conn_reachable _ _ _ _ Hr Hsc) as H.
  unfold max_fee_of. rewrite (fee_of_sc _ _ _ Hsc), (var_sc _ _ _ _ _ Hsc). split; apply H.
Qed.
Print Assumptions C28_fee_bounded.
Lemma ident_later adv w w' : later adv w w' -> all_Q ident w w'.
Proof.
  induction 1 as [w|w w1 w2 (fuel & t & ->) _ IH]; [apply all_Q_refl, ident_refl|].
  eapply all_Q_trans; [apply ident_trans| |exact IH]. unfold apply_tx. destruct (run_tx adv fuel t w) as [[r w1]|] eqn:E.
  - by eapply ident_tx.
  - apply all_Q_refl, ident_refl.
Qed.
Theorem C28_fixed_once_set : forall adv w w' C, later adv w w' -> kind_at w C = Some KConv ->
  kind_at w' C = Some KConv /\ max_fee_of w' C = max_fee_of w C /\ token_of w' C = token_of w C /\
  exists l, connectors_of w' C = connectors_of w C ++ l.
Proof.
  intros adv w w' C HL HK. apply kind_at_Some in HK as (sc & Hsc & K). destruct (ident_later _ _ _ HL _ _ Hsc) as (sc' & Hsc' & H).
  unfold kind_at, max_fee_of, token_of, connectors_of. rewrite Hsc', !(var_sc _ _ _ _ _ Hsc), !(var_sc _ _ _ _ _ Hsc'). cbn.
  rewrite (id_kind _ _ H), K. split; [done|]. split; [apply H|]. split; apply H.
Qed.
Print Assumptions C28_fixed_once_set.
(* hence a connector stays a connector *)
Theorem C28_connectors_stay : forall adv w w' C t, reachable adv w -> later adv w w' -> kind_at w C = Some KConv ->
  is_connector w C t -> is_connector w' C t.
Proof.
  intros adv w w' C t Hr HL HK Ht. destruct (C28_fixed_once_set _ _ _ _ HL HK) as (HK' & _ & _ & l & El).
  assert (reachable adv w') as Hr'.
  { clear -Hr HL. induction HL as [w|w w1 w2 (fuel & x & ->) _ IH]; [done|]. apply IH. by constructor. }
  destruct (C27_connectors_consistent _ _ _ Hr' HK') as (_ & H & _). destruct (C27_connectors_consistent _ _ _ Hr HK) as (_ & H0 & _).
  apply H. rewrite El. apply elem_of_app. left. by apply H0.
Qed.
Print Assumptions C28_connectors_stay.
Example C28_example : fee_of ready convA = 3000 /\ max_fee_of ready convA = 30000 /\
  play quiet 5 [call 1 convA (MSetConversionFee 30001)] ready = None /\
  (w ← play quiet 5 [call 1 convA (MSetConversionFee 30000)] ready; Some (fee_of w convA)) = Some 30000.
Proof. vm_compute. done. Qed.

(* C29: getFinalAmount *)
Theorem C29_final_amount : forall adv w C v k, reachable adv w -> kind_at w C = Some KConv -> 0 <= v -> 0 <= k ->
  exists x, answers adv w C (MGetFinalAmount v k) (RInt x) /\ after_fee (fee_of w C) k v x.
Proof.
  intros adv w C v k Hr HK Hv Hk. exists (final_amount (fee_of w C) v k). split.
  - intros fuel ro s. apply getFinalAmount_iff; [by eapply kind_contract|done|done|done].
  - pose proof (C28_fee_bounded _ _ _ Hr HK). apply final_amount_spec; [lia|done|done].
Qed.
Print Assumptions C29_final_amount.
Theorem C29_final_amount_monotone : forall adv w C v v' k x x', reachable adv w -> kind_at w C = Some KConv -> 0 <= k -> v <= v' ->
  answers adv w C (MGetFinalAmount v k) (RInt x) -> answers adv w C (MGetFinalAmount v' k) (RInt x') -> x <= x'.
Proof.
  intros adv w C v v' k x x' Hr HK Hk Hv H H'. pose proof (C28_fee_bounded _ _ _ Hr HK).
  specialize (H 0%nat false admin). specialize (H' 0%nat false admin).
  apply getFinalAmount_iff in H as [[= ->] _]; [|by eapply kind_contract|done|done].
  apply getFinalAmount_iff in H' as [[= ->] _]; [|by eapply kind_contract|done|done].
  apply final_amount_mono; lia.
Qed.
Print Assumptions C29_final_amount_monotone.
(* a quote: what the formula gives, less the fee; the quoted amount and the quoted fee add up to it *)
Theorem C29_quote_and_fee : forall adv fuel ro s w C from to v r w', reachable adv w -> conv_at w C -> token_at w from -> token_at w to -> 0 <= v ->
  exec adv fuel ro s C 0 (MGetReturn from to v) w = Ok (r, w') ->
  exists x fee y, r = RRet x fee /\ formula_result w C from to v 0 = Ok y /\
    after_fee (fee_of w C) (fee_steps w C from to) y x /\ x + fee = y /\ 0 <= fee.
Proof.
  intros adv fuel ro s w C from to v r w' Hr HC Hf Ht Hv H. apply exec_getReturn_inv in H as (x & fee & Hq & -> & ->); [|done..].
  pose proof (C28_fee_bounded _ _ _ Hr (proj1 (proj2 HC))). apply quote_formula in Hq as (y & Hy & Ha & ->); [|lia|lia].
  exists x, (y - x), y. destruct Ha as [? ?]. repeat split; try done; lia.
Qed.
Print Assumptions C29_quote_and_fee.
Definition returned (r : Res.res (rv * world)) : option rv := match r with Ok (x, _) => Some x | Err _ => None end.
Example C29_example : returned (exec quiet 9 true alice convA 0 (MGetReturn irct icxt 1000000) ready) = Some (RRet 596400628798150401 3594571243449224) /\
  returned (exec quiet 9 true alice convA 0 (MGetFinalAmount (596400628798150401 + 3594571243449224) 2) ready) = Some (RInt 596400628798150401).
Proof. vm_compute. done. Qed.

(* C30 *)
Theorem C30_add_connector : forall adv fuel s C t weight ve w, conv_at w C ->
  (succeeds (exec adv (S (S fuel)) false s C 0 (MAddConnector t weight ve)) w <->
   s = owner_of w C /\ ~ active w C /\ ~ is_connector w C t /\ t <> token_of w C /\ t <> C /\ t <> zero_score /\
   1 <= weight <= 1000000 /\ total_weight_of w C + weight <= 1000000) /\
  forall r w', exec adv (S (S fuel)) false s C 0 (MAddConnector t weight ve) w = Ok (r, w') ->
    connectors_of w' C = connectors_of w C ++ [t] /\ connector_of w' C t = Connector 0 weight ve true true /\
    (forall t', t' <> t -> connector_of w' C t' = connector_of w C t') /\ total_weight_of w' C = total_weight_of w C + weight /\
    (* nothing else changes *)
    exists sc, w_scores w !! C = Some sc /\ w' = after C (set_total_weight (total_weight_of w' C) (set_conn_tokens (connectors_of w' C)
                  (set_conn t (connector_of w' C t) sc))) [] w.
Proof.
  intros adv fuel s C t weight ve w HC. destruct (conv_sc _ _ HC) as (sc & Hsc & K). unfold succeeds.
  setoid_rewrite (addConnector_iff adv fuel s C t weight ve w sc _ _ HC Hsc). split; [split|].
  - intros (r & w' & (? & ? & ? & ? & ? & ? & ? & ?) & _). repeat split; try done; lia.
  - intros (? & ? & ? & ? & ? & ? & ? & ?). do 2 eexists. split; [repeat split; try done; lia|done].
  - intros r w' (_ & _ & ->). set (sc' := set_total_weight _ _). rewrite after_wupd. cbn [rev app].
    assert (forall t', connector_of (wupd C sc' [] w) C t' = if decide (t' = t) then Connector 0 weight ve true true else connector_of w C t') as E.
    { intros t'. rewrite connector_of_upd, decide_True by done. unfold sc'. rewrite (connector_of_sc _ _ _ _ Hsc). apply (conn_set_conn t t'). }
    assert (connectors_of (wupd C sc' [] w) C = connectors_of w C ++ [t]) as E1 by (unfold connectors_of; by rewrite var_upd, decide_True).
    assert (total_weight_of (wupd C sc' [] w) C = total_weight_of w C + weight) as E2 by (unfold total_weight_of; by rewrite var_upd, decide_True).
    split; [done|]. split; [by rewrite E, decide_True|]. split; [intros t' ?; by rewrite E, decide_False|]. split; [done|].
    exists sc. split; [done|]. rewrite E1, E2, E, decide_True by done. by rewrite after_wupd.
Qed.
Print Assumptions C30_add_connector.
(* in particular *)
Theorem C30_not_while_active : forall adv fuel s C t weight ve w, conv_at w C -> active w C ->
  ~ succeeds (exec adv fuel false s C 0 (MAddConnector t weight ve)) w.
Proof.
  intros adv fuel s C t weight ve w HC Ha (r & w' & H). by eapply addConnector_inactive.
Qed.
Print Assumptions C30_not_while_active.
Example C30_example : conv_at ready convA /\ active ready convA /\
  (let w := default world0 (play quiet 9 [TDeploy 1 9 (IFlex "Gamma" "GAM" 10 2); TDeploy 1 10 (IConv (SCORE 9) registry 0 None 0);
      call 1 (SCORE 10) (MAddConnector irct 600000 true)] ready) in
   connectors_of w (SCORE 10) = [irct] /\ total_weight_of w (SCORE 10) = 600000 /\
   play quiet 9 [call 1 (SCORE 10) (MAddConnector irct 100000 true)] w = None /\
   play quiet 9 [call 1 (SCORE 10) (MAddConnector icxt 400001 true)] w = None /\
   play quiet 9 [call 2 (SCORE 10) (MAddConnector icxt 400000 true)] w = None /\
   bool_decide (is_Some (play quiet 9 [call 1 (SCORE 10) (MAddConnector icxt 400000 true)] w)) = true).
Proof. split; [split; [done|]; vm_compute; done|]. split; [by vm_compute|]. vm_compute. done. Qed.

Definition pay_path (p : list addr) (min : Z) : data := DJson (<["path"%string := JStr (path_text p)]> (<["minReturn"%string := JInt min]> ∅)).

(* C31 *)
Theorem C31_no_withdrawal_while_active : forall adv fuel ro s C v t to x w, conv_at w C -> active w C -> is_connector w C t ->
  ~ succeeds (exec adv fuel ro s C v (MWithdrawTokens t to x)) w.
Proof. intros adv fuel ro s C v t to x w HC Ha Ht (r & w' & H). by eapply conv_withdraw_inv. Qed.
Print Assumptions C31_no_withdrawal_while_active.
(* after any transactions: connector tokens leave an active converter only if it logged a conversion, the ownership of its
   flexible token changed hands, or the connector is itself a flexible token whose owner destroyed them *)
Theorem C31_leave_only_by_conversions : forall adv w w' C t, reachable adv w -> conv_at w C -> active w C -> is_connector w C t -> is_token w t ->
  later adv w w' -> balance_of w' t C < balance_of w t C ->
  (exists from to trader x y fee, (C, EvConversion from to trader x y fee) ∈ log_since w w') \/
  (exists prev new, (token_of w C, EvOwnerUpdate prev new) ∈ log_since w w') \/
  (kind_at w t = Some KFlex /\ exists x d, (t, EvTransfer C t x d) ∈ log_since w w').
Proof.
  intros adv w w' C t Hr HC Ha Hc Ht Hl. apply (connectors_kept adv); try done.
  destruct HC as (_ & K & _). unfold kind_at in K. destruct (w_scores w !! C) as [sc|] eqn:Hsc; [|done].
  destruct (conn_reachable _ _ _ _ Hr Hsc) as [_ _ _ A4 _ _ _ _ _]. unfold token_of, is_connector, connector_of, var in *. rewrite Hsc in *. by apply A4.
Qed.
Print Assumptions C31_leave_only_by_conversions.
Example C31_example : conv_at ready convA /\ active ready convA /\ is_connector ready convA irct /\
  play quiet 9 [call 1 convA (MWithdrawTokens irct admin 1)] ready = None /\
  (w ← play quiet 9 [call 1 convA (MTransferTokenOwnership admin); call 1 flexA MAcceptOwnership; call 1 convA (MWithdrawTokens irct admin 1)] ready;
   Some (balance_of w irct admin - balance_of ready irct admin)) = Some 1 /\
  (w ← play quiet 20 [call 2 irct (MTransfer network 1000 (Some (pay_path [irct; flexA; icxt] 1)))] ready;
   Some (bool_decide (balance_of w icxt convA < balance_of ready icxt convA))) = Some true.
Proof. split; [split; [done|]; vm_compute; done|]. vm_compute. done. Qed.

(* C32: a token sent to a converter is either accepted as funding, from the owner, of an inactive converter, or
   it comes from the network and is converted (what a conversion does: C34, C37) *)
Theorem C32_accepted_or_rejected : forall adv fuel ro s T C v d w r w', token_at w T -> genuine_converter w C ->
  exec adv fuel ro s T 0 (MTransfer C v d) w = Ok (r, w') ->
  (s = owner_of w C /\ is_connector w C T /\ ~ active w C /\
   ledger_change T (fun a => at_ s (- v) a + at_ C v a) 0 [EvTransfer s C v (default data_none d)] w w') \/
  (s = network_of w C /\ exists to min, wants (default data_none d) to min).
Proof.
  intros adv fuel ro s T C v d w r w' HT HG H. apply to_converter_inv in H as (_ & _ & [(? & ? & ? & sc & Hsc & ->)|(? & ? & to & min & ? & ?)]); [|right; eauto|done|done].
  left. split; [done|]. split; [done|]. split; [done|].
  pose proof (ledger_change_move w T sc s C v [EvTransfer s C v (default data_none d)] Hsc) as HL. by rewrite after_wupd in HL.
Qed.
Print Assumptions C32_accepted_or_rejected.
Theorem C32_funding_works : forall adv fuel T C v d w, token_at w T -> genuine_converter w C ->
  is_connector w C T -> ~ active w C -> 0 < v <= balance_of w T (owner_of w C) -> movable w T ->
  succeeds (exec adv (S (S (S fuel))) false (owner_of w C) T 0 (MTransfer C v d)) w.
Proof.
  intros adv fuel T C v d w HT HG H1 H2 H3 H4. destruct (fund_ok adv fuel T C v d w HT HG H1 H2 H3 H4) as [w' H]. by exists RNone, w'.
Qed.
Print Assumptions C32_funding_works.
(* a converter that is not yet active: bob is its manager *)
Definition inactive : world := default world0 (play quiet 9
  [TDeploy 1 9 (IFlex "Gamma" "GAM" 10 2); TDeploy 1 10 (IConv (SCORE 9) registry 0 (Some irct) 100000);
   call 1 (SCORE 10) (MTransferManagement bob); call 3 (SCORE 10) MAcceptManagement; call 2 irct (MTransfer bob 1000 None)] ready).
Example C32_example : token_at inactive irct /\ genuine_converter inactive (SCORE 10) /\ is_connector inactive (SCORE 10) irct /\
  ~ active inactive (SCORE 10) /\ owner_of inactive (SCORE 10) = admin /\
  bool_decide (is_Some (play quiet 9 [call 1 irct (MTransfer (SCORE 10) 1000 None)] inactive)) = true /\
  play quiet 9 [call 2 irct (MTransfer (SCORE 10) 1000 None)] inactive = None.
Proof.
  split; [split; [done|left; by vm_compute]|]. split; [split; [split; [done|]|]; vm_compute; done|].
  split; [by vm_compute|]. split; [by vm_compute|]. vm_compute. done.
Qed.

(* C33: refuted.  The manager's tokens are refused (unless he is the owner or the network). *)
Theorem C33_manager_cannot_fund_refuted : forall adv fuel ro m T C v d w, token_at w T -> genuine_converter w C ->
  manager_of w C = Some m -> m <> owner_of w C -> m <> network_of w C ->
  ~ succeeds (exec adv fuel ro m T 0 (MTransfer C v d)) w.
Proof.
  intros adv fuel ro m T C v d w HT HG _ H1 H2 (r & w' & H). apply C32_accepted_or_rejected in H; [|done|done]. naive_solver.
Qed.
Print Assumptions C33_manager_cannot_fund_refuted.
Example C33_example : manager_of inactive (SCORE 10) = Some bob /\ owner_of inactive (SCORE 10) = admin /\ network_of inactive (SCORE 10) = network /\
  balance_of inactive irct bob = 1000 /\ is_connector inactive (SCORE 10) irct /\ play quiet 9 [call 3 irct (MTransfer (SCORE 10) 1000 None)] inactive = None.
Proof. vm_compute. done. Qed.

(* C34 - C40 are about a conversion at a converter: the network sends v of token T with data d to the converter C.
   A state in which the network holds some tokens: *)
Definition holding : world := default world0 (play quiet 9
  [call 2 irct (MTransfer network (10 ^ 8) (Some data_result)); TCall 2 icxt (10 ^ 21) MDeposit; call 2 icxt (MTransfer network (10 ^ 20) (Some data_result))] ready).
Definition request (to : addr) (min : Z) : data := hop_data to (JInt min).
Lemma holding_reachable : reachable quiet holding.
Proof. eapply play_reachable; [apply ready_reachable|]. apply play_default. by vm_compute. Qed.
Lemma wants_request to min : addr_ok to -> wants (request to min) to min.
Proof. intros H. apply wants_iff. unfold request. rewrite hop_request; [|done]. done. Qed.
Lemma request_wants to min to' min' : addr_ok to -> wants (request to min) to' min' -> to' = to /\ min' = min.
Proof. intros H. rewrite wants_iff. unfold request. rewrite hop_request by done. cbn. by intros [= <- <-]. Qed.

(* C34 *)
Theorem C34_min_return : forall adv fuel ro N T C v d w r w', token_at w T -> genuine_converter w C -> network_at w N -> owner_of w C <> N ->
  (forall to min, wants d to min -> token_at w to) -> 0 <= fee_of w C <= 1000000 ->
  exec adv fuel ro N T 0 (MTransfer C v (Some d)) w = Ok (r, w') ->
  exists to min x y, wants d to min /\ 0 < min <= x /\ T <> to /\
    balance_of w' to N = balance_of w to N + x /\ balance_of w' T N = balance_of w T N - v /\
    (* x is the result of the formula less the fee *)
    formula_result w C T to v (if cn_venabled (connector_of w C T) then v else 0) = Ok y /\
    after_fee (fee_of w C) (fee_steps w C T to) y x.
Proof.
  intros adv fuel ro N T C v d w r w' HT HG HN HoN Hto Hfee H. pose proof (conversion adv _ _ _ _ _ _ _ _ _ _ HT HG HN HoN Hto H) as HC. cbv zeta in HC.
  destruct HC as (Hv & _ & _ & _ & to & min & x & fee & Hd & Hmin & Hq & _ & HE).
  assert (T <> to) as Hne by (intros ->; unfold executed_quote in Hq; by rewrite decide_True in Hq).
  assert (C <> N) as HCN. { intros ->. destruct HG as [(_ & G & _) _], HN as (_ & _ & G'). congruence. }
  pose proof (eff_bal _ _ _ _ _ _ HE) as HB.
  exists to, min, x. apply executed_formula in Hq as (y & Hy & Ha & _); [|lia|done]. exists y. split; [done|]. split; [done|]. split; [done|].
  rewrite (HB to), (HB T), !trade_balances_N by done. rewrite !credit_eq, !credit_ne1 by done. split; [lia|]. split; [lia|].
  split; [exact Hy|done].
Qed.
Print Assumptions C34_min_return.
Example C34_example : token_at holding irct /\ genuine_converter holding convA /\ network_at holding network /\ owner_of holding convA <> network /\
  addr_ok icxt /\ token_at holding icxt /\ fee_of holding convA = 3000 /\
  returned (exec quiet 9 false network irct 0 (MTransfer convA 1000000 (Some (request icxt 1))) holding) = Some RNone.
Proof.
  split; [split; [done|left; by vm_compute]|]. split; [split; [split; [done|]|]; vm_compute; done|].
  split; [split; [done|split; [done|by vm_compute]]|]. split; [by vm_compute|]. split; [done|]. split; [split; [done|right; left; by vm_compute]|].
  vm_compute. done.
Qed.

(* C35: exactly when a conversion succeeds *)
Theorem C35_exactly_when : forall adv fuel N T C v d w, token_at w T -> genuine_converter w C -> network_at w N -> owner_of w C <> N ->
  (forall to min, wants d to min -> token_at w to) -> (forall X a, 0 <= balance_of w X a) -> 0 <= fee_of w C <= 1000000 ->
  succeeds (exec adv (S (S (S (S fuel)))) false N T 0 (MTransfer C v (Some d))) w <->
  0 < v <= balance_of w T N /\ movable w T /\ network_of w C = N /\ conversions_enabled w C = true /\
  exists to min x, wants d to min /\ 0 < min <= x /\ tradable w C T to /\ worth w C T to v (lowered w C T v) x /\ deliverable w C T to v x.
Proof.
  intros adv fuel N T C v d w HT HG HN HoN Hto Hge Hf. rewrite (hop_iff adv fuel N T C v d w HT HG HN HoN Hto Hge). split.
  - intros (A1 & A2 & A3 & A4 & to & min & x & fee & B1 & B2 & B3 & B4). do 4 (split; [done|]). exists to, min, x. split; [done|]. split; [done|].
    destruct (proj1 (executed_iff w C T to v x ltac:(lia) Hf)) as [? ?]; [by exists fee|]. done.
  - intros (A1 & A2 & A3 & A4 & to & min & x & B1 & B2 & B3 & B4 & B5). do 4 (split; [done|]).
    destruct (proj2 (executed_iff w C T to v x ltac:(lia) Hf)) as [fee ?]; [done|]. by exists to, min, x, fee.
Qed.
Print Assumptions C35_exactly_when.
(* while conversions are disabled the only transfer a converter accepts is funding by its owner while it is inactive *)
Theorem C35_conversions_disabled : forall adv fuel ro s T C v d w r w', token_at w T -> genuine_converter w C -> conversions_enabled w C = false ->
  exec adv fuel ro s T 0 (MTransfer C v d) w = Ok (r, w') -> s = owner_of w C /\ ~ active w C /\ is_connector w C T.
Proof.
  intros adv fuel ro s T C v d w r w' HT HG Hd H. apply to_converter_inv in H as (_ & _ & [(? & ? & ? & _)|(_ & H & _)]); [done|congruence|done|done].
Qed.
Print Assumptions C35_conversions_disabled.
Theorem C35_purchases_disabled : forall adv fuel ro N T C v d w min, token_at w T -> genuine_converter w C -> network_at w N -> owner_of w C <> N ->
  wants d (token_of w C) min -> cn_penabled (connector_of w C T) = false ->
  ~ succeeds (exec adv fuel ro N T 0 (MTransfer C v (Some d))) w.
Proof.
  intros adv fuel ro N T C v d w min HT HG HN HoN Hd Hp (r & w' & H).
  assert (forall to m, wants d to m -> to = token_of w C) as Hto.
  { intros to m Hw. apply wants_iff in Hw, Hd. congruence. }
  pose proof (conversion adv _ _ _ _ _ _ _ _ _ _ HT HG HN HoN (fun to m Hw => eq_ind_r (token_at w) (conv_token_at _ _ (proj1 HG)) (Hto to m Hw)) H) as HC. cbv zeta in HC.
  destruct HC as (_ & _ & _ & _ & to & m & x & fee & Hw & _ & Hq & _). apply Hto in Hw. subst to.
  unfold executed_quote in Hq. destruct (decide _); [done|]. destruct (decide _); [|done]. rewrite decide_True, Hp, andb_false_r in Hq by done. done.
Qed.
Print Assumptions C35_purchases_disabled.
(* the purchase switch of a connector, whichever way it is set, does not affect sales *)
Theorem C35_sales_unaffected : forall adv f f' s N C v d t b w r w1, genuine_converter w C -> network_at w N -> owner_of w C <> N ->
  (forall to min, wants d to min -> token_at w to) -> (forall X a, 0 <= balance_of w X a) ->
  exec adv (S f') false s C 0 (MDisableConnectorPurchases t b) w = Ok (r, w1) ->
  let sale := exec adv (S (S (S (S f)))) false N (token_of w C) 0 (MTransfer C v (Some d)) in
  succeeds sale w <-> succeeds sale w1.
Proof.
  intros adv f f' s N C v d t b w r w1 HG HN HoN Hto Hge H. cbv zeta. eapply switch_irrelevant; try done; [by apply conv_token_at, HG|].
  intros to min Hw. split; [by eapply Hto|by left].
Qed.
Print Assumptions C35_sales_unaffected.
Example C35_example :
  returned (exec quiet 9 false network irct 0 (MTransfer convA 1000000 (Some (request flexA 1))) holding) = Some RNone /\
  (let w := default world0 (play quiet 9 [call 1 convA (MDisableConversions true)] holding) in
   conversions_enabled w convA = false /\ returned (exec quiet 9 false network irct 0 (MTransfer convA 1000000 (Some (request flexA 1))) w) = None) /\
  (let w := default world0 (play quiet 9 [call 1 convA (MDisableConnectorPurchases irct true)] holding) in
   cn_penabled (connector_of w convA irct) = false /\
   returned (exec quiet 9 false network irct 0 (MTransfer convA 1000000 (Some (request flexA 1))) w) = None).
Proof. vm_compute. done. Qed.

(* C36: refuted.  Disabling purchases with T has no effect on conversions of T to other connectors. *)
Theorem C36_switch_ignored_refuted : forall adv f f' s N T C v d b w r w1, token_at w T -> genuine_converter w C -> network_at w N -> owner_of w C <> N ->
  (forall to min, wants d to min -> token_at w to /\ to <> token_of w C) -> (forall X a, 0 <= balance_of w X a) ->
  exec adv (S f') false s C 0 (MDisableConnectorPurchases T b) w = Ok (r, w1) ->
  let conversion := exec adv (S (S (S (S f)))) false N T 0 (MTransfer C v (Some d)) in
  succeeds conversion w <-> succeeds conversion w1.
Proof.
  intros adv f f' s N T C v d b w r w1 HT HG HN HoN Hto Hge H. cbv zeta. eapply switch_irrelevant; try done.
  intros to min Hw. destruct (Hto to min Hw) as [? ?]. split; [done|by right].
Qed.
Print Assumptions C36_switch_ignored_refuted.
(* a whole transaction: alice exchanges irct for icxt although purchases with irct are disabled *)
Theorem C36_example_refuted : exists w w', reachable quiet w /\ cn_penabled (connector_of w convA irct) = false /\
  play quiet 20 [call 2 irct (MTransfer network 1000000 (Some (DJson (<["path" := JStr (path_text [irct; flexA; icxt])]> (<["minReturn" := JInt 1]> ∅)))))] w = Some w' /\
  balance_of w' irct convA = balance_of w irct convA + 1000000 /\ balance_of w' icxt convA < balance_of w icxt convA.
Proof.
  exists (default world0 (play quiet 20 [call 1 convA (MDisableConnectorPurchases irct true)] ready)).
  eexists. split; [eapply play_reachable; [apply ready_reachable|apply play_default; by vm_compute]|].
  split; [by vm_compute|]. split; [apply play_default; by vm_compute|]. vm_compute. done.
Qed.
Print Assumptions C36_example_refuted.

(* C37: exact accounting.  A purchase: *)
Theorem C37_purchase : forall adv fuel ro N T C v d w min r w', token_at w T -> genuine_converter w C -> network_at w N -> owner_of w C <> N ->
  let F := token_of w C in wants d F min ->
  exec adv fuel ro N T 0 (MTransfer C v (Some d)) w = Ok (r, w') ->
  exists x fee, min <= x /\
    (forall X a, balance_of w' X a = balance_of w X a + credit T N (- v) X a + credit T C v X a + credit F N x X a) /\
    (forall X, supply_of w' X = supply_of w X + at_ F x X) /\
    (forall X t, connector_of w' X t = add_virtual (credit C T (lowered w C T v) X t) (connector_of w X t)) /\
    ledger_only w w' /\
    w_log w' = rev [(F, EvIssuance x); (F, EvTransfer F N x data_none); (C, EvConversion T F N v x fee); price_event w' C T; (T, EvTransfer N C v d)] ++ w_log w.
Proof.
  intros adv fuel ro N T C v d w min r w' HT HG HN HoN F Hd H.
  assert (forall to m, wants d to m -> to = token_of w C /\ m = min) as Hto.
  { intros to m Hw. apply wants_iff in Hw, Hd. rewrite Hd in Hw. by injection Hw as <- <-. }
  pose proof (conversion adv _ _ _ _ _ _ _ _ _ _ HT HG HN HoN (fun to m Hw => eq_ind_r (token_at w) (conv_token_at _ _ (proj1 HG)) (proj1 (Hto to m Hw))) H) as HC. cbv zeta in HC.
  destruct HC as (_ & _ & _ & _ & to & m & x & fee & Hw & Hx & Hq & _ & HE). apply Hto in Hw as [-> ->].
  assert (T <> F) as Hne by (intros ->; unfold executed_quote in Hq; by rewrite decide_True in Hq). fold F in HE.
  exists x, fee. split; [lia|]. split; [|split; [|split; [|split]]].
  - intros X a. rewrite (eff_bal _ _ _ _ _ _ HE). unfold trade_balances. rewrite (decide_False (P := T = F)), (decide_True (P := F = F)) by done. lia.
  - intros X. rewrite (eff_sup _ _ _ _ _ _ HE). unfold trade_supply, at_. rewrite (decide_False (P := T = F)), (decide_True (P := F = F)) by done. by destruct (decide _); lia.
  - intros X t. rewrite (eff_conn _ _ _ _ _ _ HE). unfold trade_virtual, lowered. rewrite (decide_False (P := T = F)), (decide_True (P := F = F)) by done. by rewrite Z.add_0_r.
  - apply HE.
  - rewrite (eff_log _ _ _ _ _ _ HE). unfold trade_events. by rewrite decide_True.
Qed.
Print Assumptions C37_purchase.
(* a sale *)
Theorem C37_sale : forall adv fuel ro N to C v d w min r w', token_at w to -> genuine_converter w C -> network_at w N -> owner_of w C <> N ->
  let F := token_of w C in wants d to min ->
  exec adv fuel ro N F 0 (MTransfer C v (Some d)) w = Ok (r, w') ->
  exists x fee, min <= x /\
    (forall X a, balance_of w' X a = balance_of w X a + credit F N (- v) X a + credit to C (- x) X a + credit to N x X a) /\
    (forall X, supply_of w' X = supply_of w X - at_ F v X) /\
    (forall X t, connector_of w' X t = add_virtual (- credit C to (lowered w C to x) X t) (connector_of w X t)) /\
    ledger_only w w' /\
    w_log w' = rev [(F, EvDestruction v); (F, EvTransfer C F v data_none); (to, EvTransfer C N x data_result); (C, EvConversion F to N v x fee);
                    price_event w' C to; (F, EvTransfer N C v d)] ++ w_log w.
Proof.
  intros adv fuel ro N to C v d w min r w' Ht HG HN HoN F Hd H.
  assert (forall to' m, wants d to' m -> to' = to /\ m = min) as Hto.
  { intros to' m Hw. apply wants_iff in Hw, Hd. rewrite Hd in Hw. by injection Hw as <- <-. }
  pose proof (conversion adv _ _ _ _ _ _ _ _ _ _ (conv_token_at _ _ (proj1 HG)) HG HN HoN (fun to' m Hw => eq_ind_r (token_at w) Ht (proj1 (Hto to' m Hw))) H) as HC. cbv zeta in HC.
  destruct HC as (_ & _ & _ & _ & to' & m & x & fee & Hw & Hx & Hq & _ & HE). apply Hto in Hw as [-> ->]. fold F in HE, Hq.
  assert (to <> F) as Hne by (intros ->; unfold executed_quote in Hq; by rewrite decide_True in Hq).
  exists x, fee. split; [lia|]. split; [|split; [|split; [|split]]].
  - intros X a. rewrite (eff_bal _ _ _ _ _ _ HE). unfold trade_balances. rewrite (decide_False (P := to = F)), (decide_True (P := F = F)) by done. lia.
  - intros X. rewrite (eff_sup _ _ _ _ _ _ HE). unfold trade_supply, at_. rewrite (decide_False (P := to = F)), (decide_True (P := F = F)) by done. by destruct (decide _); lia.
  - intros X t. rewrite (eff_conn _ _ _ _ _ _ HE). unfold trade_virtual, lowered. rewrite (decide_False (P := to = F)), (decide_True (P := F = F)) by done.
    f_equal. unfold credit. destruct (cn_venabled (connector_of w C to)); repeat destruct (decide _); lia.
  - apply HE.
  - rewrite (eff_log _ _ _ _ _ _ HE). unfold trade_events. rewrite (decide_False (P := to = F)), (decide_True (P := F = F)) by done. done.
Qed.
Print Assumptions C37_sale.
(* an exchange of two connectors *)
Theorem C37_cross : forall adv fuel ro N T to C v d w min r w', token_at w T -> token_at w to -> genuine_converter w C -> network_at w N -> owner_of w C <> N ->
  let F := token_of w C in wants d to min -> T <> F -> to <> F ->
  exec adv fuel ro N T 0 (MTransfer C v (Some d)) w = Ok (r, w') ->
  exists x fee, min <= x /\
    (forall X a, balance_of w' X a = balance_of w X a + credit T N (- v) X a + credit T C v X a + credit to C (- x) X a + credit to N x X a) /\
    (forall X, supply_of w' X = supply_of w X) /\
    (forall X t, connector_of w' X t = add_virtual (credit C T (lowered w C T v) X t - credit C to (lowered w C to x) X t) (connector_of w X t)) /\
    ledger_only w w' /\
    w_log w' = rev [(to, EvTransfer C N x data_result); (C, EvConversion T to N v x fee); price_event w' C T; price_event w' C to; (T, EvTransfer N C v d)] ++ w_log w.
Proof.
  intros adv fuel ro N T to C v d w min r w' HT Ht HG HN HoN F Hd HTF HtF H.
  assert (forall to' m, wants d to' m -> to' = to /\ m = min) as Hto.
  { intros to' m Hw. apply wants_iff in Hw, Hd. rewrite Hd in Hw. by injection Hw as <- <-. }
  pose proof (conversion adv _ _ _ _ _ _ _ _ _ _ HT HG HN HoN (fun to' m Hw => eq_ind_r (token_at w) Ht (proj1 (Hto to' m Hw))) H) as HC. cbv zeta in HC.
  destruct HC as (_ & _ & _ & _ & to' & m & x & fee & Hw & Hx & Hq & _ & HE). apply Hto in Hw as [-> ->]. fold F in HE.
  exists x, fee. split; [lia|]. split; [|split; [|split; [|split]]].
  - intros X a. rewrite (eff_bal _ _ _ _ _ _ HE). unfold trade_balances. rewrite !decide_False by done. lia.
  - intros X. rewrite (eff_sup _ _ _ _ _ _ HE). unfold trade_supply. rewrite (decide_False (P := to = F)), (decide_False (P := T = F)) by done. destruct (decide _); lia.
  - intros X t. rewrite (eff_conn _ _ _ _ _ _ HE). unfold trade_virtual, lowered. rewrite !(decide_False (P := to = F)), !(decide_False (P := T = F)) by done.
    f_equal. unfold credit. destruct (cn_venabled (connector_of w C T)), (cn_venabled (connector_of w C to)); repeat destruct (decide _); lia.
  - apply HE.
  - rewrite (eff_log _ _ _ _ _ _ HE). unfold trade_events. rewrite !decide_False by done. done.
Qed.
Print Assumptions C37_cross.

(* C38 *)
Theorem C38_no_depletion : forall adv fuel ro N T to C v d w min r w', token_at w T -> token_at w to -> genuine_converter w C -> network_at w N -> owner_of w C <> N ->
  (forall X a, 0 <= balance_of w X a) ->
  let F := token_of w C in wants d to min -> to <> F ->
  exec adv fuel ro N T 0 (MTransfer C v (Some d)) w = Ok (r, w') ->
  0 <= reserve w' C to /\ (reserve w' C to = 0 -> T = F /\ v = supply_of w F /\ supply_of w' F = 0).
Proof.
  intros adv fuel ro N T to C v d w min r w' HT Ht HG HN HoN Hge F Hd HtF H.
  assert (forall to' m, wants d to' m -> to' = to /\ m = min) as Hto.
  { intros to' m Hw. apply wants_iff in Hw, Hd. rewrite Hd in Hw. by injection Hw as <- <-. }
  pose proof (conversion adv _ _ _ _ _ _ _ _ _ _ HT HG HN HoN (fun to' m Hw => eq_ind_r (token_at w) Ht (proj1 (Hto to' m Hw))) H) as HC. cbv zeta in HC.
  destruct HC as (_ & _ & _ & _ & to' & m & x & fee & Hw & Hx & Hq & Hdel & HE). apply Hto in Hw as [-> ->]. fold F in HE.
  assert (T <> to) as Hne by (intros ->; unfold executed_quote in Hq; by rewrite decide_True in Hq).
  assert (C <> N) as HCN. { intros ->. destruct HG as [(_ & G & _) _], HN as (_ & _ & G'). congruence. }
  assert (reserve w' C to = reserve w C to - x) as ->.
  { rewrite (eff_reserve _ _ _ _ _ _ _ _ HE). destruct (cn_venabled (connector_of w C to)) eqn:Ev.
    - unfold trade_virtual. rewrite (decide_False (P := to = F)), Ev, credit_eq by done. destruct (decide _); [lia|]. unfold credit. rewrite (decide_True (P := C = C)), decide_False by done. lia.
    - unfold trade_balances. rewrite (decide_False (P := to = F)), credit_eq by done. rewrite !(credit_ne to N) by done. rewrite (credit_ne1 T) by done. destruct (decide _); rewrite ?(credit_ne1 T) by done; lia. }
  rewrite (eff_sup _ _ _ _ _ _ HE F). unfold trade_supply. rewrite (decide_True (P := F = F)), (decide_False (P := to = F)) by done.
  unfold deliverable in Hdel. fold F in Hdel. rewrite decide_False in Hdel by done. destruct Hdel as (_ & _ & Hdel).
  destruct (decide (T = F)) as [ETF|NTF].
  - destruct Hdel as [?|[? ->]]; split; try lia. intros _. split; [done|]. split; [done|]. lia.
  - destruct (cn_venabled _); split; lia.
Qed.
Print Assumptions C38_no_depletion.
(* C37 and C38: purchases, sales and exchanges happen *)
Example C38_example :
  let run T v to := exec quiet 9 false network T 0 (MTransfer convA v (Some (request to 1))) in
  match run irct 1000000 flexA holding with
  | Ok (_, w1) =>
      let x := balance_of w1 flexA network in
      (x = 2990989 /\ supply_of w1 flexA = supply_of holding flexA + x /\ balance_of w1 irct convA = balance_of holding irct convA + 1000000) /\
      match run flexA x icxt w1 with
      | Ok (_, w2) => supply_of w2 flexA = supply_of holding flexA /\ 0 < reserve w2 convA icxt < reserve w1 convA icxt
      | Err _ => False end
  | Err _ => False end.
Proof. vm_compute. done. Qed.

(* C39: without a virtual balance of the token that is sent, the amount paid is the amount quoted before *)
Theorem C39_executed_as_quoted : forall adv fuel ro N T C v d w r w', token_at w T -> genuine_converter w C -> network_at w N -> owner_of w C <> N ->
  (forall to min, wants d to min -> token_at w to) -> cn_venabled (connector_of w C T) = false ->
  exec adv fuel ro N T 0 (MTransfer C v (Some d)) w = Ok (r, w') ->
  exists to min x fee, wants d to min /\ min <= x /\ T <> to /\
    replies adv w C (MGetReturn T to v) (RRet x fee) /\
    balance_of w' to N = balance_of w to N + x.
Proof.
  intros adv fuel ro N T C v d w r w' HT HG HN HoN Hto Hv H. pose proof (conversion adv _ _ _ _ _ _ _ _ _ _ HT HG HN HoN Hto H) as HC. cbv zeta in HC.
  destruct HC as (_ & _ & _ & _ & to & min & x & fee & Hd & Hmin & Hq & _ & HE).
  assert (T <> to) as Hne by (intros ->; unfold executed_quote in Hq; by rewrite decide_True in Hq).
  assert (C <> N) as HCN. { intros ->. destruct HG as [(_ & G & _) _], HN as (_ & _ & G'). congruence. }
  exists to, min, x, fee. split; [done|]. split; [lia|]. split; [done|]. rewrite (executed_quote_real _ _ _ _ _ Hv) in Hq. split.
  - exists 2%nat. intros f ro' s Hf. destruct f as [|[|f]]; [lia|lia|]. eapply exec_getReturn_ok; [apply HG|done|by eapply Hto|done].
  - rewrite (eff_bal _ _ _ _ _ _ HE), trade_balances_N by done. rewrite credit_eq, credit_ne1 by done. lia.
Qed.
Print Assumptions C39_executed_as_quoted.
(* the flexible token itself never has a virtual balance, so this covers all sales *)
Theorem C39_sales_have_no_virtual_source : forall adv w C, reachable adv w -> kind_at w C = Some KConv -> cn_venabled (connector_of w C (token_of w C)) = false.
Proof.
  intros adv w C Hr HK. destruct (C27_connectors_consistent _ _ _ Hr HK) as (_ & _ & H1 & H2 & _). rewrite H2; [done|]. intros H.
  destruct (H1 _ H) as (_ & ? & _). done.
Qed.
Print Assumptions C39_sales_have_no_virtual_source.
Example C39_example : cn_venabled (connector_of holding convA irct) = false /\
  returned (exec quiet 9 true alice convA 0 (MGetReturn irct icxt 1000000) holding) = Some (RRet 596400628798150401 3594571243449224) /\
  match exec quiet 9 false network irct 0 (MTransfer convA 1000000 (Some (request icxt 1))) holding with
  | Ok (_, w') => balance_of w' icxt network - balance_of holding icxt network = 596400628798150401 | Err _ => False end.
Proof. vm_compute. done. Qed.

(* C40: refuted.  With a virtual balance of the token that is sent the formula is applied to the balance lowered by the
   amount sent, which was never added to it.  So the amount paid is not the amount quoted, *)
Theorem C40_quote_and_execution_differ : forall adv fuel ro N T C v d w r w', token_at w T -> genuine_converter w C -> network_at w N -> owner_of w C <> N ->
  (forall to min, wants d to min -> token_at w to) -> 0 <= fee_of w C <= 1000000 -> cn_venabled (connector_of w C T) = true ->
  exec adv fuel ro N T 0 (MTransfer C v (Some d)) w = Ok (r, w') ->
  exists to min x, wants d to min /\ min <= x /\ balance_of w' to N = balance_of w to N + x /\
    (* paid *) worth w C T to v v x /\
    (* quoted *) forall q fee, replies adv w C (MGetReturn T to v) (RRet q fee) -> worth w C T to v 0 q.
Proof.
  intros adv fuel ro N T C v d w r w' HT HG HN HoN Hto Hf Hv H.
  destruct (C34_min_return adv _ _ _ _ _ _ _ _ _ _ HT HG HN HoN Hto Hf H) as (to & min & x & y & Hd & Hm & Hne & Hb & _ & Hy & Ha).
  exists to, min, x. rewrite Hv in Hy. split; [done|]. split; [lia|]. split; [done|]. split; [by exists y|].
  intros q fee (n & Hq). specialize (Hq n false N ltac:(lia)).
  apply exec_getReturn_inv in Hq as (x' & fee' & Hq & [= <- <-] & _); [|apply HG|done|by eapply Hto].
  apply to_converter_inv in H as (Hv' & _); [|done|done].
  apply quote_formula in Hq as (y' & Hy' & Ha' & _); [by exists y'|lia|done].
Qed.
Print Assumptions C40_quote_and_execution_differ.
(* an amount of at least the virtual balance cannot be converted, whatever was quoted *)
Theorem C40_large_amounts_fail : forall adv fuel ro N T C v d w, token_at w T -> genuine_converter w C -> network_at w N -> owner_of w C <> N ->
  (forall to min, wants d to min -> token_at w to) -> 0 <= fee_of w C <= 1000000 ->
  T <> token_of w C -> cn_venabled (connector_of w C T) = true -> cn_virtual (connector_of w C T) <= v ->
  ~ succeeds (exec adv fuel ro N T 0 (MTransfer C v (Some d))) w.
Proof.
  intros adv fuel ro N T C v d w HT HG HN HoN Hto Hf HTF Hv Hlarge (r & w' & H).
  assert (0 < v) as Hv0. { apply to_converter_inv in H as (? & _); [lia|done|done]. }
  destruct (C40_quote_and_execution_differ adv _ _ _ _ _ _ _ _ _ _ HT HG HN HoN Hto Hf Hv H) as (to & min & x & _ & _ & _ & (y & Hy & _) & _).
  assert (reserve w C T - v <= 0) as HR by (unfold reserve; rewrite Hv; lia).
  unfold formula_result in Hy. destruct (decide (to = token_of w C)); [|rewrite decide_False in Hy by done].
  - destruct (FormulaQuotes.purchase_domain _ _ _ _ _ (Z.lt_le_incl _ _ Hv0) Hy) as (_ & ? & _). lia.
  - destruct (FormulaQuotes.cross_domain _ _ _ _ _ _ (Z.lt_le_incl _ _ Hv0) Hy) as (? & _). lia.
Qed.
Print Assumptions C40_large_amounts_fail.
(* a reachable state and a transaction: alice is quoted 211707.560378 tokens and gets 992276.528023 *)
Definition virtual : world := default world0 (play quiet 9
  [call 1 convA (MUpdateConnector irct 300000 true (10 ^ 8)); call 1 irct (MTransfer alice (10 ^ 9) None)] ready).
Theorem C40_example_refuted : exists quoted w', reachable quiet virtual /\
  returned (exec quiet 9 true alice convA 0 (MGetReturn irct flexA 90000000) virtual) = Some quoted /\
  play quiet 20 [call 2 irct (MTransfer network 90000000 (Some (pay_path [irct; flexA; flexA] 1)))] virtual = Some w' /\
  exists x fee, quoted = RRet x fee /\ 4 * x < balance_of w' flexA alice - balance_of virtual flexA alice.
Proof.
  eexists _, _. split; [eapply play_reachable; [apply ready_reachable|apply play_default; by vm_compute]|].
  split; [vm_compute; reflexivity|]. split; [apply play_default; by vm_compute|]. eexists _, _. split; [reflexivity|]. vm_compute. done.
Qed.
Print Assumptions C40_example_refuted.

(* C41 *)
Theorem C41_update_registry : forall adv fuel s C w, genuine_converter w C ->
  let new := registered w (registry_of w C) "ScoreRegistry" in
  (succeeds (exec adv (S (S fuel)) false s C 0 MUpdateRegistry) w <->
   (registry_updates_allowed w C = true \/ s = owner_of w C) /\ new <> zero_score /\ new <> registry_of w C) /\
  forall r w', exec adv (S (S fuel)) false s C 0 MUpdateRegistry w = Ok (r, w') ->
    registry_of w' C = new /\ prev_registry_of w' C = registry_of w C /\ registry_updates_allowed w' C = registry_updates_allowed w C /\
    exists sc, w_scores w !! C = Some sc /\ w' = after C (set_registry new (set_prev_registry (registry_of w C) sc)) [] w.
Proof.
  intros adv fuel s C w HG new. destruct (conv_sc _ _ (proj1 HG)) as (sc & Hsc & K). destruct HG as ((HC1 & _) & HR1 & HR2). unfold succeeds.
  setoid_rewrite (updateRegistry_iff adv fuel s C w sc _ _ HC1 Hsc K HR1 HR2). cbv zeta. fold new. split; [split|].
  - by intros (r & w' & H & _).
  - intros H. do 2 eexists. split; [done|]. by split.
  - intros r w' (_ & _ & ->). unfold registry_of at 1, prev_registry_of, registry_updates_allowed. rewrite after_wupd, !var_upd, !decide_True by done.
    split; [done|]. split; [done|]. split; [by rewrite (var_sc _ _ _ _ _ Hsc)|]. exists sc. by rewrite after_wupd.
Qed.
Print Assumptions C41_update_registry.
Theorem C41_restore_registry : forall adv fuel s C w, is_contract C = true -> kind_at w C = Some KConv ->
  (succeeds (exec adv (S fuel) false s C 0 MRestoreRegistry) w <-> s = owner_of w C \/ manager_of w C = Some s) /\
  forall r w', exec adv (S fuel) false s C 0 MRestoreRegistry w = Ok (r, w') ->
    registry_of w' C = prev_registry_of w C /\ prev_registry_of w' C = prev_registry_of w C /\ registry_updates_allowed w' C = false /\
    exists sc, w_scores w !! C = Some sc /\ w' = after C (set_allow_reg false (set_registry (prev_registry_of w C) sc)) [] w.
Proof.
  intros adv fuel s C w HC1 HK. apply kind_at_Some in HK as (sc & Hsc & K). rewrite (owner_of_sc _ _ _ Hsc). unfold manager_of, prev_registry_of. rewrite !(var_sc _ _ _ _ _ Hsc).
  unfold succeeds. setoid_rewrite (restoreRegistry_iff adv fuel s C w sc HC1 Hsc _ _ K). split; [split|].
  - intros (r & w' & [H|H] & _); [by right|by left].
  - intros H. do 2 eexists. split; [|by split]. destruct H as [->|H]; [by right|by left].
  - intros r w' (_ & _ & ->). unfold registry_of, registry_updates_allowed. rewrite after_wupd, !var_upd, !decide_True by done.
    split; [done|]. split; [done|]. split; [done|]. exists sc. by rewrite after_wupd.
Qed.
Print Assumptions C41_restore_registry.
(* so after a restore only the owner can update *)
Theorem C41_restore_blocks_outsiders : forall adv fuel fuel' s s' C w r w', genuine_converter w C -> is_contract (prev_registry_of w C) = true -> kind_at w (prev_registry_of w C) = Some KReg ->
  exec adv (S fuel) false s C 0 MRestoreRegistry w = Ok (r, w') -> s' <> owner_of w C ->
  ~ succeeds (exec adv (S (S fuel')) false s' C 0 MUpdateRegistry) w'.
Proof.
  intros adv fuel fuel' s s' C w r w' HG HP1 HP2 H Hs'. pose proof HG as ((HC1 & HK & HF1 & HF2) & _).
  destruct (proj2 (C41_restore_registry adv fuel s C w HC1 HK) _ _ H) as (E1 & _ & E3 & sc & Hsc & Ew).
  assert (s_kind sc = KConv) as K. { unfold kind_at in HK. rewrite Hsc in HK. cbn in HK. congruence. }
  assert (forall a, kind_at w' a = kind_at w a) as Ek.
  { intros a. rewrite Ew, after_wupd. unfold kind_at. cbn. destruct (decide (a = C)) as [->|]; [by rewrite lookup_insert, Hsc|by rewrite lookup_insert_ne]. }
  assert (token_of w' C = token_of w C) as Et. { rewrite Ew, after_wupd. unfold token_of. by rewrite var_upd, decide_True, (var_sc _ _ _ _ _ Hsc). }
  assert (owner_of w' C = owner_of w C) as Eo. { rewrite Ew, after_wupd. unfold owner_of. by rewrite var_upd, decide_True, (var_sc _ _ _ _ _ Hsc). }
  assert (genuine_converter w' C) as HG'. { split; [|by rewrite E1, Ek]. unfold conv_at. by rewrite Et, !Ek. }
  rewrite (proj1 (C41_update_registry adv fuel' s' C w' HG')), E3, Eo. intros ([?|?] & _); done.
Qed.
Print Assumptions C41_restore_blocks_outsiders.
Example C41_example :
  let w := default world0 (play quiet 9 [TDeploy 1 20 IReg; call 1 (SCORE 20) (MRegisterAddress "Network" network); call 1 registry (MRegisterAddress "ScoreRegistry" (SCORE 20));
    call 2 convA MUpdateRegistry] ready) in
  let w' := default world0 (play quiet 9 [call 1 convA MRestoreRegistry] w) in
  registry_of w convA = SCORE 20 /\ prev_registry_of w convA = registry /\ registry_of w' convA = registry /\ registry_updates_allowed w' convA = false /\
  play quiet 9 [call 2 convA MUpdateRegistry] w' = None /\ bool_decide (is_Some (play quiet 9 [call 1 convA MUpdateRegistry] w')) = true.
Proof. vm_compute. done. Qed.

(* C42: refuted.  The manager can lift the block himself. *)
Theorem C42_who_can_allow_updates : forall adv fuel s C b w, is_contract C = true -> kind_at w C = Some KConv ->
  (succeeds (exec adv (S fuel) false s C 0 (MDisableRegistryUpdate b)) w <-> s = owner_of w C \/ manager_of w C = Some s) /\
  forall r w', exec adv (S fuel) false s C 0 (MDisableRegistryUpdate b) w = Ok (r, w') -> registry_updates_allowed w' C = negb b.
Proof.
  intros adv fuel s C b w HC1 HK. apply kind_at_Some in HK as (sc & Hsc & K). rewrite (owner_of_sc _ _ _ Hsc). unfold manager_of. rewrite !(var_sc _ _ _ _ _ Hsc).
  unfold succeeds. setoid_rewrite (disableRegistryUpdate_iff adv fuel s C w sc HC1 Hsc b _ _ K). split; [split|].
  - intros (r & w' & [H|H] & _); [by right|by left].
  - intros H. do 2 eexists. split; [|by split]. destruct H as [->|H]; [by right|by left].
  - intros r w' (_ & _ & ->). unfold registry_updates_allowed. by rewrite after_wupd, var_upd, decide_True.
Qed.
Print Assumptions C42_who_can_allow_updates.
(* restored by the owner; then bob, the manager, allows updates again, and alice updates the registry *)
Theorem C42_manager_lifts_block_refuted : exists w w', reachable quiet w /\ owner_of w convA = admin /\ manager_of w convA = Some bob /\ registry_updates_allowed w convA = false /\
  play quiet 9 [call 3 convA (MDisableRegistryUpdate false); call 2 convA MUpdateRegistry] w = Some w' /\ registry_of w convA = registry /\ registry_of w' convA = SCORE 20.
Proof.
  exists (default world0 (play quiet 9 [TDeploy 1 20 IReg; call 1 (SCORE 20) (MRegisterAddress "Network" network); call 1 registry (MRegisterAddress "ScoreRegistry" (SCORE 20));
    call 1 convA (MTransferManagement bob); call 3 convA MAcceptManagement; call 2 convA MUpdateRegistry; call 1 convA MRestoreRegistry] ready)).
  eexists. split; [eapply play_reachable; [apply ready_reachable|apply play_default; by vm_compute]|].
  split; [by vm_compute|]. split; [by vm_compute|]. split; [by vm_compute|]. split; [apply play_default; by vm_compute|]. vm_compute. done.
Qed.
Print Assumptions C42_manager_lifts_block_refuted.
