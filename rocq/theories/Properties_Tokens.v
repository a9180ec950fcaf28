(* Property theorems about tokens (C13 - C21).  [exec adv fuel ro s t v m] is a call of method m of the contract at t by
   s with v coins; adv is the code of all unknown contracts, fuel the depth of calls.  [run_tx] is a transaction. *)
From Coq Require Import String Ascii ZArith Lia.
From stdpp Require Import base countable list numbers strings gmap relations.
From Verif Require Import Res Codec World WorldBasics WorldSteps WorldExec WorldSpec Scenario WorldInv WorldMoney WorldAuth
  WorldNet WorldCalls WorldViews WorldConv WorldHop WorldOwner WorldCoins WorldTrade WorldMore WorldLog.
Local Open Scope Z_scope.

(* what the theorems talk about is what the tokens' read-only methods return *)
Theorem C13_balances_are_observable : forall adv w t, reachable adv w -> is_token w t ->
  answers adv w t MName (RStr (name_of w t)) /\ answers adv w t MSymbol (RStr (symbol_of w t)) /\
  answers adv w t MDecimals (RInt (decimals_of w t)) /\ answers adv w t MTotalSupply (RInt (supply_of w t)) /\
  forall a, answers adv w t (MBalanceOf a) (RInt (balance_of w t a)).
Proof. intros adv w t Hr Ht. apply (kind_token_at adv) in Ht as [H1 H2]; [|done]. by apply token_answers. Qed.
Print Assumptions C13_balances_are_observable.

(* C13 *)
Theorem C13_balances_sum_to_supply : forall adv w t, reachable adv w ->
  (forall a, 0 <= balance_of w t a) /\
  exists holders, NoDup holders /\ (forall a, balance_of w t a <> 0 -> a ∈ holders) /\
    sum_Z (map (balance_of w t) holders) = supply_of w t.
Proof. exact balances_sum. Qed.
Print Assumptions C13_balances_sum_to_supply.
Theorem C13_no_group_holds_more_than_supply : forall adv w t accounts, reachable adv w -> NoDup accounts ->
  0 <= sum_Z (map (balance_of w t) accounts) <= supply_of w t.
Proof.
  intros adv w t l Hr Hl. split; [|by eapply balances_bounded]. destruct (balances_sum adv w t Hr) as [Hp _]. clear Hl.
  unfold sum_Z. induction l as [|a l IH]; cbn; [lia|]. pose proof (Hp a). lia.
Qed.
Print Assumptions C13_no_group_holds_more_than_supply.
Example C13_example : reachable quiet ready /\ supply_of ready icxt = 201 * 10 ^ 21 /\
  map (balance_of ready icxt) [admin; alice; bob; convA] = [10 ^ 23; 10 ^ 21; 0; 10 ^ 23].
Proof. split; [apply ready_reachable|]. vm_compute. done. Qed.

(* C14 *)
Theorem C14_transfer_to_account : forall adv fuel s t to v d w r w', token_at w t -> is_contract to = false ->
  exec adv (S fuel) false s t 0 (MTransfer to v d) w = Ok (r, w') ->
  0 <= v <= balance_of w t s /\ r = RNone /\
  ledger_change t (fun a => at_ s (- v) a + at_ to v a) 0 [EvTransfer s to v (default data_none d)] w w'.
Proof.
  intros adv fuel s t to v d w r w' [Ht HT] Hto H. destruct (token_sc _ _ HT) as (sc & Hsc & Hk).
  destruct (proj1 (transfer_user_iff adv fuel s t w sc Ht Hsc to v d r w' Hk Hto) H) as ((H1 & _) & -> & ->).
  rewrite (balance_of_sc _ _ _ _ Hsc). split; [done|]. split; [done|]. by apply ledger_change_move.
Qed.
Print Assumptions C14_transfer_to_account.
Theorem C14_transfer_succeeds_iff : forall adv fuel s t to v d w, token_at w t -> is_contract to = false ->
  (succeeds (exec adv (S fuel) false s t 0 (MTransfer to v d)) w <->
   0 <= v <= balance_of w t s /\ (kind_at w t = Some KFlex -> transferable w t = true)).
Proof.
  intros adv fuel s t to v d w [Ht HT] Hto. destruct (token_sc _ _ HT) as (sc & Hsc & Hk).
  unfold transferable, kind_at. rewrite (balance_of_sc _ _ _ _ Hsc), (var_sc _ _ _ _ _ Hsc), Hsc. cbn.
  unfold succeeds. setoid_rewrite (transfer_user_iff adv fuel s t w sc Ht Hsc to v d _ _ Hk Hto). split.
  - intros (r & w' & [H1 H2] & _). split; [done|]. intros E. apply H2. congruence.
  - intros [H1 H2]. do 2 eexists. split; [|by split]. split; [done|]. intros E. apply H2. congruence.
Qed.
Print Assumptions C14_transfer_succeeds_iff.
(* to contracts: the receiver's tokenFallback runs between the booking and the event *)
Theorem C14_transfer_to_any : forall adv fuel ro s t v to x d w r w', is_token w t ->
  exec adv fuel ro s t v (MTransfer to x d) w = Ok (r, w') ->
  v = 0 /\ ro = false /\ 0 <= x <= balance_of w t s /\ r = RNone /\
  exists w1 w2, ledger_change t (fun a => at_ s (- x) a + at_ to x a) 0 [] w w1 /\
    (if is_contract to then exists fuel' r2, exec adv fuel' false t to 0 (MTokenFallback s x (default data_none d)) w1 = Ok (r2, w2) else w2 = w1) /\
    w' = World (w_icx w2) (w_scores w2) ((t, EvTransfer s to x (default data_none d)) :: w_log w2).
Proof.
  intros adv fuel ro s t v to x d w r w' HT H.
  apply exec_transfer_inv in H as (-> & -> & Ht & Hx & _ & _ & -> & f & sc & r2 & w2 & -> & Hsc & H & ->); [|done].
  do 4 (split; [done|]). eexists _, w2. split; [apply (ledger_change_move w t sc s to x [] Hsc)|]. split; [|done].
  destruct (is_contract to); [by exists f, r2|]. by apply ret_Ok in H as [_ ->].
Qed.
Print Assumptions C14_transfer_to_any.
Example C14_example : token_at ready icxt /\ is_contract bob = false /\
  0 <= 10 ^ 20 <= balance_of ready icxt alice /\ kind_at ready icxt = Some KIcx /\
  (w ← play quiet 5 [call 2 icxt (MTransfer bob (10 ^ 20) None)] ready; Some (balance_of w icxt alice, balance_of w icxt bob)) = Some (9 * 10 ^ 20, 10 ^ 20).
Proof. split; [split; [done|right; left; by vm_compute]|]. vm_compute. done. Qed.

(* C15 *)
Theorem C15_icx_token_backed : forall adv w t, reachable adv w -> kind_at w t = Some KIcx -> icx w t = supply_of w t.
Proof. exact icx_backed. Qed.
Print Assumptions C15_icx_token_backed.
Theorem C15_every_holder_can_redeem : forall adv fuel n t v w, reachable adv w -> kind_at w t = Some KIcx ->
  0 < v <= balance_of w t (EOA n) ->
  exists w', exec adv (S (S fuel)) false (EOA n) t 0 (MWithdraw v) w = Ok (RNone, w') /\
    icx w' (EOA n) = icx w (EOA n) + v /\ icx w' t = icx w t - v /\
    ledger_change t (at_ (EOA n) (- v)) (- v) [EvDestruction v] (World (w_icx w') (w_scores w) (w_log w)) w'.
Proof.
  intros adv fuel n t v w Hr HK Hv. pose proof (icx_backed _ _ _ Hr HK) as HB.
  pose proof (balances_bounded adv w t [EOA n] Hr (NoDup_singleton _)) as Hs. unfold sum_Z in Hs. cbn in Hs.
  destruct (kind_contract adv w t KIcx Hr HK) as [Ht _]. apply kind_at_Some in HK as (sc & Hsc & K).
  pose proof (balance_of_sc _ _ _ (EOA n) Hsc) as EB.
  eexists. split; [|split; [|split]].
  - refine (proj2 (withdraw_iff adv fuel (EOA n) t w sc Ht Hsc K v RNone _ eq_refl) _).
    split; [|split; reflexivity]. lia.
  - rewrite after_wupd, wupd_icx, paid_icx by (by intros ->). rewrite decide_False, decide_True by (done || by intros <-). lia.
  - rewrite after_wupd, wupd_icx, paid_icx by (by intros ->). rewrite decide_True, decide_False by (done || by intros ->). lia.
  - cbn [w_icx after]. apply (ledger_change_one (World _ (w_scores w) (w_log w)) t sc (EOA n) (- v) (- v) [EvDestruction v] Hsc).
Qed.
Print Assumptions C15_every_holder_can_redeem.
Theorem C15_deposit : forall adv fuel s t v m w r w', is_contract t = true -> kind_at w t = Some KIcx -> m = MDeposit \/ m = MFallback -> s <> t -> 0 < v ->
  exec adv (S fuel) false s t v m w = Ok (r, w') ->
  v <= icx w s /\ icx w' s = icx w s - v /\ icx w' t = icx w t + v /\ (forall a, a <> s -> a <> t -> icx w' a = icx w a) /\
  ledger_change t (at_ s v) v [EvIssuance v; EvTransfer t s v data_none] (World (w_icx w') (w_scores w) (w_log w)) w'.
Proof.
  intros adv fuel s t v m w r w' Ht HK Hm Hs Hv H. apply kind_at_Some in HK as (sc & Hsc & K).
  destruct (proj1 (deposit_iff adv fuel s t w sc Ht Hsc K v m r w' Hm Hs Hv) H) as (H1 & _ & ->).
  split; [done|]. rewrite after_wupd. split; [|split; [|split]].
  - rewrite wupd_icx, paid_icx, decide_True, decide_False by done. lia.
  - rewrite wupd_icx, paid_icx, decide_False, decide_True by done. lia.
  - intros a H2 H3. rewrite wupd_icx, paid_icx, !decide_False by done. lia.
  - rewrite <- after_wupd. cbn [w_icx after]. apply (ledger_change_one (World _ (w_scores w) (w_log w)) t sc s v v _ Hsc).
Qed.
Print Assumptions C15_deposit.
(* any holder, a contract too, can redeem to any account, and exactly for what it holds *)
Theorem C15_redeem_to : forall adv fuel s n t v w, reachable adv w -> kind_at w t = Some KIcx ->
  (succeeds (exec adv (S (S fuel)) false s t 0 (MWithdrawTo v (EOA n))) w <-> 0 < v <= balance_of w t s) /\
  forall r w', exec adv (S (S fuel)) false s t 0 (MWithdrawTo v (EOA n)) w = Ok (r, w') ->
    icx w' (EOA n) = icx w (EOA n) + v /\ icx w' t = icx w t - v /\ (forall a, a <> t -> a <> EOA n -> icx w' a = icx w a) /\
    ledger_change t (at_ s (- v)) (- v) [EvDestruction v] (World (w_icx w') (w_scores w) (w_log w)) w'.
Proof.
  intros adv fuel s n t v w Hr HK. pose proof (icx_backed _ _ _ Hr HK) as HB.
  pose proof (balances_bounded adv w t [s] Hr (NoDup_singleton _)) as Hs. unfold sum_Z in Hs. cbn in Hs.
  destruct (kind_contract adv w t KIcx Hr HK) as [Ht _]. apply kind_at_Some in HK as (sc & Hsc & K).
  pose proof (balance_of_sc _ _ _ s Hsc) as EB. assert (t <> EOA n) as Hne by (by intros ->). split.
  - unfold succeeds. setoid_rewrite (withdrawTo_iff adv fuel s t w sc Ht Hsc K). split.
    + intros (r & w' & [H _] & _). lia.
    + intros H. do 2 eexists. split; [lia|]. by split.
  - intros r w' H. apply (withdrawTo_iff adv fuel s t w sc Ht Hsc K) in H as (_ & _ & ->).
    split; [|split; [|split]].
    + rewrite after_wupd, wupd_icx, paid_icx by done. rewrite decide_False, decide_True by done. lia.
    + rewrite after_wupd, wupd_icx, paid_icx by done. rewrite decide_True, decide_False by done. lia.
    + intros a H1 H2. rewrite after_wupd, wupd_icx, paid_icx by done. rewrite !decide_False by done. lia.
    + cbn [w_icx after]. apply (ledger_change_one (World _ (w_scores w) (w_log w)) t sc s (- v) (- v) [EvDestruction v] Hsc).
Qed.
Print Assumptions C15_redeem_to.
(* and everybody with the coins can deposit them *)
Theorem C15_deposit_succeeds : forall adv fuel s t v m w, is_contract t = true -> kind_at w t = Some KIcx -> m = MDeposit \/ m = MFallback -> s <> t -> 0 < v ->
  succeeds (exec adv (S fuel) false s t v m) w <-> v <= icx w s.
Proof.
  intros adv fuel s t v m w Ht HK Hm Hs Hv. apply kind_at_Some in HK as (sc & Hsc & K). unfold succeeds.
  setoid_rewrite (fun r w' => deposit_iff adv fuel s t w sc Ht Hsc K v m r w' Hm Hs Hv). split; [by intros (r & w' & H & _)|].
  intros H. do 2 eexists. split; [done|]. by split.
Qed.
Print Assumptions C15_deposit_succeeds.
Example C15_example : kind_at ready icxt = Some KIcx /\ icx ready icxt = 201 * 10 ^ 21 /\ 0 < 10 ^ 20 <= balance_of ready icxt alice /\ 0 < 10 ^ 20 <= balance_of ready icxt convA /\ 0 < icx ready alice.
Proof. vm_compute. done. Qed.

(* C16 *)
Theorem C16_holder_is_safe : forall adv fuel t w r w' T n, kind_at w T = Some KIrc \/ kind_at w T = Some KIcx ->
  tx_sender t <> EOA n -> run_tx adv fuel t w = Ok (r, w') -> balance_of w T (EOA n) <= balance_of w' T (EOA n).
Proof. exact holder_safe. Qed.
Print Assumptions C16_holder_is_safe.
(* flexible tokens: the sender controls neither the owner nor the pending owner *)
Theorem C16_flexible_holder_is_safe : forall adv fuel t w r w' T n, reachable adv w -> kind_at w T = Some KFlex ->
  secure w (tx_sender t) (owner_of w T) -> secure w (tx_sender t) (pending_owner_of w T) ->
  tx_sender t <> EOA n -> run_tx adv fuel t w = Ok (r, w') -> balance_of w T (EOA n) <= balance_of w' T (EOA n).
Proof.
  intros adv fuel t w r w' T n Hr HK H1 H2 Hn H.
  assert (exists n0, tx_sender t = EOA n0) as [n0 E] by (destruct t; by eexists). rewrite E in *.
  eapply (flex_holder_safe adv w n0 (no_eoa_reachable _ _ Hr) (no_zero_reachable _ _ Hr) fuel t r w' T n); try done; [|congruence].
  split; [|done]. by apply flex_is_owned.
Qed.
Print Assumptions C16_flexible_holder_is_safe.
Example C16_example : kind_at ready irct = Some KIrc /\ kind_at ready flexA = Some KFlex /\
  secure ready bob (owner_of ready flexA) /\ secure ready bob (pending_owner_of ready flexA) /\ balance_of ready flexA admin = 9 * 10 ^ 11.
Proof.
  split; [by vm_compute|]. split; [by vm_compute|].
  replace (owner_of ready flexA) with convA by (by vm_compute). replace (pending_owner_of ready flexA) with zero_score by (by vm_compute).
  split; [|split; [constructor|by vm_compute]]. apply secure_conv; [by vm_compute| |].
  - replace (owner_of ready convA) with admin by (by vm_compute). by apply secure_user.
  - replace (pending_owner_of ready convA) with zero_score by (by vm_compute). constructor.
Qed.

(* C17 *)
Theorem C17_irc_supply_constant : forall adv fuel t w r w' T, kind_at w T = Some KIrc ->
  run_tx adv fuel t w = Ok (r, w') -> kind_at w' T = Some KIrc /\ supply_of w' T = supply_of w T.
Proof.
  intros adv fuel t w r w' T HK H. apply kind_at_Some in HK as (sc & Hsc & K).
  destruct (ident_tx adv fuel t w r w' H T sc Hsc) as (sc' & Hsc' & I).
  unfold kind_at. rewrite (supply_of_sc _ _ _ Hsc), (supply_of_sc _ _ _ Hsc'), Hsc'. cbn. rewrite (id_kind _ _ I), K.
  split; [done|]. by apply (id_irc _ _ I).
Qed.
Print Assumptions C17_irc_supply_constant.
Theorem C17_issue : forall adv fuel s t to v w r w', is_contract t = true -> kind_at w t = Some KFlex ->
  exec adv (S fuel) false s t 0 (MIssue to v) w = Ok (r, w') ->
  0 < v /\ s = owner_of w t /\ to <> zero_score /\ to <> t /\ r = RNone /\
  ledger_change t (at_ to v) v [EvIssuance v; EvTransfer t to v data_none] w w'.
Proof.
  intros adv fuel s t to v w r w' Ht HK H. apply kind_at_Some in HK as (sc & Hsc & K).
  destruct (proj1 (issue_iff adv fuel s t w sc Ht Hsc to v r w' K) H) as ((H1 & H2 & H3 & H4) & -> & ->).
  rewrite (owner_of_sc _ _ _ Hsc). do 5 (split; [done|]). by apply ledger_change_one.
Qed.
Print Assumptions C17_issue.
Theorem C17_issue_succeeds_iff : forall adv fuel s t to v w, is_contract t = true -> kind_at w t = Some KFlex ->
  (succeeds (exec adv (S fuel) false s t 0 (MIssue to v)) w <-> 0 < v /\ s = owner_of w t /\ to <> zero_score /\ to <> t).
Proof.
  intros adv fuel s t to v w Ht HK. apply kind_at_Some in HK as (sc & Hsc & K).
  rewrite (owner_of_sc _ _ _ Hsc). unfold succeeds. setoid_rewrite (issue_iff adv fuel s t w sc Ht Hsc to v _ _ K). split.
  - by intros (r & w' & H & _).
  - intros H. do 2 eexists. by split.
Qed.
Print Assumptions C17_issue_succeeds_iff.
Theorem C17_destroy : forall adv fuel s t from v w r w', is_contract t = true -> kind_at w t = Some KFlex ->
  exec adv (S fuel) false s t 0 (MDestroy from v) w = Ok (r, w') ->
  0 < v <= balance_of w t from /\ (s = from \/ s = owner_of w t) /\ r = RNone /\
  ledger_change t (at_ from (- v)) (- v) [EvDestruction v; EvTransfer from t v data_none] w w'.
Proof.
  intros adv fuel s t from v w r w' Ht HK H. apply kind_at_Some in HK as (sc & Hsc & K).
  destruct (proj1 (destroy_iff adv fuel s t w sc Ht Hsc from v r w' K) H) as ((H1 & H2) & -> & ->).
  rewrite (owner_of_sc _ _ _ Hsc), (balance_of_sc _ _ _ _ Hsc). do 3 (split; [done|]).
  apply (ledger_change_one w t sc from (- v) (- v) _ Hsc).
Qed.
Print Assumptions C17_destroy.
Theorem C17_destroy_succeeds_iff : forall adv fuel s t from v w, is_contract t = true -> kind_at w t = Some KFlex ->
  (succeeds (exec adv (S fuel) false s t 0 (MDestroy from v)) w <-> 0 < v <= balance_of w t from /\ (s = from \/ s = owner_of w t)).
Proof.
  intros adv fuel s t from v w Ht HK. apply kind_at_Some in HK as (sc & Hsc & K).
  rewrite (owner_of_sc _ _ _ Hsc), (balance_of_sc _ _ _ _ Hsc). unfold succeeds. setoid_rewrite (destroy_iff adv fuel s t w sc Ht Hsc from v _ _ K). split.
  - by intros (r & w' & H & _).
  - intros H. do 2 eexists. by split.
Qed.
Print Assumptions C17_destroy_succeeds_iff.
Theorem C17_withdrawTo : forall adv fuel s t v n w r w', is_contract t = true -> kind_at w t = Some KIcx ->
  exec adv (S (S fuel)) false s t 0 (MWithdrawTo v (EOA n)) w = Ok (r, w') ->
  0 < v <= balance_of w t s /\ r = RNone /\ icx w' (EOA n) = icx w (EOA n) + v /\ icx w' t = icx w t - v /\
  (forall a, a <> EOA n -> a <> t -> icx w' a = icx w a) /\
  ledger_change t (at_ s (- v)) (- v) [EvDestruction v] (World (w_icx w') (w_scores w) (w_log w)) w'.
Proof.
  intros adv fuel s t v n w r w' Ht HK H. apply kind_at_Some in HK as (sc & Hsc & K).
  destruct (proj1 (withdrawTo_iff adv fuel s t w sc Ht Hsc K v n r w') H) as ((H1 & H2) & -> & ->).
  rewrite (balance_of_sc _ _ _ _ Hsc). assert (t <> EOA n) as Hne by (by intros ->).
  split; [done|]. split; [done|]. rewrite after_wupd. split; [|split; [|split]].
  - rewrite wupd_icx, paid_icx, decide_False, decide_True by done. lia.
  - rewrite wupd_icx, paid_icx, decide_True, decide_False by done. lia.
  - intros a Ha1 Ha2. rewrite wupd_icx, paid_icx, !decide_False by done. lia.
  - rewrite <- after_wupd. cbn [w_icx after]. apply (ledger_change_one (World _ (w_scores w) (w_log w)) t sc s (- v) (- v) _ Hsc).
Qed.
Print Assumptions C17_withdrawTo.
(* to any recipient: balance and supply are lowered first; then the coins are sent, and if the recipient is a contract
   that accepts coins its code runs; then the event is logged *)
Theorem C17_withdraw_to_any : forall adv fuel ro s t v m x to w r w', kind_at w t = Some KIcx -> is_contract t = true ->
  m = MWithdrawTo x to \/ m = MWithdraw x /\ to = s -> exec adv fuel ro s t v m w = Ok (r, w') ->
  v = 0 /\ ro = false /\ 0 < x <= balance_of w t s /\
  exists w1 w2 fuel' r2, ledger_change t (at_ s (- x)) (- x) [] w w1 /\ exec adv fuel' false t to x MFallback w1 = Ok (r2, w2) /\
    w' = World (w_icx w2) (w_scores w2) ((t, EvDestruction x) :: w_log w2).
Proof.
  intros adv fuel ro s t v m x to w r w' HK Ht Hm H. apply kind_at_Some in HK as (sc & Hsc & K).
  destruct fuel as [|f]; [done|]. apply exec_inv in H as (w1 & H1 & _ & H); [|apply exec_keeps].
  destruct H as [(n & -> & _)|(sc1 & _ & Hsc1 & Hro & Hpay & Hh & _ & _)]; [done|].
  rewrite (move_icx_scores _ _ _ _ _ _ H1), Hsc in Hsc1. injection Hsc1 as <-. rewrite K in *. specialize (Hh ltac:(done)).
  assert (is_readonly m = false) as Hr by (by destruct Hm as [->|[-> _]]).
  assert (ro = false) as ->. { destruct ro; [|done]. specialize (Hro ltac:(done) eq_refl). congruence. }
  assert (v = 0) as ->. { destruct Hpay as [E|E]; [|done]. by destruct Hm as [->|[-> _]]. }
  assert (w1 = w) as ->. { unfold move_icx in H1. cbn in H1. by injection H1 as <-. }
  eapply withdraw_inv in Hh as (Hx & r2 & w2 & E & ->); [|exact Hm|exact Hsc]. cbn [c_self c_sender c_ro frame] in *.
  rewrite Hr in E. cbn [orb] in E. rewrite (balance_of_sc _ _ _ _ Hsc). do 3 (split; [done|]).
  eexists _, w2, f, r2. split; [|split; [exact E|done]]. rewrite <- (after_wupd t _ [] w). apply (ledger_change_one w t sc s (- x) (- x) [] Hsc).
Qed.
Print Assumptions C17_withdraw_to_any.
Example C17_example :
  let w := default world0 (play quiet 5 [TDeploy 1 9 (IFlex "Gamma" "GAM" 10 2); call 1 (SCORE 9) (MIssue alice 5); call 2 (SCORE 9) (MDestroy alice 3)] ready) in
  kind_at w (SCORE 9) = Some KFlex /\ owner_of w (SCORE 9) = admin /\ supply_of w (SCORE 9) = 1002 /\ balance_of w (SCORE 9) alice = 2.
Proof. vm_compute. done. Qed.

(* C18 *)
Theorem C18_supply_accounted_by_events : forall adv fuel n a i w r w1 w2, reachable adv w ->
  run_tx adv fuel (TDeploy n a i) w = Ok (r, w1) -> later adv w1 w2 ->
  supply_of w2 (SCORE a) = match i with IIrc _ _ x e | IFlex _ _ x e => x * 10 ^ e | _ => 0 end + net_issued (SCORE a) (w_log w2).
Proof. exact supply_by_events. Qed.
Print Assumptions C18_supply_accounted_by_events.
Example C18_example : net_issued icxt (w_log ready) = 201 * 10 ^ 21 /\ net_issued flexA (w_log ready) = 0 /\ supply_of ready flexA = 10 ^ 12.
Proof. vm_compute. done. Qed.

(* C19: true of IRC and flexible tokens (but for the account of the token itself, which can hold nothing) ... *)
Theorem C19_events_give_balances : forall adv fuel n a i w r w1 w2 h, reachable adv w ->
  install_kind i = KIrc \/ install_kind i = KFlex ->
  run_tx adv fuel (TDeploy n a i) w = Ok (r, w1) -> later adv w1 w2 -> h <> SCORE a ->
  balance_of w2 (SCORE a) h =
    (if decide (h = EOA n) then match i with IIrc _ _ x e | IFlex _ _ x e => x * 10 ^ e | _ => 0 end else 0) + net_transferred (SCORE a) h (w_log w2).
Proof.
  intros adv fuel n a i w r w1 w2 h Hr Hk H Hl Hh.
  destruct (unmoved_deploy adv fuel n a i w r w1 h Hr H) as (H1 & H2 & H3); [by destruct Hk as [-> | ->]|done|].
  destruct (tracks_later adv (SCORE a) h Hh w1 w2 H1 Hl) as (_ & _ & HT). rewrite <- H3, <- HT; [unfold unmoved; lia|].
  rewrite H2. by destruct Hk as [-> | ->].
Qed.
Print Assumptions C19_events_give_balances.
(* ... but not of ICX tokens: withdraw logs no Transfer; the events then overstate the balance, never understate it *)
Theorem C19_icx_events_overstate : forall adv fuel n a w r w1 w2 h, reachable adv w ->
  run_tx adv fuel (TDeploy n a IIcx) w = Ok (r, w1) -> later adv w1 w2 -> h <> SCORE a ->
  balance_of w2 (SCORE a) h <= net_transferred (SCORE a) h (w_log w2).
Proof.
  intros adv fuel n a w r w1 w2 h Hr H Hl Hh.
  destruct (unmoved_deploy adv fuel n a IIcx w r w1 h Hr H) as (H1 & H2 & H3); [done|done|].
  destruct (tracks_later adv (SCORE a) h Hh w1 w2 H1 Hl) as (_ & HT & _). unfold unmoved in *. destruct (decide (h = EOA n)); lia.
Qed.
Print Assumptions C19_icx_events_overstate.
Theorem C19_icx_events_refuted : exists adv w, reachable adv w /\ kind_at w icxt = Some KIcx /\
  balance_of w icxt alice = 0 /\ net_transferred icxt alice (w_log w) = 10 ^ 21.
Proof.
  exists quiet, (default world0 (play quiet 5 [call 2 icxt (MWithdraw (10 ^ 21))] ready)). split; [|vm_compute; done].
  eapply play_reachable; [apply ready_reachable|]. apply play_default. by vm_compute.
Qed.
Print Assumptions C19_icx_events_refuted.
Example C19_example : net_transferred irct alice (w_log ready) = 10 ^ 9 /\ balance_of ready irct alice = 10 ^ 9 /\
  net_transferred irct admin (w_log ready) = - (10 ^ 11 + 10 ^ 9) /\ balance_of ready irct admin = 10 ^ 12 - 10 ^ 11 - 10 ^ 9.
Proof. vm_compute. done. Qed.

(* C20 *)
Theorem C20_disabled_means_disabled : forall adv fuel ro s t v to x d w, kind_at w t = Some KFlex -> transferable w t = false ->
  ~ succeeds (exec adv fuel ro s t v (MTransfer to x d)) w.
Proof.
  intros adv fuel ro s t v to x d w HK Hn (r & w' & H).
  apply exec_transfer_inv in H as (_ & _ & _ & _ & H & _); [|by right; right]. specialize (H HK). congruence.
Qed.
Print Assumptions C20_disabled_means_disabled.
Theorem C20_only_owner_switches : forall adv fuel s t b w, is_contract t = true -> kind_at w t = Some KFlex ->
  (succeeds (exec adv (S fuel) false s t 0 (MDisableTransfer b)) w <-> s = owner_of w t) /\
  forall r w', exec adv (S fuel) false s t 0 (MDisableTransfer b) w = Ok (r, w') -> transferable w' t = negb b.
Proof.
  intros adv fuel s t b w Ht HK. apply kind_at_Some in HK as (sc & Hsc & K). rewrite (owner_of_sc _ _ _ Hsc). unfold succeeds.
  setoid_rewrite (disableTransfer_iff adv fuel s t w sc Ht Hsc b _ _ K). split; [split|].
  - by intros (r & w' & H & _).
  - intros H. do 2 eexists. by split.
  - intros r w' (_ & _ & ->). unfold transferable. rewrite after_wupd, var_upd, decide_True by done. done.
Qed.
Print Assumptions C20_only_owner_switches.
(* no transaction of somebody who controls neither owner nor pending owner changes the switch *)
Theorem C20_outsiders_cannot_switch : forall adv fuel t w r w' T, reachable adv w -> kind_at w T = Some KFlex ->
  secure w (tx_sender t) (owner_of w T) -> secure w (tx_sender t) (pending_owner_of w T) ->
  run_tx adv fuel t w = Ok (r, w') -> transferable w' T = transferable w T.
Proof.
  intros adv fuel t w r w' T Hr HK H1 H2 H.
  assert (exists n0, tx_sender t = EOA n0) as [n0 E] by (destruct t; by eexists). rewrite E in *.
  assert (guarded w n0 T) as HG by (split; [by apply flex_is_owned|done]).
  pose proof HK as HK'. apply kind_at_Some in HK' as (sc & Hsc & K).
  assert (manager_of w T = None /\ pending_manager_of w T = None) as [M1 M2].
  { by eapply no_manager. }
  destruct (settings_safe adv w n0 (no_eoa_reachable _ _ Hr) (no_zero_reachable _ _ Hr) fuel t r w' T E H HG) with (sc := sc) as (sc' & Hsc' & S1 & _); [by rewrite M1|by rewrite M2|done|].
  unfold transferable. by rewrite (var_sc _ _ _ _ _ Hsc), (var_sc _ _ _ _ _ Hsc').
Qed.
Print Assumptions C20_outsiders_cannot_switch.
Example C20_example :
  let w := default world0 (play quiet 5 [TDeploy 1 9 (IFlex "Gamma" "GAM" 10 2); call 1 (SCORE 9) (MDisableTransfer true);
                                         call 1 (SCORE 9) (MIssue alice 5); call 1 (SCORE 9) (MDestroy admin 7)] ready) in
  kind_at w (SCORE 9) = Some KFlex /\ transferable w (SCORE 9) = false /\ balance_of w (SCORE 9) alice = 5 /\ supply_of w (SCORE 9) = 998.
Proof. vm_compute. done. Qed.

(* C21 *)
Theorem C21_receiver_must_handle_tokens : forall adv fuel ro s t v to x d w, is_token w t -> is_contract to = true ->
  succeeds (exec adv fuel ro s t v (MTransfer to x d)) w ->
  kind_at w to = Some KConv \/ kind_at w to = Some KNet \/ kind_at w to = Some KAdv.
Proof. intros adv fuel ro s t v to x d w HT Hto (r & w' & H). by eapply transfer_receiver. Qed.
Print Assumptions C21_receiver_must_handle_tokens.
Example C21_example : token_at ready irct /\ kind_at ready registry = Some KReg /\ kind_at ready (SCORE 99) = None /\
  (play quiet 9 [call 2 irct (MTransfer registry 1 None)] ready) = None /\ (play quiet 9 [call 2 irct (MTransfer (SCORE 99) 1 None)] ready) = None.
Proof. split; [split; [done|left; by vm_compute]|]. vm_compute. done. Qed.
