(* C84: a converter pays out genuine tokens only in conversions it announces, unless its owner acts. *)
From Coq Require Import String Ascii ZArith Lia.
From stdpp Require Import base countable list numbers strings gmap relations.
From Verif Require Import Res FormulaModel Codec CodecProofs World WorldSpec Scenario WorldBasics WorldExec WorldInv WorldMoney WorldEvents WorldLog WorldLogConv PriceSpec IssueSpec PaySpec WorldPay Properties_Converter Properties_Virtual.
Local Open Scope string_scope.
Local Open Scope list_scope.
Local Open Scope Z_scope.

Lemma net_of_payments C T l : net_transferred T C l = received C T l - paid_out C T l.
Proof.
  induction l as [|[a e] l IH]; [done|]. unfold net_transferred, received, paid_out, own_events in *. cbn. unfold sum_Z in *. cbn. rewrite IH.
  case_decide; [|lia]. cbn. destruct e; cbn; try lia. repeat case_decide; cbn; lia.
Qed.

(* One transaction by anybody but the owner, calling whatever unknown contracts to whatever depth: what the token's Transfer events
   say the converter paid is, in total, what the converter's Conversion events say it returned. *)
Theorem C84_payments_are_announced : forall adv fuel t w r w' C T, reachable adv w -> kind_at w C = Some KConv -> in_account_hands w C ->
  kind_at w T = Some KIrc \/ kind_at w T = Some KIcx -> token_of w C <> T -> tx_sender t <> owner_of w C ->
  run_tx adv fuel t w = Ok (r, w') -> paid_out C T (log_since w w') = announced C T (log_since w w').
Proof.
  intros adv fuel t w r w' C T Hr K Hh KT Ht Hn E. destruct (same_tx adv C T _ _ _ _ _ Hr K Hh Ht KT Hn E) as (l & El & H). by rewrite (since_app _ _ _ El).
Qed.
Print Assumptions C84_payments_are_announced.

Lemma later_unattended adv C w w' : unattended adv C w w' -> later adv w w'.
Proof. induction 1 as [w|w w1 w2 (_ & fuel & t & _ & ->) _ IH]; [apply rtc_refl|]. eapply rtc_l; [|exact IH]. by exists fuel, t. Qed.

(* any history of such transactions *)
Lemma same_later adv w w' C T : reachable adv w -> kind_at w C = Some KConv ->
  kind_at w T = Some KIrc \/ kind_at w T = Some KIcx -> token_of w C <> T -> unattended adv C w w' -> same C T w w'.
Proof.
  intros Hr K KT Ht HH. revert Hr K KT Ht. induction HH as [w|w w1 w2 (Hh & fuel & t & Hn & ->) _ IH]; intros Hr K KT Ht; [by exists []|].
  assert (kind_at (apply_tx adv fuel t w) C = Some KConv /\ kind_at (apply_tx adv fuel t w) T = kind_at w T /\ token_of (apply_tx adv fuel t w) C = token_of w C /\
    same C T w (apply_tx adv fuel t w)) as (K1 & K2 & K3 & l1 & E1 & B1).
  { unfold apply_tx. destruct (run_tx adv fuel t w) as [[r w']|e] eqn:E; [|split; [done|]; split; [done|]; split; [done|]; by exists []].
    assert (same C T w w') as S by by (eapply same_tx; eauto). unfold kind_at, token_of, var in *.
    destruct (w_scores w !! C) as [sc|] eqn:Hsc; [|done]. destruct (w_scores w !! T) as [st|] eqn:Hst; [|by destruct KT].
    destruct (ident_tx _ _ _ _ _ _ E _ _ Hsc) as (sc' & -> & I1). destruct (ident_tx _ _ _ _ _ _ E _ _ Hst) as (st' & -> & I2).
    cbn in *. apply id_kind in I2. pose proof (id_kind _ _ I1). pose proof (id_token _ _ I1).
    split; [congruence|]. split; [congruence|]. split; [congruence|done]. }
  rewrite <- K2 in KT. destruct (IH (reach_tx adv w fuel t Hr) K1 KT ltac:(by rewrite K3)) as (l2 & E2 & B2).
  exists (l2 ++ l1). split; [by rewrite E2, E1, app_assoc|]. rewrite paid_app, announced_app. lia.
Qed.
Theorem C84_histories : forall adv w w' C T, reachable adv w -> kind_at w C = Some KConv ->
  kind_at w T = Some KIrc \/ kind_at w T = Some KIcx -> token_of w C <> T -> unattended adv C w w' ->
  paid_out C T (log_since w w') = announced C T (log_since w w').
Proof. intros adv w w' C T Hr K KT Ht HH. destruct (same_later adv w w' C T) as (l & El & H); [done..|]. by rewrite (since_app _ _ _ El). Qed.
Print Assumptions C84_histories.

(* so, in whichever of the two sorts of token: what the converter has is what it had and received, less what it announced.  In
   particular a converter never exchanges an ICX token's balance for coins. *)
Theorem C84_balance : forall adv w w' C T, reachable adv w -> kind_at w C = Some KConv ->
  kind_at w T = Some KIrc \/ kind_at w T = Some KIcx -> token_of w C <> T -> unattended adv C w w' ->
  balance_of w' T C = balance_of w T C + received C T (log_since w w') - announced C T (log_since w w').
Proof.
  intros adv w w' C T Hr K KT Ht HH. assert (C <> T) as Hne by (intros ->; rewrite K in KT; by destruct KT).
  rewrite <- (C84_histories adv w w' C T) by auto. pose proof (later_unattended _ _ _ _ HH) as Hl.
  assert (w_scores w !! T <> None) as HT. { intros E. unfold kind_at in KT. rewrite E in KT. by destruct KT. }
  pose proof (exact_later adv T C Hne w w' Hr HT K Hl) as HU. unfold unmoved in HU.
  destruct (same_later adv w w' C T) as (l & El & _); [by auto..|].
  rewrite (since_app _ _ _ El). rewrite El, moved_app, net_of_payments in HU. lia.
Qed.
Print Assumptions C84_balance.

(* a converter's balance of any of the three sorts of token, from any reachable state on, is what the Transfer events say: the
   exception of C19, a withdrawal of coins from an ICX token, is never made by a converter, whatever its owner does *)
Theorem C19_converter_balances_are_exact : forall adv w w' C T, reachable adv w -> kind_at w C = Some KConv ->
  kind_at w T = Some KIrc \/ kind_at w T = Some KIcx \/ kind_at w T = Some KFlex -> later adv w w' ->
  balance_of w' T C - balance_of w T C = net_transferred T C (w_log w') - net_transferred T C (w_log w).
Proof.
  intros adv w w' C T Hr K KT Hl. assert (C <> T) as Hne by (intros ->; rewrite K in KT; destruct_or!; done).
  assert (w_scores w !! T <> None) as HT. { intros E. unfold kind_at in KT. rewrite E in KT. destruct_or!; done. }
  pose proof (exact_later adv T C Hne w w' Hr HT K Hl) as HU. unfold unmoved in HU. lia.
Qed.
Print Assumptions C19_converter_balances_are_exact.

(* alice exchanges 1000 of one connector token for the other: the payment is announced; the owner's withdrawal of tokens from the
   inactive converter is not *)
Definition exchange (v : Z) : tx := call 2 irct (MTransfer network v (Some (pay_path [irct; flexA; icxt] 1))).
Example C84_example : let w1 := default world0 (play quiet 20 [exchange 1000] virtual) in
  let w2 := default world0 (play quiet 20 [call 1 convA (MTransferTokenOwnership admin); call 1 flexA MAcceptOwnership; call 1 convA (MWithdrawTokens irct admin 500)] w1) in
  reachable quiet virtual /\ kind_at virtual convA = Some KConv /\ in_account_hands virtual convA /\ kind_at virtual icxt = Some KIcx /\
  token_of virtual convA <> icxt /\ tx_sender (exchange 1000) <> owner_of virtual convA /\
  (0 < announced convA icxt (log_since virtual w1) /\ paid_out convA icxt (log_since virtual w1) = announced convA icxt (log_since virtual w1)) /\
  (received convA irct (log_since virtual w1) = 1000 /\ balance_of w1 irct convA = balance_of virtual irct convA + 1000) /\
  paid_out convA irct (log_since w1 w2) = 500 /\ announced convA irct (log_since w1 w2) = 0.
Proof.
  cbv zeta. split; [exact virtual_reachable|]. split; [by vm_compute|]. split; [split; [by exists 1%N; vm_compute|left; by vm_compute]|].
  split; [by vm_compute|]. split; [by vm_compute|]. split; [by vm_compute|]. split; [by vm_compute|]. split; by vm_compute.
Qed.
(* the same exchange: the ICX token's Transfer events account for what the converter paid in it *)
Example C84_icx_example : let w1 := default world0 (play quiet 20 [exchange 1000] virtual) in
  balance_of w1 icxt convA < balance_of virtual icxt convA /\
  balance_of w1 icxt convA = balance_of virtual icxt convA + received convA icxt (log_since virtual w1) - announced convA icxt (log_since virtual w1) /\
  balance_of w1 icxt convA - balance_of virtual icxt convA = net_transferred icxt convA (w_log w1) - net_transferred icxt convA (w_log virtual).
Proof. cbv zeta. split; [by vm_compute|]. split; by vm_compute. Qed.
