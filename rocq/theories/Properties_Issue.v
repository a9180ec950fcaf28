(* C83: while a converter owns its flexible token, tokens are issued only in conversions the converter announces. *)
From Coq Require Import String Ascii ZArith Lia.
From stdpp Require Import base countable list numbers strings gmap relations.
From Verif Require Import Res FormulaModel Codec CodecProofs World WorldSpec Scenario WorldBasics WorldExec WorldInv WorldMoney WorldEvents PriceSpec IssueSpec WorldIssue Properties_Converter Properties_Virtual.
Local Open Scope string_scope.
Local Open Scope list_scope.
Local Open Scope Z_scope.

(* One transaction by anybody (the owner included), calling whatever unknown contracts to whatever depth: what the token's
   Issuance events say is, amount by amount and in the same order, what the converter's Conversion events into the token say. *)
Theorem C83_issued_only_in_conversions : forall adv fuel t w r w' C T, reachable adv w -> in_control w C T ->
  run_tx adv fuel t w = Ok (r, w') -> issued T (log_since w w') = bought C T (log_since w w').
Proof.
  intros adv fuel t w r w' C T Hr Hc E. destruct (same_tx adv C T _ _ _ _ _ Hr Hc E) as (l & El & H). by rewrite (since_app _ _ _ El).
Qed.
Print Assumptions C83_issued_only_in_conversions.

(* and only a direct call that hands over the converter or the token can end this *)
Theorem C83_control_stays : forall adv fuel t w r w' C T, reachable adv w -> in_control w C T -> ~ hands_over C T t ->
  run_tx adv fuel t w = Ok (r, w') -> in_control w' C T.
Proof. intros. eapply in_control_of, foll_inv, foll_tx; eauto. Qed.
Print Assumptions C83_control_stays.

(* any history; so the supply is what was bought, less what was destroyed *)
Theorem C83_histories : forall adv w w' C T, reachable adv w -> under_control adv C T w w' ->
  issued T (log_since w w') = bought C T (log_since w w') /\
  supply_of w' T = supply_of w T + sum_Z (bought C T (log_since w w')) - sum_Z (destroyed T (log_since w w')).
Proof.
  intros adv w w' C T Hr HH.
  assert (unlogged w' T = unlogged w T /\ same C T w w') as (U & l & El & H).
  { revert Hr. induction HH as [w|w w1 w2 (Hc & fuel & t & ->) _ IH]; intros Hr.
    { split; [done|]. by exists []. }
    assert (unlogged (apply_tx adv fuel t w) T = unlogged w T /\ same C T w (apply_tx adv fuel t w)) as (U1 & l1 & E1 & B1).
    { unfold apply_tx. destruct (run_tx adv fuel t w) as [[r w']|e] eqn:E; [|split; [done|]; by exists []].
      split; [|by eapply same_tx]. destruct Hc as (_ & KT & _). unfold kind_at in KT. destruct (w_scores w !! T) as [st|] eqn:Hst; [|done].
      eapply unlogged_tx; [|exact E]. by rewrite Hst. }
    destruct (IH (reach_tx adv w fuel t Hr)) as (U2 & l2 & E2 & B2). split; [congruence|].
    exists (l2 ++ l1). split; [by rewrite E2, E1, app_assoc|]. unfold issued, bought in *. rewrite !own_app, !omap_app. by f_equal. }
  rewrite (since_app _ _ _ El). split; [done|]. unfold unlogged in U. rewrite El, net_app, net_of_events, H in U. lia.
Qed.
Print Assumptions C83_histories.

(* a purchase of 1000, then the owner hands the token over to herself and issues 10 ^ 9 tokens: no Conversion *)
Example C83_example : let w1 := default world0 (play quiet 20 [buy 1000] virtual) in
  let w2 := default world0 (play quiet 20 [call 1 convA (MTransferTokenOwnership admin); call 1 flexA MAcceptOwnership; call 1 flexA (MIssue admin (10 ^ 9))] w1) in
  reachable quiet virtual /\ in_control virtual convA flexA /\ in_control w1 convA flexA /\ ~ hands_over convA flexA (buy 1000) /\
  (exists x, 0 < x /\ bought convA flexA (log_since virtual w1) = [x] /\ issued flexA (log_since virtual w1) = [x] /\
    supply_of w1 flexA = supply_of virtual flexA + x) /\
  issued flexA (log_since w1 w2) = [10 ^ 9] /\ bought convA flexA (log_since w1 w2) = [] /\ supply_of w2 flexA = supply_of w1 flexA + 10 ^ 9.
Proof.
  assert (forall w, kind_at w convA = Some KConv -> kind_at w flexA = Some KFlex -> token_of w convA = flexA -> owner_of w flexA = convA ->
    pending_owner_of w flexA = zero_score -> owner_of w convA = EOA 1 -> pending_owner_of w convA = zero_score -> in_control w convA flexA) as I.
  { intros w A B D F G H J. do 4 (split; [done|]). split; [by left|]. split; [by exists 1%N|by left]. }
  cbv zeta. split; [exact virtual_reachable|]. split; [by apply I; vm_compute|]. split; [by apply I; vm_compute|]. split; [exact (fun H => H)|].
  split; [|by vm_compute].
  exists (default 0 (head (issued flexA (log_since virtual (default world0 (play quiet 20 [buy 1000] virtual)))))). by vm_compute.
Qed.
