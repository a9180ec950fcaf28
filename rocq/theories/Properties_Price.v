(* C82: connector balances can be read off the price log - except across the owner's updateConnector, fundings and withdrawals. *)
From Coq Require Import String Ascii ZArith Lia.
From stdpp Require Import base countable list numbers strings gmap relations.
From Verif Require Import Res FormulaModel Codec CodecProofs World WorldSpec Scenario WorldBasics WorldExec WorldInv WorldEvents PriceSpec WorldPrice WorldReal Properties_Converter Properties_Virtual.
Local Open Scope string_scope.
Local Open Scope list_scope.
Local Open Scope Z_scope.

(* One transaction by anybody, calling whatever unknown contracts to whatever depth (the connector tokens and the converter's own
   token included): the virtual balance is the one reported last for this connector, or the one before if none was reported. *)
Theorem C82_virtual_balance_is_reported : forall adv fuel t w r w' C T, reachable adv w -> kind_at w C = Some KConv ->
  in_account_hands w C -> has_virtual w C T -> ~ resets C T t ->
  run_tx adv fuel t w = Ok (r, w') ->
  has_virtual w' C T /\
  virtual_balance w' C T = default (virtual_balance w C T) (latest (says_price T) (own_events C (log_since w w'))).
Proof.
  intros adv fuel t w r w' C T Hr K Hh Hv Hn E. destruct (WorldPrice.follw_tx adv C T _ _ _ _ _ Hr K Hh Hv Hn E) as (_ & A & l & El & B).
  split; [done|]. by rewrite (since_app _ _ _ El).
Qed.
Print Assumptions C82_virtual_balance_is_reported.

(* any history without a direct call of updateConnector for T *)
Theorem C82_histories : forall adv w w' C T, reachable adv w -> kind_at w C = Some KConv -> has_virtual w C T -> unreset adv C T w w' ->
  has_virtual w' C T /\
  virtual_balance w' C T = default (virtual_balance w C T) (latest (says_price T) (own_events C (log_since w w'))).
Proof.
  intros adv w w' C T Hr K Hv HH.
  assert (WorldPrice.follw C T w w') as (_ & A & l & El & B).
  2:{ split; [done|]. by rewrite (since_app _ _ _ El). }
  revert Hr K Hv. induction HH as [w|w w1 w2 (Hh & fuel & t & Hn & ->) _ IH]; intros Hr K Hv.
  { split; [done|]. split; [done|]. by exists []. }
  assert (WorldPrice.follw C T w (apply_tx adv fuel t w)) as (K1 & V1 & l1 & E1 & B1).
  { unfold apply_tx. destruct (run_tx adv fuel t w) as [[r w']|e] eqn:E; [by eapply WorldPrice.follw_tx|]. split; [done|]. split; [done|]. by exists []. }
  destruct (IH (reach_tx adv w fuel t Hr) K1 V1) as (K2 & V2 & l2 & E2 & B2). split; [done|]. split; [done|].
  exists (l2 ++ l1). split; [by rewrite E2, E1, app_assoc|]. rewrite own_app, latest_app, B2, B1. by destruct (latest _ (own_events C l2)).
Qed.
Print Assumptions C82_histories.

(* The same for connectors without a virtual balance, if the connector token is a genuine IRC2 or ICX token: the converter's own
   balance of it.  Everything else may be unknown code: the converter's own token, its registry, the network, other connectors.
   Here the transactions of the owner are excluded, who can fund the converter while it is inactive, and withdraw. *)
Theorem C82_real_balance_is_reported : forall adv fuel t w r w' C T, reachable adv w -> kind_at w C = Some KConv ->
  in_account_hands w C -> has_real w C T -> tx_sender t <> owner_of w C ->
  run_tx adv fuel t w = Ok (r, w') ->
  has_real w' C T /\
  balance_of w' T C = default (balance_of w T C) (latest (says_price T) (own_events C (log_since w w'))).
Proof.
  intros adv fuel t w r w' C T Hr K Hh (Hs & Hv & KT) Hn E. destruct (follw_tx adv C T _ _ _ _ _ Hr K Hh Hs Hv KT Hn E) as (_ & A & B & D & l & El & F).
  split; [done|]. by rewrite (since_app _ _ _ El).
Qed.
Print Assumptions C82_real_balance_is_reported.

Theorem C82_real_histories : forall adv w w' C T, reachable adv w -> kind_at w C = Some KConv -> has_real w C T -> unattended adv C w w' ->
  has_real w' C T /\
  balance_of w' T C = default (balance_of w T C) (latest (says_price T) (own_events C (log_since w w'))).
Proof.
  intros adv w w' C T Hr K Hv HH.
  assert (has_real w' C T /\ exists l, w_log w' = l ++ w_log w /\ balance_of w' T C = default (balance_of w T C) (latest (says_price T) (own_events C l))) as (A & l & El & B).
  2:{ split; [done|]. by rewrite (since_app _ _ _ El). }
  revert Hr K Hv. induction HH as [w|w w1 w2 (Hh & fuel & t & Hn & ->) _ IH]; intros Hr K Hv.
  { split; [done|]. by exists []. }
  assert (follw C T w (apply_tx adv fuel t w)) as (K1 & S1 & V1 & T1 & l1 & E1 & B1).
  { unfold apply_tx. destruct Hv as (Hs & Hv & KT).
    destruct (run_tx adv fuel t w) as [[r w']|e] eqn:E; [by eapply follw_tx|]. split; [done|]. split; [done|]. split; [done|]. split; [done|]. by exists []. }
  destruct (IH (reach_tx adv w fuel t Hr) K1 (conj S1 (conj V1 T1))) as (V2 & l2 & E2 & B2). split; [done|].
  exists (l2 ++ l1). split; [by rewrite E2, E1, app_assoc|]. rewrite own_app, latest_app, B2, B1. by destruct (latest _ (own_events C l2)).
Qed.
Print Assumptions C82_real_histories.

(* and these are the balances getConnectorBalance answers *)
Theorem C82_as_answered : forall adv w C T, is_contract C = true -> is_contract T = true -> kind_at w C = Some KConv ->
  has_virtual w C T \/ has_real w C T ->
  exists z, z = (if cn_venabled (connector_of w C T) then virtual_balance w C T else balance_of w T C) /\
  forall fuel ro s, exec adv (S (S fuel)) ro s C 0 (MGetConnectorBalance T) w = Ok (RInt z, w).
Proof.
  intros adv w C T HC HT K HV. eexists. split; [reflexivity|]. intros fuel ro s. destruct C as [n|n]; [done|]. unfold kind_at in K.
  destruct (w_scores w !! SCORE n) as [sc|] eqn:Hsc; [|done]. cbn in K. injection K as K.
  assert (forall c, c_self c = SCORE n -> getConnectorBalance (exec adv (S fuel)) c T w =
    Ok (if cn_venabled (connector_of w (SCORE n) T) then virtual_balance w (SCORE n) T else balance_of w T (SCORE n), w)) as E.
  { intros c Hc. assert (cn_set (default no_connector (s_connectors sc !! T)) = true) as Hs.
    { destruct HV as [[Hs _]|[Hs _]]; unfold is_connector, connector_of, var in Hs; by rewrite Hsc in Hs. }
    unfold getConnectorBalance. apply bind_Ok. exists tt, w. split.
    - unfold require_valid_connector. apply bind_Ok. exists sc, w. split; [apply this_Ok; by rewrite Hc|]. by apply require_Ok.
    - apply bind_Ok. exists sc, w. split; [apply this_Ok; by rewrite Hc|].
      unfold virtual_balance, connector_of, var. rewrite Hsc. unfold conn.
      destruct HV as [[_ Hv]|(_ & Hv & KT)]; unfold connector_of, var in Hv; rewrite Hsc in Hv; rewrite Hv; [done|].
      apply bind_Ok. exists (RInt (balance_of w T (SCORE n))), w. split; [|done]. unfold ecall. rewrite Hc.
      destruct T as [k|k]; [done|]. unfold kind_at in KT. unfold balance_of, var. destruct (w_scores w !! SCORE k) as [st|] eqn:Hst; [|by destruct KT].
      cbn in KT. cbn [World.exec]. unfold bind, require, move_icx, get_score.
      destruct KT as [[= KT]|[= KT]], (c_ro c); cbn; rewrite Hst, KT; cbn; unfold bind, this, get_score; cbn; by rewrite Hst. }
  cbn [World.exec]. unfold bind, require, move_icx, get_score.
  destruct ro; cbn; rewrite Hsc, K; cbn; unfold bind; rewrite E; done.
Qed.
Print Assumptions C82_as_answered.

(* The owner's updateConnector sets any virtual balance and logs nothing *)
Theorem C82_reset_is_silent : forall adv fuel s w C T weight z r w', kind_at w C = Some KConv ->
  exec adv fuel false s C 0 (MUpdateConnector T weight true z) w = Ok (r, w') ->
  virtual_balance w' C T = z /\ log_since w w' = [].
Proof.
  intros adv fuel s w C T weight z r w' K E. destruct fuel as [|f]; [done|]. apply exec_inv in E as (w1 & Ei & _ & E); [|apply exec_keeps].
  assert (w1 = w) as ->. { unfold move_icx in Ei. cbn in Ei. by injection Ei as <-. }
  destruct E as [(k & _ & ? & _)|(sc & Ht & Hsc & _ & _ & Hh & _)]; [done|].
  unfold kind_at in K. rewrite Hsc in K. cbn in K. injection K as K. rewrite K in Hh. specialize (Hh ltac:(done)).
  cbn [honest_handler conv_handler owned_methods managed_methods] in Hh. unfold done_, updateConnector, require_owner_only, require_valid_connector, require_valid_connector_weight in Hh.
  mrun Hh. cbn in *. scunify. split.
  - unfold virtual_balance, connector_of, var. cbn. rewrite lookup_insert. cbn. by rewrite lookup_insert.
  - unfold log_since. cbn. by rewrite Nat.sub_diag.
Qed.
Print Assumptions C82_reset_is_silent.

Example C82_example : let w1 := default world0 (play quiet 20 [buy 1000] virtual) in
  let w2 := default world0 (play quiet 20 [call 1 convA (MUpdateConnector irct 300000 true 77)] w1) in
  reachable quiet virtual /\ kind_at virtual convA = Some KConv /\ in_account_hands virtual convA /\ has_virtual virtual convA irct /\
  ~ resets convA irct (buy 1000) /\
  virtual_balance virtual convA irct = 10 ^ 8 /\ virtual_balance w1 convA irct = 10 ^ 8 + 1000 /\
  latest (says_price irct) (own_events convA (log_since virtual w1)) = Some (10 ^ 8 + 1000) /\
  virtual_balance w2 convA irct = 77 /\ latest (says_price irct) (own_events convA (w_log w2)) = Some (10 ^ 8 + 1000).
Proof.
  cbv zeta. split; [exact virtual_reachable|]. split; [by vm_compute|]. split; [split; [by exists 1%N; vm_compute|left; by vm_compute]|].
  split; [split; by vm_compute|]. split; [by intros []|]. split; [by vm_compute|]. split; [by vm_compute|]. split; [by vm_compute|].
  split; by vm_compute.
Qed.

(* the same state for the other connector, the ICX token: an exchange for it is reported too *)
Definition exchange (v : Z) : tx := call 2 irct (MTransfer network v (Some (pay_path [irct; flexA; icxt] 1))).
Example C82_real_example : let w1 := default world0 (play quiet 20 [exchange 1000] virtual) in
  has_real virtual convA icxt /\ tx_sender (exchange 1000) <> owner_of virtual convA /\
  balance_of w1 icxt convA < balance_of virtual icxt convA /\
  latest (says_price icxt) (own_events convA (log_since virtual w1)) = Some (balance_of w1 icxt convA).
Proof.
  cbv zeta. split; [split; [by vm_compute|split; [by vm_compute|right; by vm_compute]]|]. split; [by vm_compute|]. split; by vm_compute.
Qed.
