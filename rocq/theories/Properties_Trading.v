(* C62: no history of transactions by outsiders drains a converter. *)
From Coq Require Import String Ascii ZArith Reals Lia.
From stdpp Require Import base countable list numbers strings gmap relations.
From Verif Require Import Res FormulaModel PoolSpec FormulaSequence Codec World WorldSpec Scenario TradingSpec WorldBasics WorldExec WorldInv WorldPool.
Local Open Scope string_scope.
Local Open Scope list_scope.
Local Open Scope Z_scope.

(* Whatever one outsider does in one transaction, with whatever contracts - the registered network and, when registry updates
   are off, the owner of the registry may be among the malicious ones -: supply and reserves change by trades at the formula's
   price (one for each Conversion event of C) and gifts, and C stays what it is. *)
Theorem C62_outsiders_only_trade : forall adv w C fuel t r w', reachable adv w -> pool_set_up w C -> stranger w C (tx_sender t) ->
  run_tx adv fuel t w = Ok (r, w') ->
  pool_set_up w' C /\ token_of w' C = token_of w C /\ registry_of w' C = registry_of w C /\ connectors_of w' C = connectors_of w C /\
  (forall x, connector_of w' C x = connector_of w C x) /\
  exists n, conversions w' C = (n + conversions w C)%nat /\
    trades (connectors_of w C) (fun x => cn_weight (connector_of w C x)) n (pool_of w C) (pool_of w' C).
Proof. exact stranger_tx. Qed.
Print Assumptions C62_outsiders_only_trade.

Section proof.
Context (adv : adversary) (w : world) (C : addr) (w' : world) (Hr : reachable adv w) (Hset : pool_set_up w C) (H : stranger_history adv C w w').
Let conns := connectors_of w C.
Let weight := fun x => cn_weight (connector_of w C x).
Lemma conn_list : List.NoDup conns /\ forall i, In i conns -> 1 <= weight i <= 1000000.
Proof.
  destruct Hset as [[[_ [K _]] _] _]. unfold kind_at in K. destruct (w_scores w !! C) as [sc|] eqn:Hsc; [|done].
  destruct (conn_reachable _ _ _ _ Hr Hsc) as [A1 A2 A3 _ _ _ _ _ _]. unfold conns, weight, connectors_of, connector_of, var. rewrite Hsc.
  split; [by apply NoDup_ListNoDup|]. intros i Hi. apply elem_of_list_In, A2, A3 in Hi. unfold conn in Hi. lia.
Qed.
Lemma pool_now : supply (pool_of w C) = supply_of w (token_of w C) /\ forall i, In i conns -> reserve_of (pool_of w C) i = balance_of w i C.
Proof. split; [done|]. intros i Hi. cbn. by rewrite decide_True by (by apply elem_of_list_In). Qed.
Lemma pool_then : supply (pool_of w' C) = supply_of w' (token_of w C) /\ forall i, In i conns -> reserve_of (pool_of w' C) i = balance_of w' i C.
Proof.
  destruct (stranger_trades _ _ _ _ Hr Hset H) as (_ & E1 & E2 & _). unfold pool_of. rewrite E1, E2. split; [done|].
  intros i Hi. cbn. by rewrite decide_True by (by apply elem_of_list_In).
Qed.
End proof.

(* After any history of transactions by outsiders: no reserve has shrunk unless flexible tokens were given up or another
   reserve has grown.  (The first condition fails only for more than 10^24 conversions or reserves of comparable size.) *)
Theorem C62_reserve_never_drained : forall adv w C w' j, reachable adv w -> pool_set_up w C -> stranger_history adv C w w' ->
  0 < supply_of w (token_of w C) -> (forall t, t ∈ connectors_of w C -> 0 < balance_of w t C) -> j ∈ connectors_of w C ->
  Z.of_nat (conversions w' C - conversions w C) * balance_of w j C * 8000000 < cn_weight (connector_of w C j) * 2 ^ 127 ->
  supply_of w (token_of w C) <= supply_of w' (token_of w C) ->
  (forall t, t ∈ connectors_of w C -> t <> j -> balance_of w' t C <= balance_of w t C) ->
  balance_of w j C <= balance_of w' j C.
Proof.
  intros adv w C w' j Hr Hset H Hsup Hres Hj Hn Hs Hothers.
  destruct (conn_list _ _ _ Hr Hset) as [Hnd Hw]. destruct (pool_now w C) as [S0 R0]. destruct (pool_then _ _ _ _ Hr Hset H) as [S1 R1].
  destruct (stranger_trades _ _ _ _ Hr Hset H) as (_ & _ & _ & _ & _ & HT).
  assert (In j (connectors_of w C)) as Hj' by (by apply elem_of_list_In).
  rewrite <- (R0 j Hj') in Hn |- *. rewrite <- (R1 j Hj'). eapply reserve_kept; [exact Hnd|exact Hw|exact HT| |exact Hj'|exact Hn| |].
  - split; [by rewrite S0|]. intros i Hi. rewrite R0 by done. by apply Hres, elem_of_list_In.
  - by rewrite S0, S1.
  - intros k Hk Hne. rewrite R0, R1 by done. by apply Hothers; [apply elem_of_list_In|].
Qed.
Print Assumptions C62_reserve_never_drained.

(* and no flexible tokens have come out unless some reserve has grown. *)
Theorem C62_no_tokens_for_free : forall adv w C w', reachable adv w -> pool_set_up w C -> stranger_history adv C w w' ->
  0 < supply_of w (token_of w C) -> (forall t, t ∈ connectors_of w C -> 0 < balance_of w t C) ->
  Z.of_nat (conversions w' C - conversions w C) * supply_of w' (token_of w C) * 8 < 2 ^ 127 ->
  (forall t, t ∈ connectors_of w C -> balance_of w' t C <= balance_of w t C) ->
  supply_of w' (token_of w C) <= supply_of w (token_of w C).
Proof.
  intros adv w C w' Hr Hset H Hsup Hres Hn Hothers.
  destruct (conn_list _ _ _ Hr Hset) as [Hnd Hw]. destruct (pool_now w C) as [S0 R0]. destruct (pool_then _ _ _ _ Hr Hset H) as [S1 R1].
  destruct (stranger_trades _ _ _ _ Hr Hset H) as (_ & _ & _ & _ & _ & HT).
  rewrite <- S1 in Hn |- *. rewrite <- S0. eapply supply_kept; [exact Hnd|exact Hw|exact HT| |exact Hn|].
  - split; [by rewrite S0|]. intros i Hi. rewrite R0 by done. by apply Hres, elem_of_list_In.
  - intros k Hk. rewrite R0, R1 by done. by apply Hothers, elem_of_list_In.
Qed.
Print Assumptions C62_no_tokens_for_free.

(* In general: the weighted geometric mean of the reserves never falls against the supply, except for rounding. *)
Theorem C62_value_never_falls : forall adv w C w', reachable adv w -> pool_set_up w C -> stranger_history adv C w w' ->
  0 < supply_of w (token_of w C) -> (forall t, t ∈ connectors_of w C -> 0 < balance_of w t C) -> 0 < supply_of w' (token_of w C) ->
  (1000000 * (ln (IZR (supply_of w' (token_of w C))) - ln (IZR (supply_of w (token_of w C))))
     - INR (conversions w' C - conversions w C) * (8000000 / 2 ^ 127)
   <= foldr Rplus 0 (map (fun t => IZR (cn_weight (connector_of w C t)) * (ln (IZR (balance_of w' t C)) - ln (IZR (balance_of w t C)))) (connectors_of w C)))%R.
Proof.
  intros adv w C w' Hr Hset H Hsup Hres Hsup'.
  destruct (conn_list _ _ _ Hr Hset) as [Hnd Hw]. destruct (pool_now w C) as [S0 R0]. destruct (pool_then _ _ _ _ Hr Hset H) as [S1 R1].
  destruct (stranger_trades _ _ _ _ Hr Hset H) as (_ & _ & _ & _ & _ & HT).
  rewrite <- S0, <- S1. erewrite map_ext_in.
  - eapply trades_value; [exact Hnd|exact Hw|exact HT| |by rewrite S1].
    split; [by rewrite S0|]. intros i Hi. rewrite R0 by done. by apply Hres, elem_of_list_In.
  - intros t Ht. cbn beta. by rewrite R0, R1.
Qed.
Print Assumptions C62_value_never_falls.

(* With a genuine network and a registry whose owner is no outsider either, the network stays genuine, too. *)
Theorem C62_network_stays : forall adv w C w', reachable adv w -> set_up w C -> outside_history adv C w w' ->
  set_up w' C /\ pool_set_up w C /\ stranger_history adv C w w'.
Proof. intros adv w C w' Hr Hset H. split; [by apply (outside_trades adv w C w')|]. split; [by apply set_up_pool|by apply outside_stranger]. Qed.
Print Assumptions C62_network_stays.

(* The converter of the demonstration history qualifies, and alice, who trades with it, is an outsider. *)
Example C62_example : reachable quiet ready /\ set_up ready convA /\ outsider ready convA alice /\
  connectors_of ready convA = [icxt; irct] /\ 0 < supply_of ready (token_of ready convA) /\ 0 < balance_of ready icxt convA /\ 0 < balance_of ready irct convA /\
  match play quiet 20 [TCall 2 network (10 ^ 18) (MConvert (path_text [icxt; flexA; irct]) 1); TCall 2 network (10 ^ 18) (MConvert (path_text [icxt; flexA; flexA]) 1)] ready with
  | Some w' => conversions w' convA = 2%nat /\ supply_of ready flexA < supply_of w' flexA /\ balance_of w' irct convA < balance_of ready irct convA
  | None => False
  end.
Proof.
  split; [apply ready_reachable|]. split; [|split].
  - split; [repeat split; by vm_compute|]. split; [by vm_compute|]. split; [by vm_compute|]. split.
    + replace (connectors_of ready convA) with [icxt; irct] by (by vm_compute). intros t Ht.
      apply elem_of_cons in Ht as [->|Ht]; [split; [right; left; by vm_compute|by vm_compute]|].
      apply elem_of_list_singleton in Ht as ->. split; [left; by vm_compute|by vm_compute].
    + right. by vm_compute.
  - assert (secure ready alice admin) as Ha by (by apply secure_user).
    assert (secure ready alice convA) as Hc.
    { apply secure_conv; [by vm_compute| |].
      - by replace (owner_of ready convA) with admin by (by vm_compute).
      - replace (pending_owner_of ready convA) with zero_score by (by vm_compute). constructor. }
    split.
    + intros X HX. replace (connectors_of ready convA) with [icxt; irct] in HX by (by vm_compute).
      replace (token_of ready convA) with flexA in HX by (by vm_compute). replace (registry_of ready convA) with registry in HX by (by vm_compute).
      destruct HX as [->|[->|[->|[HX K]]]].
      * replace (owner_of ready convA) with admin by (by vm_compute). replace (pending_owner_of ready convA) with zero_score by (by vm_compute). split; [done|constructor].
      * replace (owner_of ready flexA) with convA by (by vm_compute). replace (pending_owner_of ready flexA) with zero_score by (by vm_compute). split; [done|constructor].
      * replace (owner_of ready registry) with admin by (by vm_compute). replace (pending_owner_of ready registry) with zero_score by (by vm_compute). split; [done|constructor].
      * exfalso. apply elem_of_cons in HX as [->|HX]; [by vm_compute in K|]. apply elem_of_list_singleton in HX as ->. by vm_compute in K.
    + intros a Ha'. replace (manager_of ready convA) with (@None addr) in Ha' by (by vm_compute).
      replace (pending_manager_of ready convA) with (@None addr) in Ha' by (by vm_compute). by destruct Ha'.
  - split; [by vm_compute|]. split; [by vm_compute|]. split; [by vm_compute|]. split; [by vm_compute|]. vm_compute. done.
Qed.

(* Registry updates are off, the registry belongs to bob and names as network a contract of his, which trades directly, and once
   more while the converter pays it.  bob is a stranger nevertheless: the theorems above cover what he does. *)
Definition rogue := SCORE 9.
Definition request (to : addr) : option data := Some (DJson (<["toToken" := JStr (addr_to_string to)]> (<["minReturn" := JInt 1]> ∅))).
Definition trading : adversary := fun self c m =>
  match m with
  | MOther _ => PCall false irct 0 (MTransfer convA (10 ^ 10) (request flexA)) (fun _ =>
                PCall false flexA 0 (MTransfer convA (10 ^ 9) (request irct)) (fun _ => PRet RNone))
  | MTokenFallback from _ _ => PGet (fun z => if (z =? 0) && bool_decide (from = convA)
      then PSet 1 (PCall false flexA 0 (MTransfer convA (10 ^ 9) (request irct)) (fun _ => PRet RNone)) else PRet RNone)
  | _ => PRet RNone
  end.
Definition rigged : list tx :=
  [ call 1 convA (MDisableRegistryUpdate true); call 1 registry (MTransferOwnership bob); call 3 registry MAcceptOwnership;
    TDeploy 3 9 IAdv; call 3 registry (MRegisterAddress "Network" rogue); call 1 irct (MTransfer rogue (10 ^ 11) None) ].
Definition rigged_world : world := default world0 (play trading 20 (setup ++ rigged) world0).
Lemma rigged_played : play trading 20 (setup ++ rigged) world0 = Some rigged_world.
Proof. apply play_default. vm_compute. reflexivity. Qed.
Example C62_example_any_network : reachable trading rigged_world /\ pool_set_up rigged_world convA /\ stranger rigged_world convA bob /\
  kind_at rigged_world (network_of rigged_world convA) = Some KAdv /\ owner_of rigged_world (registry_of rigged_world convA) = bob /\
  match play trading 20 [call 3 rogue (MOther 0)] rigged_world with
  | Some w' => conversions w' convA = 3%nat /\ supply_of rigged_world flexA < supply_of w' flexA
  | None => False
  end.
Proof.
  split. { eapply play_reachable; [by constructor; apply world0_genesis|exact rigged_played]. }
  split.
  { split. { apply conj; [do 3 (apply conj; [by vm_compute|]); by vm_compute|apply conj; by vm_compute]. } split; [by vm_compute|]. split.
    - replace (connectors_of rigged_world convA) with [icxt; irct] by (by vm_compute). intros t Ht.
      apply elem_of_cons in Ht as [->|Ht]; [split; [right; left; by vm_compute|by vm_compute]|].
      apply elem_of_list_singleton in Ht as ->. split; [left; by vm_compute|by vm_compute].
    - left. by vm_compute. }
  split.
  { assert (secure rigged_world bob admin) as Ha by (by apply secure_user).
    assert (secure rigged_world bob convA) as Hc.
    { apply secure_conv; [by vm_compute| |].
      - by replace (owner_of rigged_world convA) with admin by (by vm_compute).
      - replace (pending_owner_of rigged_world convA) with zero_score by (by vm_compute). constructor. }
    split.
    - intros X HX. replace (connectors_of rigged_world convA) with [icxt; irct] in HX by (by vm_compute).
      replace (token_of rigged_world convA) with flexA in HX by (by vm_compute).
      replace (registry_updates_allowed rigged_world convA) with false in HX by (by vm_compute).
      destruct HX as [->|[->|[[_ HX]|[HX K]]]]; [| |done|].
      + replace (owner_of rigged_world convA) with admin by (by vm_compute). replace (pending_owner_of rigged_world convA) with zero_score by (by vm_compute). split; [done|constructor].
      + replace (owner_of rigged_world flexA) with convA by (by vm_compute). replace (pending_owner_of rigged_world flexA) with zero_score by (by vm_compute). split; [done|constructor].
      + exfalso. apply elem_of_cons in HX as [->|HX]; [by vm_compute in K|]. apply elem_of_list_singleton in HX as ->. by vm_compute in K.
    - intros a Ha'. replace (manager_of rigged_world convA) with (@None addr) in Ha' by (by vm_compute).
      replace (pending_manager_of rigged_world convA) with (@None addr) in Ha' by (by vm_compute). by destruct Ha'. }
  split; [by vm_compute|]. split; [by vm_compute|]. vm_compute. done.
Qed.
