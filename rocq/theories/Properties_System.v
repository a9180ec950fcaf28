(* Property theorems about the registry, the identity of contracts, failures and event logs (C53 - C55, C60). *)
From Coq Require Import String Ascii ZArith Lia.
From stdpp Require Import base countable list numbers strings gmap relations.
From Verif Require Import Res FormulaModel Codec World WorldBasics WorldSteps WorldExec WorldSpec Scenario WorldInv WorldMoney WorldAuth
  WorldNet WorldCalls WorldViews WorldEvents WorldErrors.
Local Open Scope Z_scope.

(* C53 *)
Theorem C53_valid_entries : forall adv w R n, reachable adv w -> kind_at w R = Some KReg ->
  registered w R n = zero_score \/ (n = "ScoreRegistry" \/ n = "Network")%string /\ is_contract (registered w R n) = true.
Proof.
  intros adv w R n Hr HK. apply kind_at_Some in HK as (sc & Hsc & K). unfold registered. rewrite (var_sc _ _ _ _ _ Hsc).
  destruct (s_addrs sc !! n) as [a|] eqn:E; [|by left]. right. apply (addrs_reachable _ _ _ _ Hr Hsc) in E as (H1 & _ & H2). cbn. split; [|done].
  unfold score_keys in H1. set_solver.
Qed.
Print Assumptions C53_valid_entries.
(* getAddress answers the address in the latest AddressUpdate event for the name, the zero address if there is none *)
Theorem C53_latest_registration : forall adv w R n, reachable adv w -> is_contract R = true -> kind_at w R = Some KReg ->
  answers adv w R (MGetAddress n) (RAddr (default zero_score (latest (says_address n) (own_events R (w_log w))))).
Proof.
  intros adv w R n Hr HR HK. replace (default zero_score (latest _ _)) with (registered w R n); [by apply reg_answers|].
  apply kind_at_Some in HK as (sc & Hsc & K). unfold registered. rewrite (var_sc _ _ _ _ _ Hsc).
  refine (follows_reachable adv (fun sc => default zero_score (s_addrs sc !! n)) (says_address n) (address_step n) R zero_score KReg _ w sc Hr Hsc K).
  intros i n0 a Hi. destruct i; try done. cbn. case_decide as E; [subst; by rewrite lookup_singleton|by rewrite lookup_singleton_ne].
Qed.
Print Assumptions C53_latest_registration.
(* registering *)
Theorem C53_register : forall adv fuel s R n a w sc, is_contract R = true -> w_scores w !! R = Some sc -> s_kind sc = KReg ->
  succeeds (exec adv (S fuel) false s R 0 (MRegisterAddress n a)) w <->
  s = owner_of w R /\ (n = "ScoreRegistry" \/ n = "Network")%string /\ a <> zero_score /\ is_contract a = true.
Proof.
  intros adv fuel s R n a w sc HR Hsc K. unfold succeeds. setoid_rewrite (registerAddress_iff adv fuel s R w sc HR Hsc n a _ _ K).
  unfold owner_of. rewrite (var_sc _ _ _ _ _ Hsc). unfold score_keys. split.
  - intros (r & w' & (H1 & H2 & H3 & H4) & _). split; [done|]. split; [set_solver|done].
  - intros (H1 & H2 & H3 & H4). eexists _, _. split; [|done]. split; [done|]. split; [done|]. split; [done|]. set_solver.
Qed.
Print Assumptions C53_register.
Theorem C53_registered : forall adv fuel s R n a w r w' sc, is_contract R = true -> w_scores w !! R = Some sc -> s_kind sc = KReg ->
  exec adv (S fuel) false s R 0 (MRegisterAddress n a) w = Ok (r, w') ->
  forall n', registered w' R n' = if decide (n' = n) then a else registered w R n'.
Proof.
  intros adv fuel s R n a w r w' sc HR Hsc K H n'. apply (registerAddress_iff adv fuel s R w sc HR Hsc n a _ _ K) in H as (_ & _ & ->).
  unfold registered, var. cbn. rewrite lookup_insert, Hsc. cbn. case_decide as E; [subst; by rewrite lookup_insert|by rewrite lookup_insert_ne].
Qed.
Print Assumptions C53_registered.
Theorem C53_unregister : forall adv fuel s R n w sc, is_contract R = true -> w_scores w !! R = Some sc -> s_kind sc = KReg -> reachable adv w ->
  succeeds (exec adv (S fuel) false s R 0 (MUnregisterAddress n)) w <-> s = owner_of w R /\ registered w R n <> zero_score.
Proof.
  intros adv fuel s R n w sc HR Hsc K Hr. unfold succeeds. setoid_rewrite (unregisterAddress_iff adv fuel s R w sc HR Hsc n _ _ K).
  unfold owner_of, registered. rewrite !(var_sc _ _ _ _ _ Hsc). split.
  - intros (r & w' & (H1 & H2) & _). split; [done|]. destruct (s_addrs sc !! n) as [a|] eqn:E; [|done]. by apply (addrs_reachable _ _ _ _ Hr Hsc) in E as (_ & ? & _).
  - intros (H1 & H2). eexists _, _. split; [|done]. split; [done|]. intros E. by rewrite E in H2.
Qed.
Print Assumptions C53_unregister.
Theorem C53_unregistered : forall adv fuel s R n w r w' sc, is_contract R = true -> w_scores w !! R = Some sc -> s_kind sc = KReg ->
  exec adv (S fuel) false s R 0 (MUnregisterAddress n) w = Ok (r, w') ->
  forall n', registered w' R n' = if decide (n' = n) then zero_score else registered w R n'.
Proof.
  intros adv fuel s R n w r w' sc HR Hsc K H n'. apply (unregisterAddress_iff adv fuel s R w sc HR Hsc n _ _ K) in H as (_ & _ & ->).
  unfold registered, var. cbn. rewrite lookup_insert, Hsc. cbn. case_decide as E; [subst; by rewrite lookup_delete|by rewrite lookup_delete_ne].
Qed.
Print Assumptions C53_unregistered.
Theorem C53_fresh_registry : forall adv fuel n a w r w', run_tx adv fuel (TDeploy n a IReg) w = Ok (r, w') ->
  forall x, registered w' (SCORE a) x = if decide (x = "ScoreRegistry"%string) then SCORE a else zero_score.
Proof.
  intros adv fuel n a w r w' H x. apply deploy_inv in H as (_ & _ & _ & [->|(? & ? & ? & ? & ? & ? & _)]); [|done].
  unfold registered, var. cbn. rewrite lookup_insert. cbn. case_decide as E; [subst; by rewrite lookup_singleton|by rewrite lookup_singleton_ne].
Qed.
Print Assumptions C53_fresh_registry.
Example C53_example : registered ready registry "Network" = network /\ registered ready registry "ScoreRegistry" = registry /\
  latest (says_address "Network") (own_events registry (w_log ready)) = Some network /\
  match play quiet 20 [call 1 registry (MUnregisterAddress "Network")] ready with Some w => registered w registry "Network" = zero_score | None => False end.
Proof. vm_compute. done. Qed.

(* C54 *)
Theorem C54_identity : forall adv w w' a k, later adv w w' -> kind_at w a = Some k ->
  kind_at w' a = Some k /\ name_of w' a = name_of w a /\ symbol_of w' a = symbol_of w a /\ decimals_of w' a = decimals_of w a /\
  token_of w' a = token_of w a /\ max_fee_of w' a = max_fee_of w a /\
  (exists l, connectors_of w' a = connectors_of w a ++ l) /\
  (k = KIrc -> supply_of w' a = supply_of w a).
Proof.
  intros adv w w' a k HL HK. apply kind_at_Some in HK as (sc & Hsc & K).
  assert (all_Q ident w w') as HI.
  { clear - HL. induction HL as [w|w w1 w2 (fuel & t & ->) _ IH]; [apply all_Q_refl, ident_refl|].
    eapply all_Q_trans; [apply ident_trans| |exact IH]. unfold apply_tx. destruct (run_tx adv fuel t w) as [[r w1]|] eqn:E; [by eapply ident_tx|apply all_Q_refl, ident_refl]. }
  destruct (HI _ _ Hsc) as (sc' & Hsc' & []).
  unfold kind_at, name_of, symbol_of, decimals_of, token_of, max_fee_of, connectors_of, supply_of. rewrite !(var_sc _ _ _ _ _ Hsc), !(var_sc _ _ _ _ _ Hsc'), Hsc'. cbn.
  split; [congruence|]. repeat (split; [done|]). intros ->. auto.
Qed.
Print Assumptions C54_identity.
Example C54_example : exists w', later quiet ready w' /\ kind_at ready irct = Some KIrc /\ w' <> ready.
Proof.
  exists (apply_tx quiet 20 (call 1 irct (MTransfer bob 5 None)) ready). split; [eapply rtc_l; [|apply rtc_refl]; by eexists _, _|]. split; [by vm_compute|].
  intros E. apply (f_equal (fun w => balance_of w irct bob)) in E. by vm_compute in E.
Qed.

(* C55 *)
Theorem C55_all_or_nothing : forall adv fuel t w, apply_tx adv fuel t w = w \/ exists r, run_tx adv fuel t w = Ok (r, apply_tx adv fuel t w).
Proof. intros adv fuel t w. unfold apply_tx. destruct (run_tx adv fuel t w) as [[r w']|]; [right; by eexists|by left]. Qed.
Print Assumptions C55_all_or_nothing.
(* A genuine contract never catches a failure: if it succeeds, it would do exactly the same if all calls that fail in this
   state did anything else instead of failing. *)
Theorem C55_failures_propagate : forall (call call' : bool -> addr -> addr -> Z -> msg -> M rv) k c m w x,
  (forall ro s t v m w x, call ro s t v m w = Ok x -> call' ro s t v m w = Ok x) ->
  honest_handler call k c m w = Ok x -> honest_handler call' k c m w = Ok x.
Proof. intros call call' k c m w x H. by apply handler_le. Qed.
Print Assumptions C55_failures_propagate.
(* a larger limit on the call depth changes nothing for calls that succeed, if unknown contracts do not catch failures either *)
Theorem C55_depth : forall adv f f' ro s t v m w x, (forall a c m, never_catches (adv a c m)) -> (f <= f')%nat ->
  exec adv f ro s t v m w = Ok x -> exec adv f' ro s t v m w = Ok x.
Proof. intros adv f f' ro s t v m w x HA Hf H. induction Hf as [|f' _ IH]; [done|]. by apply exec_deeper. Qed.
Print Assumptions C55_depth.
(* one failing call deep inside a conversion: nothing happens *)
Example C55_example : forall a c m, never_catches (quiet a c m).
Proof. done. Qed.

(* C60: settings can be read off the event log *)
Theorem C60_owner : forall adv w w' a k, later adv w w' -> kind_at w a = Some k ->
  owner_of w' a = default (owner_of w a) (latest says_owner (own_events a (log_since w w'))).
Proof.
  intros adv w w' a k HL HK. apply kind_at_Some in HK as (sc & Hsc & K).
  destruct (follows_later adv s_owner says_owner owner_step a w w' HL) as (l & El & H). destruct (H _ Hsc) as (sc' & Hsc' & E).
  rewrite (since_app _ _ _ El). unfold owner_of. by rewrite (var_sc _ _ _ _ _ Hsc), (var_sc _ _ _ _ _ Hsc').
Qed.
Print Assumptions C60_owner.
Theorem C60_converter_settings : forall adv w C, reachable adv w -> kind_at w C = Some KConv ->
  manager_of w C = default None (latest says_manager (own_events C (w_log w))) /\
  fee_of w C = default 0 (latest says_fee (own_events C (w_log w))) /\
  conversions_enabled w C = default true (latest says_enabled (own_events C (w_log w))).
Proof.
  intros adv w C Hr HK. apply kind_at_Some in HK as (sc & Hsc & K). unfold manager_of, fee_of, conversions_enabled. rewrite !(var_sc _ _ _ _ _ Hsc).
  split; [|split].
  - refine (follows_reachable adv s_manager says_manager manager_step C None KConv _ w sc Hr Hsc K). intros i n0 a Hi. by destruct i.
  - refine (follows_reachable adv s_fee says_fee fee_step C 0 KConv _ w sc Hr Hsc K). intros i n0 a Hi. by destruct i.
  - refine (follows_reachable adv s_enabled says_enabled enabled_step C true KConv _ w sc Hr Hsc K). intros i n0 a Hi. by destruct i.
Qed.
Print Assumptions C60_converter_settings.
Example C60_example : latest says_fee (own_events convA (w_log ready)) = Some 3000 /\ fee_of ready convA = 3000 /\
  latest says_owner (own_events flexA (w_log ready)) = Some convA /\ owner_of ready flexA = convA.
Proof. vm_compute. done. Qed.
