(* Property theorems about owners and managers (C22 - C26, C59). *)
From Coq Require Import String Ascii ZArith Lia.
From stdpp Require Import base countable list numbers strings gmap relations.
From Verif Require Import Res Codec World WorldBasics WorldSteps WorldExec WorldSpec Scenario WorldInv WorldMoney WorldAuth
  WorldNet WorldCalls WorldViews WorldConv WorldHop WorldOwner WorldCoins WorldTrade WorldMore.
Local Open Scope Z_scope.

(* what the theorems talk about is what the contracts' read-only methods return *)
Theorem C22_owner_is_observable : forall adv w t, reachable adv w -> is_owned w t ->
  answers adv w t MGetOwner (RAddr (owner_of w t)) /\ answers adv w t MGetNewOwner (RAddr (pending_owner_of w t)).
Proof. intros adv w t Hr Ht. apply owned_answers; [|done]. destruct Ht as (k & H & _). by eapply kind_contract. Qed.
Print Assumptions C22_owner_is_observable.

(* C22 *)
Theorem C22_third_parties_cannot_move_ownership : forall adv fuel t w r w' X, reachable adv w -> is_owned w X ->
  secure w (tx_sender t) (owner_of w X) -> secure w (tx_sender t) (pending_owner_of w X) ->
  run_tx adv fuel t w = Ok (r, w') ->
  owner_of w' X = owner_of w X /\ pending_owner_of w' X = pending_owner_of w X.
Proof.
  intros adv fuel t w r w' X Hr HX H1 H2 H.
  assert (exists n0, tx_sender t = EOA n0) as [n0 E] by (destruct t; by eexists). rewrite E in *.
  by eapply (ownership_safe adv w n0 (no_eoa_reachable _ _ Hr) (no_zero_reachable _ _ Hr)).
Qed.
Print Assumptions C22_third_parties_cannot_move_ownership.
(* the simplest case: owner and pending owner are ordinary accounts (or nobody is nominated) *)
Theorem C22_accounts : forall adv fuel t w r w' X a, reachable adv w -> is_owned w X ->
  owner_of w X = EOA a -> tx_sender t <> EOA a ->
  pending_owner_of w X = zero_score \/ (exists b, pending_owner_of w X = EOA b /\ tx_sender t <> EOA b) ->
  run_tx adv fuel t w = Ok (r, w') ->
  owner_of w' X = owner_of w X /\ pending_owner_of w' X = pending_owner_of w X.
Proof.
  intros adv fuel t w r w' X a Hr HX H1 H2 H3 H. eapply C22_third_parties_cannot_move_ownership; try done.
  - rewrite H1. constructor. congruence.
  - destruct H3 as [->|(b & -> & ?)]; constructor; congruence.
Qed.
Print Assumptions C22_accounts.
(* a new owner is an account, an unknown contract, or the converter of the token *)
Theorem C22_possible_owners : forall adv w X, reachable adv w -> is_owned w X ->
  (exists n, owner_of w X = EOA n) \/ kind_at w (owner_of w X) = Some KAdv \/
  (kind_at w (owner_of w X) = Some KConv /\ token_of w (owner_of w X) = X).
Proof. intros adv w X Hr HX. by apply (owners_reachable adv). Qed.
Print Assumptions C22_possible_owners.
Example C22_example : is_owned ready convA /\ owner_of ready convA = admin /\ pending_owner_of ready convA = zero_score /\
  is_owned ready flexA /\ owner_of ready flexA = convA /\ secure ready alice convA.
Proof.
  split; [exists KConv; by vm_compute|]. split; [by vm_compute|]. split; [by vm_compute|]. split; [exists KFlex; by vm_compute|].
  split; [by vm_compute|]. apply secure_conv; [by vm_compute| |].
  - replace (owner_of ready convA) with admin by (by vm_compute). by apply secure_user.
  - replace (pending_owner_of ready convA) with zero_score by (by vm_compute). constructor.
Qed.

Lemma owned_sc w t : is_owned w t -> exists sc, w_scores w !! t = Some sc /\ owned_kind (s_kind sc) = true.
Proof.
  intros (k & H & H1 & H2). apply kind_at_Some in H as (sc & Hsc & <-). exists sc. split; [done|]. by destruct (s_kind sc).
Qed.
(* C23 *)
Theorem C23_nomination : forall adv fuel s t new w, is_contract t = true -> is_owned w t ->
  (succeeds (exec adv (S fuel) false s t 0 (MTransferOwnership new)) w <-> s = owner_of w t /\ new <> owner_of w t) /\
  forall r w', exec adv (S fuel) false s t 0 (MTransferOwnership new) w = Ok (r, w') ->
    exists sc, w_scores w !! t = Some sc /\ w' = after t (set_new_owner new sc) [] w /\
      owner_of w' t = owner_of w t /\ pending_owner_of w' t = new.
Proof.
  intros adv fuel s t new w Ht HO. destruct (owned_sc _ _ HO) as (sc & Hsc & Hk). rewrite (owner_of_sc _ _ _ Hsc).
  unfold succeeds. setoid_rewrite (transferOwnership_iff adv fuel s t w sc Ht Hsc new _ _ Hk). split; [split|].
  - by intros (r & w' & H & _).
  - intros H. do 2 eexists. by split.
  - intros r w' (_ & _ & ->). exists sc. split; [done|]. split; [done|].
    unfold owner_of, pending_owner_of. rewrite after_wupd, !var_upd, !decide_True by done. done.
Qed.
Print Assumptions C23_nomination.
Theorem C23_acceptance : forall adv fuel s t w, is_contract t = true -> is_owned w t ->
  (succeeds (exec adv (S fuel) false s t 0 MAcceptOwnership) w <-> s = pending_owner_of w t) /\
  forall r w', exec adv (S fuel) false s t 0 MAcceptOwnership w = Ok (r, w') ->
    exists sc, w_scores w !! t = Some sc /\ w' = after t (set_new_owner zero_score (set_owner s sc)) [EvOwnerUpdate (owner_of w t) s] w /\
      owner_of w' t = s /\ pending_owner_of w' t = zero_score.
Proof.
  intros adv fuel s t w Ht HO. destruct (owned_sc _ _ HO) as (sc & Hsc & Hk). rewrite (owner_of_sc _ _ _ Hsc).
  unfold pending_owner_of at 1. rewrite (var_sc _ _ _ _ _ Hsc).
  unfold succeeds. setoid_rewrite (acceptOwnership_iff adv fuel s t w sc Ht Hsc _ _ Hk). split; [split|].
  - by intros (r & w' & H & _).
  - intros H. do 2 eexists. by split.
  - intros r w' (_ & _ & ->). exists sc. split; [done|]. split; [done|].
    unfold owner_of, pending_owner_of. rewrite after_wupd, !var_upd, !decide_True by done. done.
Qed.
Print Assumptions C23_acceptance.
(* the zero address: no account and no contract, so nobody can accept a cleared nomination *)
Theorem C23_nobody_is_zero : forall adv w a, reachable adv w -> (exists n, a = EOA n) \/ w_scores w !! a <> None -> a <> zero_score.
Proof. intros adv w a Hr [[n ->]|H]; [done|]. intros ->. by rewrite (no_zero_reachable _ _ Hr) in H. Qed.
Print Assumptions C23_nobody_is_zero.
Example C23_example :
  let w := default world0 (play quiet 5 [call 1 convA (MTransferOwnership bob)] ready) in
  let w' := default world0 (play quiet 5 [call 3 convA MAcceptOwnership] w) in
  owner_of w convA = admin /\ pending_owner_of w convA = bob /\ owner_of w' convA = bob /\ pending_owner_of w' convA = zero_score /\
  play quiet 5 [call 2 convA MAcceptOwnership] w = None /\ play quiet 5 [call 1 convA (MTransferOwnership admin)] ready = None.
Proof. vm_compute. done. Qed.

(* C24: an unknown contract is not bound by any of this, hence k <> KAdv.  For withdrawTokens of a converter the check comes
   after a call of the converter's flexible token; if that is an unknown contract and the caller is a contract, it may
   take over the ownership during the call. *)
Theorem C24_owner_only : forall adv fuel ro s t v m w k, kind_at w t = Some k -> k <> KAdv -> owner_only m = true ->
  is_contract s = false \/ conv_at w t \/ (forall T to x, m <> MWithdrawTokens T to x) ->
  succeeds (exec adv fuel ro s t v m) w -> s = owner_of w t.
Proof. intros adv fuel ro s t v m w k H1 H2 H3 H4 (r & w' & H). by eapply owner_only_inv. Qed.
Print Assumptions C24_owner_only.
Theorem C24_owner_or_manager_only : forall adv fuel ro s t v m w, kind_at w t = Some KConv -> manager_only m = true ->
  succeeds (exec adv fuel ro s t v m) w -> s = owner_of w t \/ manager_of w t = Some s.
Proof. intros adv fuel ro s t v m w H1 H2 (r & w' & H). by eapply manager_only_inv. Qed.
Print Assumptions C24_owner_or_manager_only.
(* which methods these are: every method of a genuine contract that can change something but a token transfer, a
   conversion, a coin deposit or withdrawal, the destruction of own tokens, an acceptance, or (while allowed) a registry update *)
Theorem C24_the_methods : forall m, is_readonly m = false -> owner_only m = false -> manager_only m = false ->
  match m with
  | MFallback | MDeposit | MWithdraw _ | MWithdrawTo _ _ | MTransfer _ _ _ | MDestroy _ _ | MTokenFallback _ _ _
  | MConvert _ _ | MConvertFor _ _ _ | MAcceptOwnership | MAcceptManagement | MUpdateRegistry | MOther _ => True
  | _ => False
  end.
Proof. intros m. destruct m; cbn; try done; congruence. Qed.
Print Assumptions C24_the_methods.
Example C24_example : kind_at ready convA = Some KConv /\ conv_at ready convA /\
  play quiet 9 [call 2 convA (MUpdateConnector irct 1 false 0)] ready = None /\
  (w ← play quiet 9 [call 1 convA (MUpdateConnector irct 200000 false 0)] ready; Some (cn_weight (connector_of w convA irct))) = Some 200000.
Proof. split; [by vm_compute|]. split; [split; [done|]; vm_compute; done|]. vm_compute. done. Qed.

(* C25: refuted.  No converter has a manager after its installation. *)
Theorem C25_no_manager_after_installation_refuted : forall adv fuel n a token registry max_fee connector weight w r w', reachable adv w ->
  run_tx adv fuel (TDeploy n a (IConv token registry max_fee connector weight)) w = Ok (r, w') ->
  kind_at w' (SCORE a) = Some KConv /\ owner_of w' (SCORE a) = EOA n /\ manager_of w' (SCORE a) = None.
Proof. exact deployed_manager. Qed.
Print Assumptions C25_no_manager_after_installation_refuted.
(* so only the owner can appoint the first one *)
Theorem C25_owner_appoints_first_manager : forall adv fuel s t a w, is_contract t = true -> kind_at w t = Some KConv -> manager_of w t = None ->
  (succeeds (exec adv (S fuel) false s t 0 (MTransferManagement a)) w <-> s = owner_of w t).
Proof.
  intros adv fuel s t a w Ht HK HM. apply kind_at_Some in HK as (sc & Hsc & K). rewrite (owner_of_sc _ _ _ Hsc).
  unfold manager_of in HM. rewrite (var_sc _ _ _ _ _ Hsc) in HM.
  unfold succeeds. setoid_rewrite (transferManagement_iff adv fuel s t w sc Ht Hsc a _ _ K). rewrite HM. split.
  - intros (r & w' & ([H|H] & _) & _); [done|by symmetry].
  - intros ->. do 2 eexists. split; [|by split]. split; [by right|done].
Qed.
Print Assumptions C25_owner_appoints_first_manager.
Example C25_example : kind_at ready convA = Some KConv /\ manager_of ready convA = None /\ owner_of ready convA = admin /\
  (w ← play quiet 9 [call 1 convA (MTransferManagement bob); call 3 convA MAcceptManagement] ready; manager_of w convA) = Some bob.
Proof. vm_compute. done. Qed.

(* C26 *)
Theorem C26_nomination : forall adv fuel s t new w, is_contract t = true -> kind_at w t = Some KConv ->
  (succeeds (exec adv (S fuel) false s t 0 (MTransferManagement new)) w <->
   (manager_of w t = Some s \/ owner_of w t = s) /\ manager_of w t <> Some new) /\
  forall r w', exec adv (S fuel) false s t 0 (MTransferManagement new) w = Ok (r, w') ->
    exists sc, w_scores w !! t = Some sc /\ w' = after t (set_new_manager (Some new) sc) [] w /\
      manager_of w' t = manager_of w t /\ pending_manager_of w' t = Some new.
Proof.
  intros adv fuel s t new w Ht HK. apply kind_at_Some in HK as (sc & Hsc & K). rewrite (owner_of_sc _ _ _ Hsc).
  unfold manager_of, pending_manager_of. rewrite !(var_sc _ _ _ _ _ Hsc).
  unfold succeeds. setoid_rewrite (transferManagement_iff adv fuel s t w sc Ht Hsc new _ _ K). split; [split|].
  - by intros (r & w' & H & _).
  - intros H. do 2 eexists. by split.
  - intros r w' (_ & _ & ->). exists sc. split; [done|]. split; [done|]. rewrite after_wupd, !var_upd, !decide_True by done. done.
Qed.
Print Assumptions C26_nomination.
Theorem C26_acceptance : forall adv fuel s t w, is_contract t = true -> kind_at w t = Some KConv ->
  (succeeds (exec adv (S fuel) false s t 0 MAcceptManagement) w <-> pending_manager_of w t = Some s) /\
  forall r w', exec adv (S fuel) false s t 0 MAcceptManagement w = Ok (r, w') ->
    exists sc, w_scores w !! t = Some sc /\
      w' = after t (set_new_manager (Some zero_score) (set_manager (Some s) sc)) [EvManagerUpdate (manager_of w t) (Some s)] w /\
      manager_of w' t = Some s /\ pending_manager_of w' t = Some zero_score.
Proof.
  intros adv fuel s t w Ht HK. apply kind_at_Some in HK as (sc & Hsc & K).
  unfold manager_of, pending_manager_of. rewrite !(var_sc _ _ _ _ _ Hsc).
  unfold succeeds. setoid_rewrite (acceptManagement_iff adv fuel s t w sc Ht Hsc _ _ K). split; [split|].
  - by intros (r & w' & H & _).
  - intros H. do 2 eexists. by split.
  - intros r w' (_ & _ & ->). exists sc. split; [done|]. split; [done|]. rewrite after_wupd, !var_upd, !decide_True by done. done.
Qed.
Print Assumptions C26_acceptance.
(* and nothing else changes a manager or pending manager, unless the sender of the transaction is, or can act as, one of the
   four: owner, pending owner, manager, pending manager *)
Theorem C26_third_parties_cannot_move_management : forall adv fuel t w r w' X, reachable adv w -> kind_at w X = Some KConv ->
  secure w (tx_sender t) (owner_of w X) -> secure w (tx_sender t) (pending_owner_of w X) ->
  (forall a, manager_of w X = Some a -> secure w (tx_sender t) a) ->
  (forall a, pending_manager_of w X = Some a -> secure w (tx_sender t) a) ->
  run_tx adv fuel t w = Ok (r, w') ->
  manager_of w' X = manager_of w X /\ pending_manager_of w' X = pending_manager_of w X.
Proof.
  intros adv fuel t w r w' X Hr HK H1 H2 H3 H4 H.
  assert (exists n0, tx_sender t = EOA n0) as [n0 E] by (destruct t; by eexists). rewrite E in *.
  pose proof HK as HK'. apply kind_at_Some in HK' as (sc & Hsc & K).
  destruct (settings_safe adv w n0 (no_eoa_reachable _ _ Hr) (no_zero_reachable _ _ Hr) fuel t r w' X E H) with (sc := sc)
    as (sc' & Hsc' & S1 & S2 & S3 & _); [split; [by exists KConv|done]|..|done|].
  - unfold opt_secure. destruct (manager_of w X); auto.
  - unfold opt_secure. destruct (pending_manager_of w X); auto.
  - unfold manager_of, pending_manager_of. by rewrite !(var_sc _ _ _ _ _ Hsc), !(var_sc _ _ _ _ _ Hsc').
Qed.
Print Assumptions C26_third_parties_cannot_move_management.
Example C26_example :
  let w := default world0 (play quiet 9 [call 1 convA (MTransferManagement bob); call 3 convA MAcceptManagement] ready) in
  kind_at w convA = Some KConv /\ manager_of w convA = Some bob /\ pending_manager_of w convA = Some zero_score /\
  secure w alice (owner_of w convA) /\ secure w alice (pending_owner_of w convA) /\ secure w alice bob /\ secure w alice zero_score.
Proof.
  cbv zeta. set (w := default world0 _). do 3 (split; [by vm_compute|]).
  replace (owner_of w convA) with admin by (by vm_compute). replace (pending_owner_of w convA) with zero_score by (by vm_compute).
  split; [by apply secure_user|]. split; [constructor|]. split; [by apply secure_user|constructor].
Qed.

(* C59: the settings of a contract *)
Definition same_settings (w w' : world) (X : addr) : Prop :=
  owner_of w' X = owner_of w X /\ pending_owner_of w' X = pending_owner_of w X /\ pending_manager_of w' X = pending_manager_of w X /\
  transferable w' X = transferable w X /\ manager_of w' X = manager_of w X /\
  connectors_of w' X = connectors_of w X /\ total_weight_of w' X = total_weight_of w X /\
  fee_of w' X = fee_of w X /\ max_fee_of w' X = max_fee_of w X /\ token_of w' X = token_of w X /\
  conversions_enabled w' X = conversions_enabled w X /\ registry_updates_allowed w' X = registry_updates_allowed w X /\
  (registry_updates_allowed w X = false -> registry_of w' X = registry_of w X /\ prev_registry_of w' X = prev_registry_of w X) /\
  (forall t, is_connector w' X t <-> is_connector w X t) /\
  (forall t, cn_weight (connector_of w' X t) = cn_weight (connector_of w X t)) /\
  (forall t, cn_venabled (connector_of w' X t) = cn_venabled (connector_of w X t)) /\
  (forall t, cn_penabled (connector_of w' X t) = cn_penabled (connector_of w X t)) /\
  (forall t, icx_registered w' X t = icx_registered w X t) /\ (forall n, registered w' X n = registered w X n).
Lemma same_settings_of w w' X sc sc' : w_scores w !! X = Some sc -> w_scores w' !! X = Some sc' ->
  owner_of w' X = owner_of w X -> pending_owner_of w' X = pending_owner_of w X -> same_setting sc sc' -> ident sc sc' -> same_settings w w' X.
Proof.
    intros Hsc Hsc' O1 O2 S I.
    destruct S as (S1 & S2 & S3 & S4 & S5 & S6 & S7 & S8 & S9 & S10 & S11 & S12).
    split; [exact O1|]. split; [exact O2|]. clear O1 O2.
    unfold transferable, manager_of, pending_manager_of, connectors_of, total_weight_of, fee_of, max_fee_of, token_of, conversions_enabled,
      registry_updates_allowed, registry_of, prev_registry_of, is_connector.
    rewrite !(var_sc _ _ _ _ _ Hsc), !(var_sc _ _ _ _ _ Hsc').
    assert (forall a, connector_of w' X a = conn sc' a) as C' by (intros; by apply connector_of_sc).
    assert (forall a, connector_of w X a = conn sc a) as C0 by (intros; by apply connector_of_sc).
    assert (forall t, cn_set (connector_of w' X t) = true <-> cn_set (connector_of w X t) = true) as K1.
    { intros a. rewrite C', C0. destruct (S12 a) as (_ & _ & _ & ->). done. }
    assert (forall t, cn_weight (connector_of w' X t) = cn_weight (connector_of w X t)) as K2 by (intros a; rewrite C', C0; apply S12).
    assert (forall t, cn_venabled (connector_of w' X t) = cn_venabled (connector_of w X t)) as K3 by (intros a; rewrite C', C0; apply S12).
    assert (forall t, cn_penabled (connector_of w' X t) = cn_penabled (connector_of w X t)) as K4 by (intros a; rewrite C', C0; apply S12).
    assert (s_max_fee sc' = s_max_fee sc /\ s_token sc' = s_token sc) as [K5 K6] by (split; apply I).
    assert (forall t, icx_registered w' X t = icx_registered w X t) as K7.
    { intros a. unfold icx_registered. rewrite (var_sc _ _ _ _ _ Hsc), (var_sc _ _ _ _ _ Hsc'). by rewrite S9. }
    assert (forall t, registered w' X t = registered w X t) as K8.
    { intros a. unfold registered. rewrite (var_sc _ _ _ _ _ Hsc), (var_sc _ _ _ _ _ Hsc'). by rewrite S10. }
    clear C' C0 I S12. tauto.
Qed.
Theorem C59_outsiders_cannot_change_settings : forall adv fuel t w r w' X, reachable adv w -> is_owned w X ->
  secure w (tx_sender t) (owner_of w X) -> secure w (tx_sender t) (pending_owner_of w X) ->
  (forall a, manager_of w X = Some a -> secure w (tx_sender t) a) ->
  (forall a, pending_manager_of w X = Some a -> secure w (tx_sender t) a) ->
  run_tx adv fuel t w = Ok (r, w') -> same_settings w w' X.
Proof.
  intros adv fuel t w r w' X Hr HO H1 H2 H3 H4 H.
  assert (exists n0, tx_sender t = EOA n0) as [n0 E] by (destruct t; by eexists). rewrite E in *.
  destruct (owned_sc _ _ HO) as (sc & Hsc & _).
  destruct (ownership_safe adv w n0 (no_eoa_reachable _ _ Hr) (no_zero_reachable _ _ Hr) fuel t r w' X E H) as [O1 O2]; [by split|].
  destruct (settings_safe adv w n0 (no_eoa_reachable _ _ Hr) (no_zero_reachable _ _ Hr) fuel t r w' X E H) with (sc := sc)
    as (sc' & Hsc' & S); [by split|..|done|].
  - unfold opt_secure. destruct (manager_of w X); auto.
  - unfold opt_secure. destruct (pending_manager_of w X); auto.
  - destruct (ident_tx _ _ _ _ _ _ H _ _ Hsc) as (sc2 & E2 & I). rewrite Hsc' in E2. injection E2 as <-.
    by apply (same_settings_of w w' X sc sc').
Qed.
Print Assumptions C59_outsiders_cannot_change_settings.
Example C59_example : is_owned ready convA /\ secure ready alice (owner_of ready convA) /\ secure ready alice (pending_owner_of ready convA) /\
  manager_of ready convA = None /\ pending_manager_of ready convA = None /\ conversions_enabled ready convA = true /\ fee_of ready convA = 3000.
Proof.
  split; [exists KConv; by vm_compute|].
  replace (owner_of ready convA) with admin by (by vm_compute). replace (pending_owner_of ready convA) with zero_score by (by vm_compute).
  split; [by apply secure_user|]. split; [constructor|]. vm_compute. done.
Qed.
